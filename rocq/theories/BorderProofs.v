(** A text and its border, from the calls to the file (C80). *)
From Coq Require Import String List ZArith Lia Bool Reals Lra.
From Coq.Floats Require Import SpecFloat.
From Flocq Require Import Core.Core IEEE754.BinarySingleNaN.
From Verif Require Import Base BaseProofs PdfSyntax PdfSyntaxProofs Utf8 Float64 FloatReal Ttf TtfSpec CharMap Output OutputSpec Props PropsSpec PdfData PagesSpec Inject InjectSpec Crawl ContentSpec ImgSpec Subset Text TextSpec TextPlaceSpec TextNumbers TextDraw TextBody TextContent TextFinal TextCases TextCases2 TextPlace TextPlaced
  ImgDraw Wrap Parse Png Crypto Api ApiSpec ApiProofs ApiIds ApiFrames SaveSpec SaveDoc SaveWhole SaveLockSpec SaveLock SaveDrawSpec SaveDraws SaveCalls SaveDrawn FontChainSpec FontChain PlaceCases BorderSpec BorderLines.
Open Scope Z_scope.
Open Scope list_scope.

Lemma insert_adds : forall w fuel t pg x y wd h al c s s', call_of w fuel (KInsert t pg x y wd h al c) s = Ok (s', None) ->
  exists id ph, pageHeight s pg = Ok ph /\ s_cont s' = s_cont s ++ [CText id (mkText t c (s_style s) (s_size s) pg x y wd h al (s_line s) ph)].
Proof.
  intros w fuel t pg x y wd h al c s s' C. cbn [call_of] in C. unfold insert_text in C. apply bind_ok in C as (ph & Ep & C). cbv beta in C.
  destruct (lookup _ _) as [id|]; [|discriminate]. destruct (nth_error (s_fonts s) id) as [f|] eqn:Ef; [|discriminate].
  destruct (font_add f t) as [f' r]. cbv zeta in C. destruct r as [[]| | |]; try discriminate. unfold ok in C. exists id, ph. split; [exact Ep|]. injection C as <-. reflexivity.
Qed.
Lemma drawn_split : forall a b k, ContentSpec.drawn (a ++ b) k = ContentSpec.drawn a k ++ ContentSpec.drawn b k.
Proof. induction a as [|[j z] a IH]; intros b k; [reflexivity|]. cbn [app ContentSpec.drawn]. rewrite IH. destruct (j =? k); [rewrite app_assoc|]; reflexivity. Qed.
Lemma forall2_split : forall (A B0 : Type) (R : A -> B0 -> Prop) a b l, Forall2 R (a ++ b) l -> exists l1 l2, l = l1 ++ l2 /\ Forall2 R a l1 /\ Forall2 R b l2.
Proof. intros A B0 R a b l H. apply Forall2_app_inv_l in H as (l1 & l2 & H1 & H2 & E). eauto. Qed.

Lemma border_half : (Rabs (val (fconst 1 10) / 2 - 1 / 20) <= 1 / 1000000)%R.
Proof.
  assert (E : fconst 1 10 = S754_finite false 7205759403792794 (-56)) by (vm_compute; reflexivity). rewrite E. unfold val, SF2R, F2R. cbn [cond_Zopp Fnum Fexp bpow radix_val radix2].
  change (Z.pow_pos 2 56) with 72057594037927936%Z. apply Rabs_le. split; lra.
Qed.
Lemma shown_border : forall b, fgt (width_of_border b) (fofz 0) = b. Proof. intros []; reflexivity. Qed.

Section Save.
  Variables (w : world) (fuel : nat) (ch : choices) (s s' : state) (F : bytes) (rid : Z) (ts : list tree) (fi xi : Z -> res_place).
  Variables (srcs : list (option (Z * bytes))) (p' : pdf) (ins : inserts).
  Hypothesis Save : saveTo w fuel ch s = Ok (s', Ok F).
  Hypothesis Fr : fair (ch_ord ch).
  Hypothesis Page : exists L, In L (flat_map leaves ts) /\ pictured (flat_map leaves ts) xi L.
  Hypothesis D : saved_document w s s' rid ts fi xi srcs p' ins.

  Lemma saved_set : forall pg e, well_set s pg e -> (match e with CLine b w => w = width_of_border b | _ => True end) -> set_for (s_fonts s') (s_imgs s') pg e.
  Proof.
    intros pg e W L. destruct e as [b z|id c|id p x y wd h height]; cbn [well_set set_for] in *; [exact L| |].
    - intros Ep. destruct (W Ep) as (f & d & u & a & b & up & uh & Hf & Si). pose proof (saved_faces _ _ _ _ _ _ Save Fr) as M. pose proof (map_nth_error sfont_of _ _ Hf) as M1. rewrite <- M, nth_error_map in M1.
      destruct (nth_error (s_fonts s') id) as [f'|]; [|discriminate]. assert (E : sfont_of f' = sfont_of f) by (cbn [option_map] in M1; congruence). exists f', d, u, a, b, up, uh. split; [reflexivity|]. rewrite E. exact Si.
    - intros Ep. destruct (W Ep) as (Px & Py & Pw & Ph & Pt & i & Hi). repeat (split; [assumption|]).
      destruct Page as (L0 & HL & Pc). destruct (sd_images _ _ _ _ _ _ _ _ _ _ D L0 HL Pc) as (xps' & Pi & _ & New). destruct (New id i Hi) as (i' & n & Hi' & Ed & Nm & Ob). exists i'. split; [exact Hi'|].
      exact (image_reg _ _ _ _ _ _ _ Save Fr L0 xps' id i' n Pi Hi' Nm).
  Qed.
  Lemma bordered_piece : forall pre id c post b, s_cont s = pre ++ CText id c :: post ->
    (exists x l, pre = x ++ CLine b (width_of_border b) :: l /\ forallb (fun e => negb (is_line e)) l = true) -> ct_line c = width_of_border b ->
    Forall (fun e => well_set s (ct_page c) e /\ match e with CLine b w => w = width_of_border b | _ => True end) (pre ++ [CText id c]) ->
    exists before ops after, ContentSpec.drawn ins (ct_page c) = before ++ ops ++ after /\ ContentSpec.inserted ins (ct_page c) /\
      forall st, g_text st = false -> g_cm st = None -> exists st1 st2 ms0 ms br, draws before st st1 ms0 /\ draws ops st1 st2 (ms ++ br) /\ Forall no_stroke ms /\
        bordered b (if ct_page c =? 1 then dotted_thin else line_style st) (val (ct_x c)) (val (ct_y c)) (val (ct_w c)) (val (ct_h c)) (val (ct_height c)) br.
  Proof.
    intros pre id c post b Ec (x & l & Ex & Nl) El Ws.
    assert (SF : Forall (set_for (s_fonts s') (s_imgs s') (ct_page c)) pre).
    { apply Forall_app in Ws as (W1 & _). eapply Forall_impl; [|exact W1]. intros e (A & C). apply saved_set; assumption. }
    pose proof (sd_drawn _ _ _ _ _ _ _ _ _ _ D) as Dr. rewrite Ec in Dr.
    apply forall2_split in Dr as (i1 & i2 & Ei & D1 & D2). inversion D2 as [|? [p ops] ? i3 E D3]; subst. cbn [fst snd content_of] in E.
    apply Forall_app in Ws as (W1 & W2). inversion W2 as [|? ? W3 _]; subst. destruct (W3) as (W4 & _). cbn [well_set] in W4. destruct (W4 eq_refl) as (f & d & u & a & b0 & up & uh & Hf & Si).
    pose proof (saved_faces _ _ _ _ _ _ Save Fr) as M. pose proof (map_nth_error sfont_of _ _ Hf) as M1. rewrite <- M, nth_error_map in M1.
    destruct (nth_error (s_fonts s') id) as [f'|] eqn:Hf'; [|discriminate]. assert (Ef : sfont_of f' = sfont_of f) by (cbn [option_map] in M1; congruence). rewrite Ef in E.
    assert (Ep : p = ct_page c) by congruence. assert (Eo : text_stream (sfont_of f) (fd_index f') c = Ok ops) by congruence. subst p.
    exists (ContentSpec.drawn i1 (ct_page c)), ops, (ContentSpec.drawn i3 (ct_page c)). split; [|split].
    - rewrite drawn_split. cbn [ContentSpec.drawn]. rewrite Z.eqb_refl. reflexivity.
    - exists ops. apply in_or_app. right. left. reflexivity.
    - intros st T Cm.
      destruct (pieces_drawn _ _ _ _ _ st D1 SF T Cm) as (st1 & ms0 & K1 & K2 & K3 & K4). rewrite style_last in K4 by exact Nl.
      destruct (decoration_placed _ _ _ _ _ _ _ _ Si (fd_index f') st1 K2) as (o & st2 & ms & ul & br & Eo' & Dt & Fm & Ul & Br). assert (o = ops) by congruence. subst o.
      exists st1, st2, ms0, (ms ++ ul), br. split; [|split; [|split]].
      + apply draws_drawn. specialize (K1 [] (st1, None) [] (drawn_end [] (st1, None) eq_refl)). rewrite !app_nil_r in K1. exact K1.
      + rewrite <- app_assoc. exact Dt.
      + apply Forall_app. split; [eapply Forall_impl; [|exact Fm]; intros []; cbn [no_stroke]; tauto|]. destruct (Z.testbit (ct_style c) 2); [|subst ul; constructor].
        destruct Ul as (x0 & y0 & w0 & h0 & fill & -> & _). constructor; [exact Logic.I|constructor].
      + rewrite El, shown_border in Br. unfold bordered. destruct b; [|exact Br]. destruct Br as (x0 & x1 & x2 & x3 & y0 & y1 & Eb & N0 & N1 & N2 & N3 & M0 & M2).
        exists x0, x1, x2, x3, y0, y1, (val (fconst 1 10) / 2)%R. split; [|split; [exact border_half|split; [exact N0|split; [exact N1|split; [exact N2|split; [exact N3|split; [exact M0|exact M2]]]]]]].
        rewrite Eb. unfold line_style in K4. destruct (ct_page c =? 1); [cbn [style_for] in K4|]; injection K4 as -> ->; reflexivity.
  Qed.
End Save.

Theorem border_from_calls : forall w fuel ch cs1 s1 log1 t pg x y wd h al c s2 cs2 log2 s s' F rid ts fi xi srcs pw b,
  history w fuel cs1 new_pdft = Ok (s1, log1) -> border_is log1 b -> call_of w fuel (KInsert t pg x y wd h al c) s1 = Ok (s2, None) -> history w fuel cs2 s2 = Ok (s, log2) ->
  saveTo w fuel ch s = Ok (s', Ok F) -> fair (ch_ord ch) -> protected_by s pw ->
  ready_document (d_pdf (s_doc s)) rid ts fi xi ->
  Forall2 (source (w_inflate w) (objs (d_pdf (s_doc s)))) (flat_map leaves ts) srcs ->
  (forall c, In c (content_ids srcs) -> ~ In c (root (d_pdf (s_doc s)) :: rid :: flat_map tree_ids ts) /\ ~ page_object (flat_map leaves ts) fi c) ->
  (depth (Node rid ts) <= fuel)%nat -> 0 <= root (d_pdf (s_doc s)) -> blen F < 10 ^ 10 ->
  (exists L, In L (flat_map leaves ts) /\ pictured (flat_map leaves ts) xi L) ->
  (forall e, In e (s_cont s2) -> well_set s pg e) ->
  exists p' ins ph before ops after, file_holds F p' pw /\ saved_document w s s' rid ts fi xi srcs p' ins /\ pageHeight s1 pg = Ok ph /\
    (forall pid cid old, own_page ts srcs pg pid cid old -> page_shows (objs p') pid cid (old ++ [10] ++ before ++ ops ++ after)) /\
    forall st, g_text st = false -> g_cm st = None -> exists st1 st2 ms0 ms br, draws before st st1 ms0 /\ draws ops st1 st2 (ms ++ br) /\ Forall no_stroke ms /\
      bordered b (if pg =? 1 then dotted_thin else line_style st) (val x) (val y) (val wd) (val h) (val ph) br.
Proof.
  intros w fuel ch cs1 s1 log1 t pg x y wd h al c s2 cs2 log2 s s' F rid ts fi xi srcs pw b H1 Bi Ca H2 Hs Fr Pr OR Sr Ap Dp Rt Sm Pg Ws.
  pose proof (history_join w fuel cs1 (KInsert t pg x y wd h al c :: cs2) new_pdft s1 log1 s ((KInsert t pg x y wd h al c, None) :: log2) H1) as Hh.
  cbn [history] in Hh. rewrite Ca in Hh. cbn [bind fst snd] in Hh. rewrite H2 in Hh. cbn [bind fst snd] in Hh. specialize (Hh eq_refl).
  destruct (border_state _ _ _ _ _ _ H1 Bi) as (Sl & Bl). pose proof (history_lined _ _ _ _ _ _ H1 (Forall_nil _)) as Li.
  pose proof (call_lined _ _ _ _ _ _ Ca Li) as Li2.
  destruct (insert_adds _ _ _ _ _ _ _ _ _ _ _ _ Ca) as (id & ph & Ep & Ec).
  destruct (gr_cont _ _ (history_grown _ _ _ _ _ _ H2)) as (more & Em). rewrite Ec, <- app_assoc in Em. cbn [app] in Em.
  destruct (saved_either _ _ _ _ _ _ _ _ _ _ _ _ _ _ Hh Hs Fr Pr OR Sr Ap Dp Rt Sm) as (p' & ins & Fo & D).
  destruct (bordered_piece w fuel ch s s' F rid ts fi xi srcs p' ins Hs Fr Pg D _ _ _ _ b Em Bl Sl) as (before & ops & after & E & Ins & Dr).
  { rewrite <- Ec. cbn [ct_page]. apply Forall_forall. intros e He. split; [apply Ws; exact He|]. unfold lines_right in Li2. rewrite Forall_forall in Li2. exact (Li2 e He). }
  cbn [ct_page ct_x ct_y ct_w ct_h ct_height] in E, Ins, Dr.
  exists p', ins, ph, before, ops, after. split; [exact Fo|]. split; [exact D|]. split; [exact Ep|]. split; [|exact Dr].
  intros pid cid old (K1 & HL & Src & Own). rewrite <- E. apply (sd_contents _ _ _ _ _ _ _ _ _ _ D pg pid cid old HL).
  - split; [exact K1|]. split; [exact Src|exact Ins].
  - intros k' t' Hk (K1' & Sr' & _). apply Own in Sr'. lia.
Qed.
