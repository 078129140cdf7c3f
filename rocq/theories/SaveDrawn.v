(** From the call that draws to the file (C72). *)
From Coq Require Import String List ZArith Lia Bool Reals Lra.
From Coq.Floats Require Import SpecFloat.
From Verif Require Import Base BaseProofs Output OutputSpec Props PropsSpec PdfData PagesSpec Inject InjectSpec Crawl ContentSpec ImgSpec Utf8 Float64 FloatReal Ttf TtfSpec TtfProofs CharMap Subset Text TextSpec TextPlaceSpec TextCases TextFinal TextPlace TextPlaced Wrap FontObjects FontChainSpec FontChain
  Parse Png Crypto Api ApiSpec ApiProofs ApiIds ApiFrames ApiImages ApiMore SaveSpec SaveDoc SaveWhole SaveLockSpec SaveLock SaveDrawSpec SaveDraws SaveCalls PlaceCases.
Open Scope Z_scope.
Open Scope list_scope.

Lemma history_join : forall w fuel a b s s1 l1 s2 l2, history w fuel a s = Ok (s1, l1) -> history w fuel b s1 = Ok (s2, l2) -> history w fuel (a ++ b) s = Ok (s2, l1 ++ l2).
Proof.
  intros w fuel. induction a as [|c a IH]; intros b s s1 l1 s2 l2 H1 H2; cbn [history app] in *.
  - assert (s1 = s) by congruence. assert (l1 = []) by congruence. subst. exact H2.
  - apply bind_ok in H1 as ([s3 e] & E & H1). cbn [fst snd] in H1. apply bind_ok in H1 as ([s4 l4] & E2 & H1). cbn [fst snd] in H1. assert (s4 = s1) by congruence. subst s4.
    rewrite E. cbn [bind fst snd]. rewrite (IH _ _ _ _ _ _ E2 H2). cbn [bind fst snd]. injection H1 as <-. reflexivity.
Qed.
Lemma history_calls : forall w fuel cs s s' log, history w fuel cs s = Ok (s', log) -> map fst log = cs.
Proof.
  intros w fuel. induction cs as [|c cs IH]; intros s s' log H; cbn [history] in H; [assert (log = []) by congruence; subst; reflexivity|].
  apply bind_ok in H as ([s1 e] & E & H). cbn [fst snd] in H. apply bind_ok in H as ([s2 l2] & E2 & H). cbn [fst snd] in H. assert (L : log = (c, e) :: l2) by congruence. subst log.
  cbn [map fst]. rewrite (IH _ _ _ E2). reflexivity.
Qed.
Definition is_save (c : call) : bool := match c with KSave _ => true | _ => false end.

(** ** Until it is saved no font has objects, and a line is as ShowCellBorder sets it *)
Definition thin (x : f64) : Prop := x = fofz 0 \/ x = fofz 1 \/ x = fconst 1 10.
Record fresh (s : state) : Prop := mkFresh { fr_bufs : Forall unbuilt (s_fonts s); fr_line : thin (s_line s) }.
Lemma set_forall : forall (A : Type) (P : A -> Prop) f l n, Forall P l -> (forall x, P x -> P (f x)) -> Forall P (set_nth n f l).
Proof. intros A P f. induction l as [|a l IH]; intros [|n] H G; cbn [set_nth]; auto; inversion H; subst; constructor; auto. Qed.
Lemma fresh_same : forall s s', s_fonts s' = s_fonts s -> s_line s' = s_line s -> fresh s -> fresh s'.
Proof. intros s s' F L [A C]. split; congruence. Qed.
Lemma fresh_upd : forall s id g, fresh s -> (forall f, unbuilt f -> unbuilt (g f)) -> fresh (upd_font s id g).
Proof. intros s id g [A C] G. split; [apply set_forall; auto|exact C]. Qed.
Lemma insert_fresh : forall t pg x y w h al c s s' e, insert_text t pg x y w h al c s = Ok (s', e) -> fresh s -> fresh s'.
Proof.
  intros t pg x y w h al c s s' e H Fr. unfold insert_text in H. apply bind_ok in H as (ph & _ & H). cbv beta in H.
  destruct (lookup _ _) as [id|]; [|unfold fails in H; assert (s' = s) by congruence; subst; exact Fr].
  destruct (nth_error _ id) as [f|] eqn:Ef; [|discriminate]. destruct (font_add f t) as [f' r] eqn:Ea. cbv zeta in H.
  assert (U : unbuilt f'). { unfold font_add in Ea. destruct (add_chars _ _ _) as (m, o). injection Ea as <- _. destruct Fr as [A _]. rewrite Forall_forall in A. exact (A f (nth_error_In _ _ Ef)). }
  assert (G : forall z, fresh (upd_font (with_cont s z) id (fun _ => f'))) by (intros z; apply fresh_upd; [apply (fresh_same s); [reflexivity|reflexivity|exact Fr]|intros; exact U]).
  destruct r; try discriminate; unfold ok, fails in H; injection H as <- _; apply G.
Qed.
Lemma lines_fresh : forall ls pg x w h al c s s' e, insert_lines ls pg x w h al c s = Ok (s', e) -> fresh s -> fresh s'.
Proof.
  induction ls as [|[t y] ls IH]; intros pg x w h al c s s' e H Fr; cbn [insert_lines] in H; [unfold ok in H; assert (s' = s) by congruence; subst; exact Fr|].
  apply bind_ok in H as ([s1 e1] & E & H). cbn [fst snd] in H. apply insert_fresh in E; [|exact Fr].
  destruct e1; [unfold fails in H; assert (s' = s1) by congruence; subst; exact E|]. eauto.
Qed.
Lemma mapped : forall m f, unbuilt f -> unbuilt (set_map f m). Proof. intros m f H. exact H. Qed.
Lemma new_image_fresh : forall w b i s s' e, new_image w b i s = Ok (s', e) -> fresh s -> fresh s'.
Proof.
  intros w b i s s' e H. unfold new_image in H. destruct (insertImgObj _ _ _ _ _ _) as [[p d]| | |]; try discriminate; unfold ok, fails in H; injection H as <- _; apply fresh_same; reflexivity.
Qed.
Lemma place_fresh : forall id pg x y w h s s' e, place_image id pg x y w h s = Ok (s', e) -> fresh s -> fresh s'.
Proof. intros id pg x y w h s s' e H. unfold place_image in H. apply bind_ok in H as (ph & _ & H). unfold ok in H. injection H as <- _. apply fresh_same; reflexivity. Qed.
Lemma insertImg_fresh : forall wd b i pg x y w h s s' e, insertImg wd b i pg x y w h s = Ok (s', e) -> fresh s -> fresh s'.
Proof.
  intros wd b i pg x y w h s s' e H Fr. unfold insertImg in H. apply bind_ok in H as ([s1 e1] & E & H). cbn [fst snd] in H. apply new_image_fresh in E; [|exact Fr].
  destruct e1; [unfold fails in H; assert (s' = s1) by congruence; subst; exact E|]. apply place_fresh in H; auto.
Qed.
Lemma page_fresh : forall s o s' e, page_call s o = Ok (s', e) -> fresh s -> fresh s'.
Proof.
  intros s o s' e H. unfold page_call in H. destruct o as [[p q]| | |]; try discriminate; [injection H as <- _; apply fresh_same; reflexivity|].
  unfold fails in H. injection H as <- _. auto.
Qed.
Lemma call_fresh : forall w fuel c s s' e, is_save c = false -> call_of w fuel c s = Ok (s', e) -> fresh s -> fresh s'.
Proof.
  intros w fuel c s s' e N H Fr.
  assert (R : forall z, Ok (s, z) = Ok (s', e) -> fresh s') by (intros z X; assert (s' = s) by congruence; subst; exact Fr).
  destruct c; try discriminate; cbn [call_of] in H.
  - unfold openFrom in H. cbv zeta in H. destruct (PDFParse _ _ _ _) as (d, r). destruct r; try discriminate; unfold ok, fails in H; injection H as <- _.
    + split; [exact (fr_bufs _ Fr)|]. left. reflexivity.
    + split; [exact (fr_bufs _ Fr)|]. right. left. reflexivity.
  - unfold addFont in H. destruct (lookup _ _); [unfold fails in H; eauto|].
    destruct (match file with Some d => parseTtf d | None => Err EOther end) as [t| | |]; try discriminate; [|unfold fails in H; eauto].
    destruct (s_names s) as [ns|]; [|discriminate]. unfold ok in H. injection H as <- _. split; [|exact (fr_line _ Fr)]. cbn [with_names with_fonts s_fonts].
    apply Forall_app. split; [exact (fr_bufs _ Fr)|]. constructor; [reflexivity|constructor].
  - unfold textriseOverride in H. destruct (lookup _ _) as [id|]; [|unfold fails in H; eauto]. unfold ok in H. injection H as <- _. apply fresh_upd; auto.
  - unfold kernOverride in H. destruct (lookup _ _) as [id|]; [|unfold fails in H; eauto]. unfold ok in H. injection H as <- _. apply fresh_upd; auto.
  - unfold setFont in H. destruct (lookup _ _); [|unfold fails in H; eauto]. unfold ok in H. injection H as <- _. apply (fresh_same s); auto.
  - eapply insert_fresh; eauto.
  - unfold insertWrapText in H. destruct breaker as [b0|]; [|eapply insert_fresh; eauto].
    destruct (b0 text) as [toks| | |]; try discriminate; [|unfold fails in H; eauto]. destruct (forallb _ toks); [unfold ok in H; eauto|].
    destruct (lookup _ _) as [id|]; [|discriminate]. destruct (nth_error _ id) as [f|]; [|discriminate]. apply bind_ok in H as (ph & _ & H). cbv beta in H.
    destruct (wrap_lines _ _ _ _ _ _) as [f' r]. cbv zeta in H. assert (G : fresh (upd_font s id (fun f => set_map f (sf_map f')))) by (apply fresh_upd; [exact Fr|apply mapped]).
    destruct r as [ls| | |]; try discriminate; [|unfold fails in H; injection H as <- _; exact G]. eapply lines_fresh; eauto.
  - apply bind_ok in H as ([s1 r] & E & H). cbn [fst snd] in H. assert (s' = s1) by congruence. subst. unfold measureTextWidth in E.
    destruct (lookup _ _) as [id|]; [|discriminate]. destruct (nth_error _ id) as [f|]; [|discriminate]. destruct (measure_text _ _ _) as [f' q]. apply bind_ok in E as (ph & _ & E). cbv beta zeta in E.
    assert (G : fresh (upd_font s id (fun f => set_map f (sf_map f')))) by (apply fresh_upd; [exact Fr|apply mapped]). destruct q; try discriminate; injection E as <- _; exact G.
  - eapply insertImg_fresh; eauto.
  - unfold insertImgBase64 in H. destruct (w_base64 w b64); try discriminate; [|unfold fails in H; eauto]. eapply insertImg_fresh; eauto.
  - unfold insertImgWithCache in H. cbv zeta in H. destruct (lookup _ _); [eapply place_fresh; eauto|].
    apply bind_ok in H as ([s1 e1] & E & H). cbn [fst snd] in H. apply new_image_fresh in E; [|exact Fr]. destruct e1; [unfold fails in H; assert (s' = s1) by congruence; subst; exact E|].
    destruct (s_cache s) as [c|]; [|discriminate]. apply place_fresh in H; [exact H|]. apply (fresh_same s1); auto.
  - unfold ok in H. injection H as <- _. split; [exact (fr_bufs _ Fr)|]. cbn [showCellBorder with_line s_line]. destruct b; [right; right|left]; reflexivity.
  - eapply page_fresh; eauto.
  - eapply page_fresh; eauto.
  - eapply page_fresh; eauto.
  - unfold setProt in H. destruct (setProtection _ _ _ _); try discriminate; [|unfold fails in H; eauto]. unfold ok in H. injection H as <- _. apply (fresh_same s); auto.
Qed.
Lemma history_fresh : forall w fuel cs s s' log, forallb (fun c => negb (is_save c)) cs = true -> history w fuel cs s = Ok (s', log) -> fresh s -> fresh s'.
Proof.
  intros w fuel. induction cs as [|c cs IH]; intros s s' log N H Fr; cbn [history forallb] in *; [assert (s' = s) by congruence; subst; exact Fr|].
  apply andb_true_iff in N as (N1 & N2). apply negb_true_iff in N1.
  apply bind_ok in H as ([s1 e] & E & H). cbn [fst snd] in H. apply bind_ok in H as ([s2 l2] & E2 & H). cbn [fst snd] in H. assert (s' = s2) by congruence. subst.
  eapply IH; [exact N2|exact E2|]. eapply call_fresh; eauto.
Qed.
Lemma new_fresh : fresh new_pdft. Proof. split; [constructor|left; reflexivity]. Qed.
Lemma thin_paper : forall x, thin x -> on_paper x.
Proof. intros x [ ->|[ ->| ->]]; apply paperb_on; vm_compute; reflexivity. Qed.

(** ** A text *)
Lemma insert_ready : forall w fuel cs s log t pg x y wd h al c s', history w fuel cs new_pdft = Ok (s, log) -> call_of w fuel (KInsert t pg x y wd h al c) s = Ok (s', None) ->
  exists id f l ph, s_cont s' = s_cont s ++ [CText id (mkText t c (s_style s) (s_size s) pg x y wd h al (s_line s) ph)] /\ nth_error (s_fonts s') id = Some f /\
    fd_map f = add_texts (fd_ttf f) (l ++ [t]) [] /\ snd (add_chars (fd_ttf f) t (add_texts (fd_ttf f) l [])) = Ok tt.
Proof.
  intros w fuel cs s log t pg x y wd h al c s' H C. cbn [call_of] in C. unfold insert_text in C. apply bind_ok in C as (ph & _ & C). cbv beta in C.
  destruct (lookup _ _) as [id|]; [|discriminate]. destruct (nth_error (s_fonts s) id) as [f|] eqn:Ef; [|discriminate].
  destruct (gr_new _ _ (history_grown _ _ _ _ _ _ H) id f Ef) as (l & M); [destruct id; reflexivity|].
  unfold font_add in C. destruct (add_chars (fd_ttf f) t (fd_map f)) as (m, r) eqn:E. cbv zeta in C. destruct r as [[]| | |]; try discriminate. unfold ok in C. assert (S' : s' = upd_font (with_cont s (s_cont s ++ [CText id (mkText t c (s_style s) (s_size s) pg x y wd h al (s_line s) ph)])) id (fun _ => set_map f m)) by congruence.
  subst s'. exists id, (set_map f m), l, ph. split; [reflexivity|]. split; [cbn [upd_font with_fonts with_cont s_fonts]; rewrite nth_set, Ef; reflexivity|].
  cbn [set_map fd_map fd_ttf]. rewrite add_texts_app. cbn [add_texts]. rewrite <- M, E. split; reflexivity.
Qed.

Lemma drawn_part : forall ins n k ops, nth_error ins n = Some (k, ops) -> exists pre post, drawn ins k = pre ++ ops ++ post.
Proof.
  induction ins as [|[j z] ins IH]; intros [|n] k ops H; cbn [nth_error] in H; try discriminate.
  - injection H as -> ->. exists [], (drawn ins k). cbn [drawn]. rewrite Z.eqb_refl. reflexivity.
  - destruct (IH _ _ _ H) as (pre & post & E). cbn [drawn]. destruct (j =? k); [exists (z ++ pre), post; rewrite E, app_assoc; reflexivity|exists pre, post; exact E].
Qed.
Lemma part_drawn : forall w s s' rid ts fi xi srcs p' ins n k ops pid cid old,
  saved_document w s s' rid ts fi xi srcs p' ins -> nth_error ins n = Some (k, ops) -> own_page ts srcs k pid cid old ->
  drawn_on (objs p') pid cid old ops.
Proof.
  intros w s s' rid ts fi xi srcs p' ins n k ops pid cid old D Hn (K1 & HL & Sr & Own).
  destruct (drawn_part _ _ _ _ Hn) as (pre & post & E). exists pre, post. rewrite <- E.
  apply (sd_contents _ _ _ _ _ _ _ _ _ _ D k pid cid old HL).
  - split; [exact K1|]. split; [exact Sr|]. exists ops. apply (nth_error_In _ _ Hn).
  - intros k' t' Hk (K1' & Sr' & _). apply Own in Sr'. lia.
Qed.

(** The document a save writes, with or without passwords. *)
Lemma saved_either : forall w fuel ch cs log s s' F rid ts fi xi srcs pw,
  history w fuel cs new_pdft = Ok (s, log) -> saveTo w fuel ch s = Ok (s', Ok F) -> fair (ch_ord ch) -> protected_by s pw ->
  ready_document (d_pdf (s_doc s)) rid ts fi xi ->
  Forall2 (source (w_inflate w) (objs (d_pdf (s_doc s)))) (flat_map leaves ts) srcs ->
  (forall c, In c (content_ids srcs) -> ~ In c (root (d_pdf (s_doc s)) :: rid :: flat_map tree_ids ts) /\ ~ page_object (flat_map leaves ts) fi c) ->
  (depth (Node rid ts) <= fuel)%nat -> 0 <= root (d_pdf (s_doc s)) -> blen F < 10 ^ 10 ->
  exists p' ins, file_holds F p' pw /\ saved_document w s s' rid ts fi xi srcs p' ins.
Proof.
  intros w fuel ch cs log s s' F rid ts fi xi srcs [[user owner]|] Hh Hs Fr Pr OR Sr Ap Dp Rt Sm.
  - destruct Pr as (pr & rnd & perm & Ep & Es & Hp). eapply locked_after_calls; eauto.
  - eapply saved_after_calls; eauto.
Qed.

Theorem text_from_calls : forall w fuel ch cs1 s1 log1 t pg x y wd h al c s2 cs2 log2 s s' F rid ts fi xi srcs pw name st sz k d u a b up uh,
  history w fuel cs1 new_pdft = Ok (s1, log1) -> selected log1 name st sz -> registered log1 name k (Some d) ->
  call_of w fuel (KInsert t pg x y wd h al c) s1 = Ok (s2, None) ->
  history w fuel cs2 s2 = Ok (s, log2) -> forallb (fun c => negb (is_save c)) cs1 = true -> forallb (fun c => negb (is_save c) && negb (is_open c)) cs2 = true ->
  saveTo w fuel ch s = Ok (s', Ok F) -> fair (ch_ord ch) -> protected_by s pw ->
  ready_document (d_pdf (s_doc s)) rid ts fi xi ->
  Forall2 (source (w_inflate w) (objs (d_pdf (s_doc s)))) (flat_map leaves ts) srcs ->
  (forall c, In c (content_ids srcs) -> ~ In c (root (d_pdf (s_doc s)) :: rid :: flat_map tree_ids ts) /\ ~ page_object (flat_map leaves ts) fi c) ->
  (depth (Node rid ts) <= fuel)%nat -> 0 <= root (d_pdf (s_doc s)) -> blen F < 10 ^ 10 ->
  face_file d u a b up uh -> has_widths d t -> plain_name name ->
  on_paper x -> on_paper y -> on_paper wd -> on_paper h -> 0 <= sz <= 10000 ->
  (forall ph, pageHeight s1 pg = Ok ph -> on_paper ph) ->
  (forall f, nth_error (s_fonts s) k = Some f -> map_ok (fd_map f) /\ rise_fin (sfont_of f) sz t /\ forall v, measure (sfont_of f) sz t = Ok v -> on_paper v) ->
  exists p' ins f line ph ops, file_holds F p' pw /\ saved_document w s s' rid ts fi xi srcs p' ins /\
    nth_error (s_fonts s) k = Some f /\ fd_family f = name /\ pageHeight s1 pg = Ok ph /\
    forall pid cid old fps, own_page ts srcs pg pid cid old -> page_fonts (objs (d_pdf (s_doc s))) pid fps -> drawn_on (objs p') pid cid old ops /\
      exists fps', page_fonts (objs p') pid fps' /\ shows_text w (objs p') fps' f d u a b (mkText t c (getConvertedStyle st) sz pg x y wd h al line ph) ops.
Proof.
  intros w fuel ch cs1 s1 log1 t pg x y wd h al c s2 cs2 log2 s s' F rid ts fi xi srcs pw name st sz k d u a b up uh.
  intros H1 Se Re Ca H2 N1 N2 Hs Fr Pr OR Sr Ap Dp Rt Sm Ff Hw Pn Px Py Pw Ph Hz Pp Hf.
  destruct (insert_uses _ _ _ _ _ _ _ _ _ _ _ _ _ _ _ _ _ _ _ _ H1 Se Re Ca) as (line & ph & Ec & Ep & f0 & Hf0 & Fam0 & Pt0).
  destruct (insert_ready _ _ _ _ _ _ _ _ _ _ _ _ _ _ H1 Ca) as (id & f2 & l & ph2 & Ec2 & Hf2 & M2 & A2).
  assert (Eq : CText k (mkText t c (getConvertedStyle st) sz pg x y wd h al line ph) = CText id (mkText t c (s_style s1) (s_size s1) pg x y wd h al (s_line s1) ph2)).
  { rewrite Ec in Ec2. apply app_inv_head in Ec2. congruence. }
  assert (El : line = s_line s1) by congruence. assert (Ei : id = k) by congruence. clear Eq Ec2. subst id line. assert (f0 = f2) by congruence. subst f0.
  pose proof (history_join w fuel cs1 (KInsert t pg x y wd h al c :: cs2) new_pdft s1 log1 s ((KInsert t pg x y wd h al c, None) :: log2) H1) as Hh.
  cbn [history] in Hh. rewrite Ca in Hh. cbn [bind fst snd] in Hh. rewrite H2 in Hh. cbn [bind fst snd] in Hh. specialize (Hh eq_refl).
  assert (N3 : forallb (fun c => negb (is_save c)) (cs1 ++ KInsert t pg x y wd h al c :: cs2) = true).
  { rewrite forallb_app, N1. cbn [forallb is_save negb andb]. clear - N2. induction cs2 as [|z cs IH]; [reflexivity|]. cbn [forallb] in *. apply andb_true_iff in N2 as (A & C). apply andb_true_iff in A as (A & _). rewrite A, (IH C). reflexivity. }
  pose proof (history_fresh _ _ _ _ _ _ N3 Hh new_fresh) as Fs. pose proof (history_fresh _ _ _ _ _ _ N1 H1 new_fresh) as Fs1.
  pose proof (history_inv _ _ _ _ _ Hh) as Iv.
  assert (Re2 : registered (log1 ++ (KInsert t pg x y wd h al c, None) :: log2) name k (Some d)).
  { destruct Re as (bf & by_ & aft & -> & O1 & ->). exists bf, by_, (aft ++ (KInsert t pg x y wd h al c, None) :: log2). split; [rewrite <- app_assoc; reflexivity|]. split; [|reflexivity].
    rewrite forallb_app. apply andb_true_iff. split; [exact O1|]. cbn [forallb opens fst negb andb]. pose proof (history_calls _ _ _ _ _ _ H2) as Lc. clear - N2 Lc. revert cs2 N2 Lc. induction log2 as [|[z e] lg IH]; intros cs2 N2 Lc; [reflexivity|].
    cbn [map fst] in Lc. destruct cs2 as [|z' cs2]; [discriminate|]. cbn [forallb] in *. apply andb_true_iff in N2 as (A & C). injection Lc as -> Lc. rewrite (IH _ C Lc), andb_true_r.
    apply andb_true_iff in A as (_ & A). unfold opens. cbn [fst]. destruct z'; try reflexivity. discriminate. }
  pose proof (registered_some _ _ _ _ _ Iv Re2) as Lk. destruct (inv_font _ _ Iv _ _ _ Re2) as (f & d' & Hk & Fam & Ed & Pt). assert (d' = d) by congruence. subst d'. clear Ed.
  assert (Nm : In (name, k) (names_of s)).
  { unfold names_of. unfold lookup in Lk. destruct (s_names s) as [ns|]; [|discriminate]. apply assoc_in. exact Lk. }
  destruct (Hf f Hk) as (Mo & Ri & Wi).
  assert (Bu : buildable f). { split; [|split; [rewrite Fam; exact Pn|exact Mo]]. pose proof (fr_bufs _ Fs) as A. rewrite Forall_forall in A. exact (A f (nth_error_In _ _ Hk)). }
  pose proof (history_grown _ _ _ _ _ _ H2) as G. destruct (gr_old _ _ G k f2 Hf2) as (f' & Hf' & Tt & l2 & M3). assert (f' = f) by congruence. subst f'.
  destruct (gr_cont _ _ G) as (more & Em). rewrite Ec in Em.
  set (ct := mkText t c (getConvertedStyle st) sz pg x y wd h al (s_line s1) ph) in *.
  assert (Hc : nth_error (s_cont s) (List.length (s_cont s1)) = Some (CText k ct)).
  { rewrite Em, <- app_assoc. rewrite nth_error_app2 by lia. rewrite Nat.sub_diag. reflexivity. }
  assert (Si : set_in d (sfont_of f) ct u a b up uh).
  { destruct Ff as [F1 F2 F3 F4 F5 F6 F7]. constructor; cbn [ct ct_text ct_size]; try assumption.
    - split; [exact F1|]. split; [exact F2|]. split; [exact Pt|]. split; [exists u; auto|]. cbn [sfont_of sf_ttf sf_map]. split.
      + exists l, l2. rewrite M3, M2, Tt. split; [|exact A2]. rewrite <- add_texts_app, <- app_assoc. reflexivity.
      + intros rr g Hr Hg. exact (Hw _ _ _ Pt Hr Hg).
    - constructor; cbn [ct ct_x ct_y ct_w ct_h ct_line ct_height ct_size]; auto. apply thin_paper. exact (fr_line _ Fs1). }
  destruct (saved_either _ _ _ _ _ _ _ _ _ _ _ _ _ _ Hh Hs Fr Pr OR Sr Ap Dp Rt Sm) as (p' & ins & Fo & D).
  destruct (text_shown w fuel ch s s' F rid ts fi xi srcs p' ins Hs Fr D _ _ _ _ _ _ _ _ _ _ _ Hc Nm Hk Bu Si) as (ops & Hi & Sh).
  exists p', ins, f, (s_line s1), ph, ops. split; [exact Fo|]. split; [exact D|]. split; [exact Hk|]. split; [exact Fam|]. split; [exact Ep|].
  intros pid cid old fps Ow Pf. split; [exact (part_drawn _ _ _ _ _ _ _ _ _ _ _ _ _ _ _ _ D Hi Ow)|]. apply Sh with (fps := fps); [|exact Pf]. destruct Ow as (_ & HL & _). exact (nth_error_In _ _ HL).
Qed.

(** ** An image *)
Theorem image_from_calls : forall w fuel ch cs1 s1 log1 beyond img pg x y wd h s2 cs2 log2 s s' F rid ts fi xi srcs pw,
  history w fuel cs1 new_pdft = Ok (s1, log1) -> call_of w fuel (KImg beyond img pg x y wd h) s1 = Ok (s2, None) -> history w fuel cs2 s2 = Ok (s, log2) ->
  saveTo w fuel ch s = Ok (s', Ok F) -> fair (ch_ord ch) -> protected_by s pw ->
  ready_document (d_pdf (s_doc s)) rid ts fi xi ->
  Forall2 (source (w_inflate w) (objs (d_pdf (s_doc s)))) (flat_map leaves ts) srcs ->
  (forall c, In c (content_ids srcs) -> ~ In c (root (d_pdf (s_doc s)) :: rid :: flat_map tree_ids ts) /\ ~ page_object (flat_map leaves ts) fi c) ->
  (depth (Node rid ts) <= fuel)%nat -> 0 <= root (d_pdf (s_doc s)) -> blen F < 10 ^ 10 ->
  on_paper x -> on_paper y -> on_paper wd -> on_paper h -> (forall ph, pageHeight s1 pg = Ok ph -> on_paper ph) ->
  exists p' ins data pc ph ops, file_holds F p' pw /\ saved_document w s s' rid ts fi xi srcs p' ins /\
    insertImgObj (w_config w) (w_inflate w) (w_compress w) beyond (d_pdf (s_doc s1)) img = Ok (pc, data) /\ pageHeight s1 pg = Ok ph /\
    forall pid cid old, own_page ts srcs pg pid cid old -> pictured (flat_map leaves ts) xi pid -> drawn_on (objs p') pid cid old ops /\
      exists xps', page_images (objs p') pid xps' /\ shows_image (objs p') xps' data (val x) (val y) (val wd) (val h) (val ph) ops.
Proof.
  intros w fuel ch cs1 s1 log1 beyond img pg x y wd h s2 cs2 log2 s s' F rid ts fi xi srcs pw H1 Ca H2 Hs Fr Pr OR Sr Ap Dp Rt Sm Px Py Pw Ph Pp.
  pose proof (history_join w fuel cs1 (KImg beyond img pg x y wd h :: cs2) new_pdft s1 log1 s ((KImg beyond img pg x y wd h, None) :: log2) H1) as Hh.
  cbn [history] in Hh. rewrite Ca in Hh. cbn [bind fst snd] in Hh. rewrite H2 in Hh. cbn [bind fst snd] in Hh. specialize (Hh eq_refl).
  cbn [call_of] in Ca. unfold insertImg, new_image in Ca. apply bind_ok in Ca as ([s3 e3] & E & Ca). cbn [fst snd] in Ca.
  destruct (insertImgObj _ _ _ _ _ _) as [[pc data]| | |] eqn:Ei; try discriminate; unfold ok, fails in E; [|assert (e3 = Some e) by congruence; subst; discriminate].
  assert (e3 = None) by congruence. assert (s3 = with_imgs (with_pdf s1 pc) (s_imgs s1 ++ [mkImage data [] 0])) by congruence. subst e3 s3. clear E.
  unfold place_image in Ca. apply bind_ok in Ca as (ph & Ep & Ca). cbv beta in Ca. unfold ok in Ca. change (pageHeight s1 pg = Ok ph) in Ep.
  assert (S2 : s2 = with_cont (with_imgs (with_pdf s1 pc) (s_imgs s1 ++ [mkImage data [] 0])) (s_cont s1 ++ [CImg (List.length (s_imgs s1)) pg x y wd h ph])) by (injection Ca as <-; reflexivity).
  pose proof (history_grown _ _ _ _ _ _ H2) as G. destruct (gr_cont _ _ G) as (more & Em). destruct (gr_imgs _ _ G) as (mi & Ed). rewrite S2 in Em, Ed. cbn [with_cont with_imgs s_cont s_imgs] in Em, Ed.
  assert (Hc : nth_error (s_cont s) (List.length (s_cont s1)) = Some (CImg (List.length (s_imgs s1)) pg x y wd h ph)).
  { rewrite Em, <- app_assoc. rewrite nth_error_app2 by lia. rewrite Nat.sub_diag. reflexivity. }
  assert (Hi : exists i, nth_error (s_imgs s) (List.length (s_imgs s1)) = Some i /\ im_data i = data).
  { assert (X : nth_error (map im_data (s_imgs s)) (List.length (s_imgs s1)) = Some data).
    { rewrite Ed, map_app, <- app_assoc, nth_error_app2 by (rewrite map_length; lia). rewrite map_length, Nat.sub_diag. reflexivity. }
    rewrite nth_error_map in X. destruct (nth_error (s_imgs s) _) as [i|]; [|discriminate]. exists i. split; [reflexivity|]. cbn [option_map] in X. congruence. }
  destruct Hi as (i & Hi & Di). subst data.
  destruct (saved_either _ _ _ _ _ _ _ _ _ _ _ _ _ _ Hh Hs Fr Pr OR Sr Ap Dp Rt Sm) as (p' & ins & Fo & D).
  destruct (image_shown w fuel ch s s' F rid ts fi xi srcs p' ins Hs Fr D _ _ _ _ _ _ _ _ _ Hc Hi Pw Ph Px Py (Pp _ Ep)) as (ops & Hn & Sh).
  exists p', ins, (im_data i), pc, ph, ops. split; [exact Fo|]. split; [exact D|]. split; [reflexivity|]. split; [exact Ep|].
  intros pid cid old Ow Pc. split; [exact (part_drawn _ _ _ _ _ _ _ _ _ _ _ _ _ _ _ _ D Hn Ow)|]. apply Sh; [|exact Pc]. destruct Ow as (_ & HL & _). exact (nth_error_In _ _ HL).
Qed.
