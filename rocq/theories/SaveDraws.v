(** What the operators a save adds to the pages draw. *)
From Coq Require Import String List ZArith Lia Bool Permutation Reals.
From Coq.Floats Require Import SpecFloat.
From Verif Require Import Base BaseProofs Utf8 PdfSyntax PdfSyntaxProofs Float64 Output OutputSpec Props PropsSpec PdfData PagesSpec Crawl Inject InjectSpec ContentSpec ImgSpec ImgLists TtfSpec FontChainSpec FontChain Parse Api ApiIds ApiFrames
  Text TextSpec TextPlaceSpec TextCases TextPlaced ImgDraw TextCases2 SaveSpec SaveDoc SaveWhole SaveDrawSpec.
Open Scope Z_scope.
Open Scope list_scope.

(** ** Names that are read have no spaces *)
Notation bare := (fun q => ~ In 32 (pkey q)).
Lemma upd_last_bare : forall f ps, (forall q, bare q -> bare (f q)) -> Forall bare ps -> Forall bare (upd_last f ps).
Proof.
  intros f. induction ps as [|q ps IH]; intros Hf H; [constructor|]. inversion H; subst. cbn [upd_last]. destruct ps; [constructor; [apply Hf; assumption|constructor]|].
  constructor; [assumption|]. apply IH; assumption.
Qed.
Lemma go_char_bare : forall r k, r <> 32 -> ~ In 32 k -> ~ In 32 (k ++ go_char r).
Proof.
  intros r k N H X. apply in_app_or in X. destruct X as [X|X]; [exact (H X)|]. unfold go_char in X. destruct (r <? 128) eqn:E; [destruct X as [X|[]]; congruence|]. apply Z.ltb_ge in E.
  destruct X as [X|[X|[]]]; [pose proof (Z.div_pos r 64); lia|pose proof (Z.mod_pos_bound r 64); lia].
Qed.
Lemma loop_bare : forall n str i st c1 c2 ps j st' ps', loop n str i st c1 c2 ps = Some (j, st', ps') -> Forall bare ps -> Forall bare ps'.
Proof.
  induction n as [|n IH]; intros str i st c1 c2 ps j st' ps' H F; [discriminate|]. cbn [loop] in H. destruct (nth_error str i) as [r|]; [|injection H as _ _ <-; exact F].
  assert (V : forall x, Forall bare (add_val x ps)) by (intros x; apply upd_last_bare; [intros q; exact (fun h => h)|exact F]).
  destruct st.
  - destruct (r =? 47); [|eapply IH; eauto]. destruct (loop n str (Datatypes.S i) StKey 0 0 (ps ++ [mkProp [] []])) as [[[i1 s1] p1]|] eqn:E; [|discriminate].
    apply IH in E; [eapply IH; eauto|]. apply Forall_app. split; [exact F|]. constructor; [intros []|constructor].
  - destruct (r =? 32) eqn:E32. { destruct (loop n str (Datatypes.S i) StVal 0 0 ps) as [[[i1 s1] p1]|] eqn:E; [|discriminate]. apply IH in E; [eapply IH; eauto|exact F]. }
    destruct ((r =? 60) || (r =? 91)). { destruct (loop n str i StVal 0 0 ps) as [[[i1 s1] p1]|] eqn:E; [|discriminate]. apply IH in E; [eapply IH; eauto|exact F]. }
    destruct (r =? 47); [injection H as _ _ <-; exact F|]. eapply IH; [exact H|]. apply upd_last_bare; [|exact F]. intros q Hq. cbn [pkey]. apply go_char_bare; [lia|exact Hq].
  - cbv zeta in H. destruct (((r =? 93) || (r =? 62)) && _); [injection H as _ _ <-; apply V|]. destruct ((r =? 47) && _); [injection H as _ _ <-; exact F|]. eapply IH; [exact H|apply V].
Qed.
Lemma read_bare : forall raw ps, readProperties raw = Ok ps -> Forall bare ps.
Proof.
  intros raw ps H. unfold readProperties in H. cbv zeta in H. destruct (index (B"<<") _) as [s|]; [|discriminate]. destruct (last_index (B">>") _) as [e|]; [|discriminate].
  destruct (e <? s)%nat; [discriminate|]. apply bind_ok in H as (t & _ & H). unfold parse_props in H. destruct (loop _ _ _ _ _ _ _) as [[[j st] qs]|] eqn:E; [|discriminate].
  injection H as <-. eapply loop_bare; [exact E|constructor].
Qed.

(** ** Names of images *)
Lemma letters_span : forall s a r, Inject.span is_letter s = (a, r) -> Forall (fun c => is_letter c = true) a.
Proof.
  induction s as [|c s IH]; intros a r H; cbn [Inject.span] in H; [injection H as <- _; constructor|]. destruct (is_letter c) eqn:E; [|injection H as <- _; constructor].
  destruct (Inject.span is_letter s) as [a' r']. injection H as <- _. constructor; [exact E|]. eapply IH. reflexivity.
Qed.
Definition lettered (x : xobj) : Prop := Forall (fun c => is_letter c = true) (xo_char x).
Lemma of_lettered : forall ps, Forall lettered (xobjs_of ps).
Proof.
  induction ps as [|q ps IH]; cbn [xobjs_of]; [constructor|]. unfold regSplit. destruct (Inject.span is_letter (pkey q)) as [a r] eqn:E.
  destruct (do i <- _; do id <- _; Ok (mkXo a i id)) as [x| | |] eqn:X; try constructor; [|exact IH].
  apply bind_ok in X as (i & _ & X). apply bind_ok in X as (id & _ & X). injection X as <-. eapply letters_span. exact E.
Qed.
Lemma parse_lettered : forall v, Forall lettered (xobjs_parse v).
Proof. intros v. unfold xobjs_parse. destruct (readProperties v); try constructor. apply of_lettered. Qed.
Lemma scan_lettered : forall vals xs ch idx old ch' idx', scanXobjs vals xs ch idx = (old, ch', idx') -> Forall lettered xs -> Forall (fun c => is_letter c = true) ch ->
  Forall (fun c => is_letter c = true) ch'.
Proof.
  induction vals as [|[k v] vals IH]; intros xs ch idx old ch' idx' H F L; cbn [scanXobjs] in H; [injection H as _ <- _; exact L|]. cbv zeta in H.
  assert (F' : Forall lettered (xs ++ xobjs_parse v)) by (apply Forall_app; split; [exact F|apply parse_lettered]).
  destruct (rev (xs ++ xobjs_parse v)) as [|x r] eqn:R; [eapply IH; eauto|]. eapply IH; [exact H|exact F'|].
  rewrite Forall_forall in F'. apply F'. apply in_rev. rewrite R. left. reflexivity.
Qed.
Lemma new_lettered : forall imgs ch idx, Forall (fun c => is_letter c = true) ch -> Forall (fun nm : bytes * Z => Forall (fun c => is_letter c = true) (fst nm)) (map (fun x => (xo_char x, xo_index x)) (newXobjs imgs ch idx)).
Proof. induction imgs as [|i imgs IH]; intros ch idx L; cbn [newXobjs map]; constructor; [exact L|]. apply IH. exact L. Qed.
Lemma inject_lettered : forall ord p imgs p' names, injectImgs ord p imgs = Ok (p', names) -> Forall (fun nm => Forall (fun c => is_letter c = true) (fst nm)) names.
Proof.
  intros ord p imgs p' names H. unfold injectImgs in H. cbv zeta in H. apply bind_ok in H as (rs & _ & H). apply bind_ok in H as (fr & _ & H). destruct fr as [[rx em]|]; [|discriminate].
  apply bind_ok in H as (cw1 & _ & H). apply bind_ok in H as ([cw vals] & _ & H). destruct (scanXobjs _ _ _ _) as [[old ch] idx] eqn:S. apply bind_ok in H as (must & _ & H).
  apply bind_ok in H as (os' & _ & H). injection H as _ <-. apply new_lettered. eapply scan_lettered; [exact S|constructor|]. repeat constructor.
Qed.
Lemma saved_lettered : forall w fuel ch s s' F, saveTo w fuel ch s = Ok (s', Ok F) -> fair (ch_ord ch) -> Forall (fun i => Forall (fun c => is_letter c = true) (im_char i)) (s_imgs s').
Proof.
  intros w fuel ch s s' F H Fr. destruct (save_steps _ _ _ _ _ _ H Fr) as (order & order2 & fs1 & next & p1 & idx & p4 & names & p5 & os & enc & St). cbv zeta in St.
  destruct St as (_ & _ & _ & _ & Ei & _ & _ & _ & _ & ->). apply inject_lettered in Ei. apply Forall_forall. intros i Hi. apply in_map_iff in Hi. destruct Hi as ([j nm] & <- & Hi). cbn [im_char fst snd].
  apply in_combine_r in Hi. rewrite Forall_forall in Ei. exact (Ei nm Hi).
Qed.
Lemma letter_regular : forall c, is_letter c = true -> c <> 32 -> regular c = true.
Proof. intros c H N. unfold is_letter in H. unfold regular, PdfSyntax.wsp, delim. lia. Qed.

(** ** Fonts are those of the calls *)
Lemma build_face : forall w f n f', font_build w f n = Ok f' -> sfont_of f' = sfont_of f.
Proof. intros w f n f' H. unfold font_build in H. apply bind_ok in H as (cid & _ & H). apply bind_ok in H as (di & _ & H). destruct (fd_bufs f) as [[[[? ?] ?] ?] ?]. injection H as <-. reflexivity. Qed.
Lemma build_faces : forall w ids fs n fs' r, build_fonts w ids fs n = (fs', r) -> map sfont_of fs' = map sfont_of fs.
Proof.
  intros w. induction ids as [|i ids IH]; intros fs n fs' r H; cbn [build_fonts] in H; [injection H as <- _; reflexivity|]. destruct (nth_error fs i) as [f|] eqn:E; [|injection H as <- _; reflexivity].
  destruct (font_build w f (n + 1)) as [f'| | |] eqn:F; try (injection H as <- _; reflexivity). apply IH in H. rewrite H. eapply ApiProofs.map_set_const; [exact E|]. eapply build_face. exact F.
Qed.
Lemma index_faces : forall idx fs, map sfont_of (fold_left set_index idx fs) = map sfont_of fs.
Proof. induction idx as [|x idx IH]; intros fs; cbn [fold_left]; [reflexivity|]. rewrite IH. unfold set_index. apply ApiProofs.map_set_nth. reflexivity. Qed.
Lemma saved_faces : forall w fuel ch s s' F, saveTo w fuel ch s = Ok (s', Ok F) -> fair (ch_ord ch) -> map sfont_of (s_fonts s') = map sfont_of (s_fonts s).
Proof.
  intros w fuel ch s s' F H Fr. destruct (save_steps _ _ _ _ _ _ H Fr) as (order & order2 & fs1 & next & p1 & idx & p4 & names & p5 & os & enc & St). cbv zeta in St.
  destruct St as (_ & _ & Eb & _ & _ & _ & _ & _ & -> & _). rewrite index_faces. eapply build_faces. exact Eb.
Qed.

Section Drawn.
  Variables (w : world) (fuel : nat) (ch : choices) (s s' : state) (F : bytes) (rid : Z) (ts : list tree) (fi xi : Z -> res_place).
  Variables (srcs : list (option (Z * bytes))) (p' : pdf) (ins : inserts).
  Hypothesis Save : saveTo w fuel ch s = Ok (s', Ok F).
  Hypothesis Fr : fair (ch_ord ch).
  Hypothesis D : saved_document w s s' rid ts fi xi srcs p' ins.

  Lemma images_bare : forall L xps', page_images (objs p') L xps' -> Forall bare xps'.
  Proof.
    intros L xps' (ps & v & rp & x & _ & _ & _ & _ & P).
    destruct P as [(_ & P)|(n & _ & o & _ & P)]; [eapply read_bare; exact P|]. unfold entries in P. eapply read_bare. exact P.
  Qed.
  Lemma image_reg : forall L xps' id i' n, page_images (objs p') L xps' -> nth_error (s_imgs s') id = Some i' -> font_named xps' (im_char i' ++ itoa (im_index i')) n -> reg_word (im_char i').
  Proof.
    intros L xps' id i' n Pi Hi' Nm. pose proof (images_bare L xps' Pi) as Bx. clear Pi. pose proof (saved_lettered _ _ _ _ _ _ Save Fr) as Lt. rewrite Forall_forall in Lt. specialize (Lt i' (nth_error_In _ _ Hi')).
    destruct Nm as (v & V & _). assert (N : ~ In 32 (im_char i' ++ itoa (im_index i'))).
    { rewrite Forall_forall in Bx. destruct V as (a & b & E & _). apply (Bx (mkProp (im_char i' ++ itoa (im_index i')) v)). rewrite E. apply in_or_app. right. left. reflexivity. }
    unfold reg_word. apply Forall_forall. intros c Hc. rewrite Forall_forall in Lt. apply letter_regular; [apply Lt; exact Hc|]. intros ->. apply N. apply in_or_app. left. exact Hc.
  Qed.
  Lemma image_shown : forall k id page x y wd h height i, nth_error (s_cont s) k = Some (CImg id page x y wd h height) -> nth_error (s_imgs s) id = Some i ->
    on_paper wd -> on_paper h -> on_paper x -> on_paper y -> on_paper height ->
    exists ops, nth_error ins k = Some (page, ops) /\ forall L, In L (flat_map leaves ts) -> pictured (flat_map leaves ts) xi L -> exists xps', page_images (objs p') L xps' /\ shows_image (objs p') xps' (im_data i) (val x) (val y) (val wd) (val h) (val height) ops.
  Proof.
    intros k id page x y wd h height i Hk Hi Pw Ph Px Py Pt. destruct (forall2_nth _ _ _ _ _ _ _ (sd_drawn _ _ _ _ _ _ _ _ _ _ D) Hk) as ([pg ops] & Hn & E).
    cbn [content_of fst snd] in E. assert (Ep : pg = page) by (clear - E; destruct (nth_error (s_imgs s') id); congruence). subst pg. exists ops. split; [exact Hn|]. intros L HL Pc.
    destruct (sd_images _ _ _ _ _ _ _ _ _ _ D L HL Pc) as (xps' & Pi & _ & New). destruct (New id i Hi) as (i' & n & Hi' & Ed & Nm & Ob). rewrite Hi' in E. injection E as <-.
    exists xps'. split; [exact Pi|]. exists (im_char i' ++ itoa (im_index i')), n. split; [exact Nm|]. split; [exact Ob|].
    intros st Cm. apply img_placed; auto. exact (image_reg L xps' id i' n Pi Hi' Nm).
  Qed.
  Lemma text_shown : forall k id c name f d u a b up uh, nth_error (s_cont s) k = Some (CText id c) -> In (name, id) (names_of s) -> nth_error (s_fonts s) id = Some f -> buildable f ->
    set_in d (sfont_of f) c u a b up uh ->
    exists ops, nth_error ins k = Some (ct_page c, ops) /\ forall L fps, In L (flat_map leaves ts) -> page_fonts (objs (d_pdf (s_doc s))) L fps -> exists fps', page_fonts (objs p') L fps' /\ shows_text w (objs p') fps' f d u a b c ops.
  Proof.
    intros k id c name f d u a b up uh Hk Hn Hf Bu Si. destruct (forall2_nth _ _ _ _ _ _ _ (sd_drawn _ _ _ _ _ _ _ _ _ _ D) Hk) as ([pg ops] & Hi & E).
    cbn [content_of fst snd] in E. assert (Ep : pg = ct_page c) by (clear - E; destruct (nth_error (s_fonts s') id); congruence). subst pg. exists ops. split; [exact Hi|]. intros L fps HL Pf.
    destruct (sd_fonts _ _ _ _ _ _ _ _ _ _ D L fps HL Pf) as (fps' & Pf' & _ & New). destruct (New name id f Hn Hf Bu) as (f' & Hf' & Nm & Em). rewrite Hf' in E. exists fps'. split; [exact Pf'|].
    assert (Ef : sfont_of f' = sfont_of f).
    { pose proof (saved_faces _ _ _ _ _ _ Save Fr) as M. pose proof (map_nth_error sfont_of _ _ Hf) as M1. pose proof (map_nth_error sfont_of _ _ Hf') as M2. rewrite M in M2. congruence. }
    rewrite Ef in E. assert (Eo : text_stream (sfont_of f) (fd_index f') c = Ok ops) by congruence.
    assert (W : exists wd, measure (sfont_of f) (ct_size c) (ct_text c) = Ok wd).
    { destruct (text_placed _ _ _ _ _ _ _ _ Si 0 plain_state eq_refl) as (_ & _ & _ & _ & wd & _ & _ & _ & _ & M & _). exists wd. exact M. }
    destruct W as (wd & W). exists (B"F" ++ itoa (fd_index f')), (fd_id f'), wd. split; [exact Nm|]. split; [exact Em|]. split; [exact W|]. intros st Ht.
    destruct (text_placed _ _ _ _ _ _ _ _ Si (fd_index f') st Ht) as (o & st2 & ms & tail & w2 & gs & Eo' & Dr & Nt & M & Eg & Gl & Fm).
    assert (o = ops) by congruence. assert (w2 = wd) by congruence. subst o w2 gs. exists st2, ms, tail. auto.
  Qed.
End Drawn.
