(** What the calls between drawing and saving leave as it is (C72): texts and
    images stay where they are, fonts only get more characters. *)
From Coq Require Import String List ZArith Lia Bool Reals.
From Coq.Floats Require Import SpecFloat.
From Verif Require Import Base BaseProofs Output Props PdfData Inject Utf8 Float64 Ttf CharMap Subset Text Wrap Parse Png Crypto Api ApiSpec ApiProofs ApiIds ApiFrames FontChain SaveDraws.
Open Scope Z_scope.
Open Scope list_scope.

Lemma add_texts_app : forall t a b m, add_texts t (a ++ b) m = add_texts t b (add_texts t a m).
Proof. induction a as [|x a IH]; intros b m; cbn [add_texts app]; auto. Qed.

(** ** Measuring adds texts *)
Lemma add_text_texts : forall f x f' o, add_text f x = (f', o) -> sf_ttf f' = sf_ttf f /\ sf_map f' = add_texts (sf_ttf f) [x] (sf_map f).
Proof. intros f x f' o H. unfold add_text in H. destruct (add_chars (sf_ttf f) x (sf_map f)) as (m, q) eqn:E. injection H as <- _. cbn [sf_ttf sf_map add_texts]. rewrite E. auto. Qed.
Lemma measure_texts : forall f size x f' o, measure_text f size x = (f', o) -> sf_ttf f' = sf_ttf f /\ exists l, sf_map f' = add_texts (sf_ttf f) l (sf_map f).
Proof.
  intros f size x f' o H. unfold measure_text in H. destruct (add_text f x) as (f1, q) eqn:E. apply add_text_texts in E as (E1 & E2).
  assert (f' = f1) by (destruct q; congruence). subst. split; [exact E1|]. exists [x]. exact E2.
Qed.
Lemma wrap_loop_texts : forall size w toks f curr y lines f' o, wrap_loop f size w toks curr y lines = (f', o) ->
  sf_ttf f' = sf_ttf f /\ exists l, sf_map f' = add_texts (sf_ttf f) l (sf_map f).
Proof.
  intros size w. induction toks as [|tok toks IH]; intros f curr y lines f' o H; cbn [wrap_loop] in H.
  - injection H as <- _. split; [reflexivity|]. exists []. reflexivity.
  - destruct tok as [|c tok]; [eapply IH; exact H|]. destruct (measure_text f size (curr ++ c :: tok)) as (f1, q) eqn:E. apply measure_texts in E as (E1 & l & E2).
    assert (S : (exists c2 y2 l2, wrap_loop f1 size w toks c2 y2 l2 = (f', o)) \/ f' = f1).
    { destruct q as [v| | |]; try (right; congruence). left. destruct (fgt v w); eauto. }
    destruct S as [(c2 & y2 & l2 & S)| ->]; [|eauto]. apply IH in S as (S1 & k & S2). split; [congruence|]. exists (l ++ k). rewrite S2, E2, E1, add_texts_app. reflexivity.
Qed.
Lemma wrap_texts : forall f size w y al toks f' o, wrap_lines f size w y al toks = (f', o) -> sf_ttf f' = sf_ttf f /\ exists l, sf_map f' = add_texts (sf_ttf f) l (sf_map f).
Proof.
  intros f size w y al toks f' o H. unfold wrap_lines in H. destruct (wrap_loop f size w toks [] y []) as (f1, q) eqn:E. apply wrap_loop_texts in E.
  assert (f' = f1); [|subst; exact E]. destruct q as [[[lines curr] last]| | |]; try congruence. destruct (match curr with [] => _ | _ => _ end). congruence.
Qed.

(** ** What a call may do to what was drawn *)
Definition face_grows (f f' : font) : Prop := fd_ttf f' = fd_ttf f /\ exists l, fd_map f' = add_texts (fd_ttf f) l (fd_map f).
Record grown (s s' : state) : Prop := mkGrown {
  gr_cont : exists l, s_cont s' = s_cont s ++ l;
  gr_imgs : exists l, map im_data (s_imgs s') = map im_data (s_imgs s) ++ l;
  gr_old : forall k f, nth_error (s_fonts s) k = Some f -> exists f', nth_error (s_fonts s') k = Some f' /\ face_grows f f';
  gr_new : forall k f', nth_error (s_fonts s') k = Some f' -> nth_error (s_fonts s) k = None -> exists l, fd_map f' = add_texts (fd_ttf f') l [] }.

Lemma face_refl : forall f, face_grows f f. Proof. intros f. split; [reflexivity|]. exists []. reflexivity. Qed.
Lemma face_trans : forall a b c, face_grows a b -> face_grows b c -> face_grows a c.
Proof. intros a b c (A1 & l & A2) (B1 & k & B2). split; [congruence|]. exists (l ++ k). rewrite B2, A2, A1, add_texts_app. reflexivity. Qed.
Lemma grown_same : forall s s', s_cont s' = s_cont s -> map im_data (s_imgs s') = map im_data (s_imgs s) -> s_fonts s' = s_fonts s -> grown s s'.
Proof.
  intros s s' C I F. split.
  - exists []. rewrite C, app_nil_r. reflexivity.
  - exists []. rewrite I, app_nil_r. reflexivity.
  - intros k f H. exists f. rewrite F. split; [exact H|apply face_refl].
  - intros k f H H2. rewrite F in H. congruence.
Qed.
Lemma grown_refl : forall s, grown s s. Proof. intros s. apply grown_same; reflexivity. Qed.
Lemma grown_trans : forall a b c, grown a b -> grown b c -> grown a c.
Proof.
  intros a b c A B0. split.
  - destruct (gr_cont _ _ A) as (l & E). destruct (gr_cont _ _ B0) as (k & E2). exists (l ++ k). rewrite E2, E, app_assoc. reflexivity.
  - destruct (gr_imgs _ _ A) as (l & E). destruct (gr_imgs _ _ B0) as (k & E2). exists (l ++ k). rewrite E2, E, app_assoc. reflexivity.
  - intros k f H. destruct (gr_old _ _ A k f H) as (f1 & H1 & G1). destruct (gr_old _ _ B0 k f1 H1) as (f2 & H2 & G2). exists f2. split; [exact H2|]. eapply face_trans; eauto.
  - intros k f H N. destruct (nth_error (s_fonts b) k) as [f1|] eqn:E; [|eapply (gr_new _ _ B0); eauto].
    destruct (gr_new _ _ A k f1 E N) as (l & M). destruct (gr_old _ _ B0 k f1 E) as (f2 & H2 & T & l2 & M2). assert (f2 = f) by congruence. subst f2.
    exists (l ++ l2). rewrite M2, M, T, add_texts_app. reflexivity.
Qed.
Lemma grown_font : forall s id f g, nth_error (s_fonts s) id = Some f -> face_grows f (g f) -> grown s (upd_font s id g).
Proof.
  intros s id f g H G. split.
  - exists []. rewrite app_nil_r. reflexivity.
  - exists []. rewrite app_nil_r. reflexivity.
  - intros k f0 Hk. cbn [upd_font with_fonts s_fonts]. destruct (Nat.eq_dec k id) as [->|N].
    + exists (g f). rewrite nth_set, H. split; [reflexivity|]. assert (f0 = f) by congruence. subst. exact G.
    + exists f0. rewrite nth_set_other by exact N. split; [exact Hk|apply face_refl].
  - intros k f' Hk N. cbn [upd_font with_fonts s_fonts] in Hk. exfalso. destruct (Nat.eq_dec k id) as [->|N2]; [congruence|]. rewrite nth_set_other in Hk by exact N2. congruence.
Qed.
Lemma grown_faces : forall s s', s_cont s' = s_cont s -> map im_data (s_imgs s') = map im_data (s_imgs s) -> map sfont_of (s_fonts s') = map sfont_of (s_fonts s) -> grown s s'.
Proof.
  intros s s' C I F. split.
  - exists []. rewrite C, app_nil_r. reflexivity.
  - exists []. rewrite I, app_nil_r. reflexivity.
  - intros k f H. pose proof (map_nth_error sfont_of _ _ H) as M. rewrite <- F in M. destruct (nth_error (s_fonts s') k) as [f'|] eqn:E.
    + exists f'. split; [reflexivity|]. pose proof (map_nth_error sfont_of _ _ E) as M2. assert (X : sfont_of f' = sfont_of f) by congruence. injection X as X1 X2 _ _.
      split; [exact X1|]. exists []. exact X2.
    + exfalso. assert (nth_error (map sfont_of (s_fonts s')) k = None); [|congruence]. apply nth_error_None. rewrite map_length. apply nth_error_None. exact E.
  - intros k f H N. exfalso. pose proof (map_nth_error sfont_of _ _ H) as M. rewrite F in M. assert (nth_error (map sfont_of (s_fonts s)) k = None); [|congruence].
    apply nth_error_None. rewrite map_length. apply nth_error_None. exact N.
Qed.
Lemma grown_draw : forall s c, grown s (with_cont s (s_cont s ++ [c])).
Proof.
  intros s c. split; cbn [with_cont s_cont s_imgs s_fonts].
  - exists [c]. reflexivity.
  - exists []. rewrite app_nil_r. reflexivity.
  - intros k f H. exists f. split; [exact H|apply face_refl].
  - intros k f H N. congruence.
Qed.

(** ** Each call *)
Lemma insert_grown : forall t pg x y w h al c s s' e, insert_text t pg x y w h al c s = Ok (s', e) -> grown s s'.
Proof.
  intros t pg x y w h al c s s' e H. unfold insert_text in H. apply bind_ok in H as (ph & _ & H). cbv beta in H.
  destruct (lookup _ _) as [id|]; [|unfold fails in H; assert (s' = s) by congruence; subst; apply grown_refl].
  destruct (nth_error _ id) as [f|] eqn:Ef; [|discriminate]. destruct (font_add f t) as [f' r] eqn:Ea. cbv zeta in H.
  assert (G : forall z, grown s (upd_font (with_cont s (s_cont s ++ [z])) id (fun _ => f'))).
  { intros z. eapply grown_trans; [apply (grown_draw s z)|]. apply (grown_font (with_cont s (s_cont s ++ [z])) id f (fun _ => f')); [exact Ef|].
    unfold font_add in Ea. destruct (add_chars (fd_ttf f) t (fd_map f)) as (m, o) eqn:E. injection Ea as <- _. split; [reflexivity|]. exists [t]. cbn [add_texts]. rewrite E. reflexivity. }
  destruct r; try discriminate; unfold ok, fails in H; injection H as <- _; apply G.
Qed.
Lemma lines_grown : forall ls pg x w h al c s s' e, insert_lines ls pg x w h al c s = Ok (s', e) -> grown s s'.
Proof.
  induction ls as [|[t y] ls IH]; intros pg x w h al c s s' e H; cbn [insert_lines] in H; [unfold ok in H; assert (s' = s) by congruence; subst; apply grown_refl|].
  apply bind_ok in H as ([s1 e1] & E & H). cbn [fst snd] in H. apply insert_grown in E.
  destruct e1; [unfold fails in H; assert (s' = s1) by congruence; subst; exact E|]. eapply grown_trans; [exact E|eauto].
Qed.
Lemma sized_grown : forall s id f f', nth_error (s_fonts s) id = Some f -> sf_ttf f' = sf_ttf (sfont_of f) /\ (exists l, sf_map f' = add_texts (sf_ttf (sfont_of f)) l (sf_map (sfont_of f))) ->
  grown s (upd_font s id (fun f => set_map f (sf_map f'))).
Proof. intros s id f f' Hf (_ & l & E). apply (grown_font s id f); [exact Hf|]. split; [reflexivity|]. exists l. exact E. Qed.
Lemma wrap_grown : forall t pg x y w h al c b s s' e, insertWrapText t pg x y w h al c b s = Ok (s', e) -> grown s s'.
Proof.
  intros t pg x y w h al c b s s' e H. unfold insertWrapText in H. destruct b as [b|]; [|eapply insert_grown; eauto].
  assert (R : forall z, Ok (s, z) = Ok (s', e) -> grown s s') by (intros z X; assert (s' = s) by congruence; subst; apply grown_refl).
  destruct (b t) as [toks| | |]; try discriminate; [|unfold fails in H; eauto]. destruct (forallb _ toks); [unfold ok in H; eauto|].
  destruct (lookup _ _) as [id|]; [|discriminate]. destruct (nth_error _ id) as [f|] eqn:Ef; [|discriminate]. apply bind_ok in H as (ph & _ & H). cbv beta in H.
  destruct (wrap_lines _ _ _ _ _ _) as [f' r] eqn:Ew. cbv zeta in H. apply wrap_texts in Ew. pose proof (sized_grown s id f f' Ef Ew) as G.
  destruct r as [ls| | |]; try discriminate; [|unfold fails in H; injection H as <- _; exact G]. apply lines_grown in H. eapply grown_trans; eauto.
Qed.
Lemma measure_grown : forall t s s' r, measureTextWidth t s = Ok (s', r) -> grown s s'.
Proof.
  intros t s s' r H. unfold measureTextWidth in H. destruct (lookup _ _) as [id|]; [|discriminate]. destruct (nth_error _ id) as [f|] eqn:Ef; [|discriminate].
  destruct (measure_text _ _ _) as [f' q] eqn:Em. apply bind_ok in H as (ph & _ & H). cbv beta zeta in H. apply measure_texts in Em. pose proof (sized_grown s id f f' Ef Em) as G.
  destruct q; try discriminate; injection H as <- _; exact G.
Qed.
Lemma new_image_grown : forall w b i s s' e, new_image w b i s = Ok (s', e) -> grown s s'.
Proof.
  intros w b i s s' e H. unfold new_image in H. destruct (insertImgObj _ _ _ _ _ _) as [[p d]| | |]; try discriminate; unfold ok, fails in H; injection H as <- _; [|apply grown_refl].
  split; cbn [with_imgs with_pdf with_doc s_cont s_imgs s_fonts].
  - exists []. rewrite app_nil_r. reflexivity.
  - exists [d]. rewrite map_app. reflexivity.
  - intros k f H. exists f. split; [exact H|apply face_refl].
  - intros k f H N. congruence.
Qed.
Lemma place_grown : forall id pg x y w h s s' e, place_image id pg x y w h s = Ok (s', e) -> grown s s'.
Proof. intros id pg x y w h s s' e H. unfold place_image in H. apply bind_ok in H as (ph & _ & H). unfold ok in H. injection H as <- _. apply grown_draw. Qed.
Lemma insertImg_grown : forall wd b i pg x y w h s s' e, insertImg wd b i pg x y w h s = Ok (s', e) -> grown s s'.
Proof.
  intros wd b i pg x y w h s s' e H. unfold insertImg in H. apply bind_ok in H as ([s1 e1] & E & H). cbn [fst snd] in H. apply new_image_grown in E.
  destruct e1; [unfold fails in H; assert (s' = s1) by congruence; subst; exact E|]. apply place_grown in H. eapply grown_trans; eauto.
Qed.
Lemma cache_grown : forall s c, grown s (with_cache s c). Proof. intros s c. apply grown_same; reflexivity. Qed.
Lemma insertCached_grown : forall wd b i pg x y w h s s' e, insertImgWithCache wd b i pg x y w h s = Ok (s', e) -> grown s s'.
Proof.
  intros wd b i pg x y w h s s' e H. unfold insertImgWithCache in H. cbv zeta in H. destruct (lookup _ _); [eapply place_grown; eauto|].
  apply bind_ok in H as ([s1 e1] & E & H). cbn [fst snd] in H. apply new_image_grown in E. destruct e1; [unfold fails in H; assert (s' = s1) by congruence; subst; exact E|].
  destruct (s_cache s) as [c|]; [|discriminate]. apply place_grown in H. eapply grown_trans; [exact E|]. eapply grown_trans; [apply cache_grown|exact H].
Qed.
Lemma page_grown : forall s o s' e, page_call s o = Ok (s', e) -> grown s s'.
Proof.
  intros s o s' e H. unfold page_call in H. destruct o as [[p q]| | |]; try discriminate; [injection H as <- _; apply grown_same; reflexivity|].
  unfold fails in H. injection H as <- _. apply grown_refl.
Qed.
Lemma open_grown : forall w fuel raw s s' e, openFrom w fuel raw s = Ok (s', e) -> grown s s'.
Proof.
  intros w fuel raw s s' e H. unfold openFrom in H. cbv zeta in H. destruct (PDFParse _ _ _ _) as (d, r). destruct r; try discriminate; unfold ok, fails in H; injection H as <- _.
  - split; cbn [showCellBorder with_line with_cont with_doc with_cache with_names s_cont s_imgs s_fonts].
    + eexists. reflexivity.
    + exists []. rewrite app_nil_r. reflexivity.
    + intros k f H. exists f. split; [exact H|apply face_refl].
    + intros k f H N. congruence.
  - apply grown_same; reflexivity.
Qed.
Lemma save_faces : forall w fuel ch s s' r, saveTo w fuel ch s = Ok (s', r) -> map sfont_of (s_fonts s') = map sfont_of (s_fonts s).
Proof.
  intros w fuel ch s s' r H. unfold saveTo in H. cbv zeta in H.
  match goal with H : context [build_fonts ?a ?b ?c ?d] |- _ => destruct (build_fonts a b c d) as [fs1 r1] eqn:Eb end. apply build_faces in Eb.
  destruct r1 as [next| | |]; try discriminate; [|injection H as <- _; exact Eb].
  destruct (injectFonts _ _ _) as [[p1 idx]| | |]; try discriminate; [|injection H as <- _; exact Eb].
  pose proof (index_faces idx fs1) as Ei. set (fs2 := fold_left set_index idx fs1) in *. clearbody fs2.
  set (new := flat_map _ (ch_ord ch [32] _ _)) in H. clearbody new.
  assert (G : map sfont_of fs2 = map sfont_of (s_fonts s)) by congruence.
  destruct (injectImgs _ _ _) as [[p4 names]| | |]; try discriminate; [|injection H as <- _; exact G].
  set (b := match new ++ _ with [] => true | _ => ch_room ch end) in H. clearbody b.
  destruct (injectContent _ _ _ _ _ _) as [p5| | |]; try discriminate; [|destruct b; injection H as <- _; exact G].
  destruct (s_prot s) as [pr|].
  - apply bind_ok in H as (os & _ & H). destruct b; injection H as <- _; exact G.
  - destruct b; injection H as <- _; exact G.
Qed.
Lemma call_grown : forall w fuel c s s' e, call_of w fuel c s = Ok (s', e) -> grown s s'.
Proof.
  intros w fuel c s s' e H.
  assert (R : forall z, Ok (s, z) = Ok (s', e) -> grown s s') by (intros z X; assert (s' = s) by congruence; subst; apply grown_refl).
  destruct c; cbn [call_of] in H.
  - eapply open_grown; eauto.
  - unfold addFont in H. destruct (lookup _ _); [unfold fails in H; eauto|].
    destruct (match file with Some d => parseTtf d | None => Err EOther end) as [t| | |]; try discriminate; [|unfold fails in H; eauto].
    destruct (s_names s) as [ns|]; [|discriminate]. unfold ok in H. injection H as <- _. split; cbn [with_names with_fonts s_cont s_imgs s_fonts].
    + exists []. rewrite app_nil_r. reflexivity.
    + exists []. rewrite app_nil_r. reflexivity.
    + intros k f H. exists f. split; [|apply face_refl]. rewrite nth_error_app1; [exact H|]. apply nth_error_Some. congruence.
    + intros k f H N. apply nth_error_None in N. rewrite nth_error_app2 in H by exact N. destruct (k - List.length (s_fonts s))%nat as [|j]; cbn [nth_error] in H; [|destruct j; discriminate].
      injection H as <-. exists []. reflexivity.
  - unfold textriseOverride in H. destruct (lookup _ _) as [id|]; [|unfold fails in H; eauto]. unfold ok in H. injection H as <- _.
    destruct (nth_error (s_fonts s) id) as [f|] eqn:E.
    + eapply grown_font; [exact E|]. split; [reflexivity|]. exists []. reflexivity.
    + apply grown_faces; try reflexivity. cbn [upd_font with_fonts s_fonts]. clear - E. revert id E. induction (s_fonts s) as [|a l IH]; intros [|id] E; cbn [nth_error set_nth map] in *; try discriminate; auto. rewrite (IH id E). reflexivity.
  - unfold kernOverride in H. destruct (lookup _ _) as [id|]; [|unfold fails in H; eauto]. unfold ok in H. injection H as <- _.
    destruct (nth_error (s_fonts s) id) as [f|] eqn:E.
    + eapply grown_font; [exact E|]. split; [reflexivity|]. exists []. reflexivity.
    + apply grown_faces; try reflexivity. cbn [upd_font with_fonts s_fonts]. clear - E. revert id E. induction (s_fonts s) as [|a l IH]; intros [|id] E; cbn [nth_error set_nth map] in *; try discriminate; auto. rewrite (IH id E). reflexivity.
  - unfold setFont in H. destruct (lookup _ _); [|unfold fails in H; eauto]. unfold ok in H. injection H as <- _. apply grown_same; reflexivity.
  - eapply insert_grown; eauto.
  - eapply wrap_grown; eauto.
  - apply bind_ok in H as ([s1 r] & E & H). cbn [fst snd] in H. assert (s' = s1) by congruence. subst. eapply measure_grown; eauto.
  - eapply insertImg_grown; eauto.
  - unfold insertImgBase64 in H. destruct (w_base64 w b64); try discriminate; [|unfold fails in H; eauto]. eapply insertImg_grown; eauto.
  - eapply insertCached_grown; eauto.
  - unfold ok in H. injection H as <- _. eapply grown_trans; [apply (grown_draw s (CLine b (if b then fconst 1 10 else fofz 0)))|]. apply grown_same; reflexivity.
  - eapply page_grown; eauto.
  - eapply page_grown; eauto.
  - eapply page_grown; eauto.
  - unfold setProt in H. destruct (setProtection _ _ _ _); try discriminate; [|unfold fails in H; eauto]. unfold ok in H. injection H as <- _. apply grown_same; reflexivity.
  - apply bind_ok in H as ([s1 r] & E & H). cbn [fst snd] in H. assert (s' = s1) by congruence. subst. destruct (save_iframe _ _ _ _ _ _ E) as (Fi & C & _).
    apply grown_faces; [exact C|exact (if_imgs _ _ Fi)|]. eapply save_faces; eauto.
Qed.
Lemma history_grown : forall w fuel cs s s' log, history w fuel cs s = Ok (s', log) -> grown s s'.
Proof.
  intros w fuel. induction cs as [|c cs IH]; intros s s' log H; cbn [history] in H; [assert (s' = s) by congruence; subst; apply grown_refl|].
  apply bind_ok in H as ([s1 e] & E & H). cbn [fst snd] in H. apply bind_ok in H as ([s2 l2] & E2 & H). cbn [fst snd] in H. assert (s' = s2) by congruence. subst.
  eapply grown_trans; [eapply call_grown; exact E|eapply IH; exact E2].
Qed.
