(** What calls leave alone: page sizes, cache, images, placements. *)
From Coq Require Import String List ZArith Lia Bool Permutation.
From Coq.Floats Require Import SpecFloat.
From Verif Require Import Base BaseProofs Output Props PdfData PagesProofs Crawl Inject Md5Rc4 Crypto Png Utf8 Float64 Ttf Subset Text Wrap Parse Api ApiSpec ApiProofs ApiIds.
Open Scope Z_scope.
Open Scope list_scope.

(** The images of the placements, in call order. *)
Definition place (c : contenter) : list nat := match c with CImg i _ _ _ _ _ _ => [i] | _ => [] end.
Definition places (s : state) : list nat := flat_map place (s_cont s).

Record iframe (s s' : state) : Prop := mkIframe {
  if_cache : s_cache s' = s_cache s;
  if_imgs : map im_data (s_imgs s') = map im_data (s_imgs s);
  if_places : places s' = places s }.
Lemma iframe_refl : forall s, iframe s s. Proof. intros s. split; reflexivity. Qed.
Lemma iframe_trans : forall a b c, iframe a b -> iframe b c -> iframe a c.
Proof. intros a b c [A1 A2 A3] [B1 B2 B3]. split; congruence. Qed.

(** The state a call ends with. *)
Definition fin (s : state) (r : ends) : state := match r with Ok (a, _) => a | _ => s end.
Lemma fin_ok : forall s r s' e, r = Ok (s', e) -> s' = fin s r.
Proof. intros s r s' e ->. reflexivity. Qed.

Lemma insert_text_iframe : forall t pg x y w h al c s s' e, insert_text t pg x y w h al c s = Ok (s', e) -> iframe s s'.
Proof.
  intros t pg x y w h al c s s' e H. unfold insert_text in H. apply bind_ok in H as (ph & _ & H). cbv beta in H.
  destruct (lookup _ _) as [id|]; [|unfold fails in H; assert (s' = s) by congruence; subst; apply iframe_refl].
  destruct (nth_error _ id) as [f|]; [|discriminate]. destruct (font_add f t) as [f' r]. cbv zeta in H.
  assert (P : forall x, places (upd_font (with_cont s (s_cont s ++ [CText id x])) id (fun _ => f')) = places s).
  { intros q. unfold places. cbn. rewrite flat_map_app. cbn. apply app_nil_r. }
  destruct r; try discriminate; unfold ok, fails in H; injection H as <- <-; split; try reflexivity; apply P.
Qed.
Lemma insert_lines_iframe : forall ls pg x w h al c s s' e, insert_lines ls pg x w h al c s = Ok (s', e) -> iframe s s'.
Proof.
  induction ls as [|[t y] ls IH]; intros pg x w h al c s s' e H; cbn [insert_lines] in H; [unfold ok in H; assert (s' = s) by congruence; subst; apply iframe_refl|].
  apply bind_ok in H as ([s1 e1] & E & H). cbn [fst snd] in H. apply insert_text_iframe in E.
  destruct e1; [unfold fails in H; assert (s' = s1) by congruence; subst; exact E|]. eapply iframe_trans; [exact E|eauto].
Qed.
Lemma wrap_iframe : forall t pg x y w h al c b s s' e, insertWrapText t pg x y w h al c b s = Ok (s', e) -> iframe s s'.
Proof.
  intros t pg x y w h al c b s s' e H. unfold insertWrapText in H. destruct b as [b|]; [|eapply insert_text_iframe; eauto].
  assert (R : forall z, Ok (s, z) = Ok (s', e) -> iframe s s') by (intros z X; assert (s' = s) by congruence; subst; apply iframe_refl).
  destruct (b t) as [toks| | |]; try discriminate; [|unfold fails in H; eauto].
  destruct (forallb _ toks); [unfold ok in H; eauto|].
  destruct (lookup _ _) as [id|]; [|discriminate]. destruct (nth_error _ id) as [f|]; [|discriminate].
  apply bind_ok in H as (ph & _ & H). cbv beta in H. destruct (wrap_lines _ _ _ _ _ _) as [f' r]. cbv zeta in H.
  destruct r; try discriminate.
  - apply insert_lines_iframe in H as [A1 A2 A3]. split; [exact A1|exact A2|exact A3].
  - unfold fails in H. injection H as <- <-. split; reflexivity.
Qed.
Lemma measure_iframe : forall t s s' r, measureTextWidth t s = Ok (s', r) -> iframe s s'.
Proof.
  intros t s s' r H. unfold measureTextWidth in H. destruct (lookup _ _) as [id|]; [|discriminate].
  destruct (nth_error _ id) as [f|]; [|discriminate]. destruct (measure_text _ _ _) as [f' q].
  apply bind_ok in H as (ph & _ & H). cbv beta zeta in H. destruct q; try discriminate; injection H as <- <-; split; reflexivity.
Qed.

Lemma newXobjs_length : forall imgs ch idx, List.length (newXobjs imgs ch idx) = List.length imgs.
Proof. induction imgs; intros; cbn; [reflexivity|]. rewrite IHimgs. reflexivity. Qed.
Lemma injectImgs_length : forall ord p imgs p' names, injectImgs ord p imgs = Ok (p', names) -> List.length names = List.length imgs.
Proof.
  intros ord p imgs p' names H. unfold injectImgs in H. apply bind_ok in H as (rs & _ & H). apply bind_ok in H as (fr & _ & H).
  destruct fr as [[r e]|]; [|discriminate]. apply bind_ok in H as (cw & _ & H). cbv zeta in H. apply bind_ok in H as ([cw2 vals] & _ & H).
  destruct (scanXobjs _ _ _ _) as [[old ch] idx]. apply bind_ok in H as (must & _ & H). apply bind_ok in H as (os & _ & H).
  assert (N : names = map (fun x => (xo_char x, xo_index x)) (newXobjs imgs ch idx)) by congruence.
  rewrite N, map_length. apply newXobjs_length.
Qed.
Lemma img_objs_length : forall is n, List.length (img_objs is n) = List.length is.
Proof. induction is; intros; cbn; [reflexivity|]. rewrite IHis. reflexivity. Qed.
Lemma combine_datas : forall (is : list image) (names : list (bytes * Z)), List.length names = List.length is ->
  map im_data (map (fun x => mkImage (im_data (fst x)) (fst (snd x)) (snd (snd x))) (combine is names)) = map im_data is.
Proof.
  induction is as [|i is IH]; intros [|n ns] H; cbn in *; try reflexivity; try discriminate. rewrite IH; [reflexivity|lia].
Qed.
Lemma save_iframe : forall w fuel ch s s' r, saveTo w fuel ch s = Ok (s', r) -> iframe s s' /\ s_cont s' = s_cont s /\ d_sizes (s_doc s') = d_sizes (s_doc s).
Proof.
  intros w fuel ch s s' r H. unfold saveTo in H. cbv zeta in H. set (p0 := d_pdf (s_doc s)) in *.
  assert (R : forall fs p is, map im_data is = map im_data (s_imgs s) ->
    let z := with_imgs (with_pdf (with_fonts (with_fonts s (fst fs)) (snd fs)) p) is in
    iframe s z /\ s_cont z = s_cont s /\ d_sizes (s_doc z) = d_sizes (s_doc s)).
  { intros fs p is E. cbn. split; [|split; reflexivity]. split; [reflexivity|exact E|reflexivity]. }
  destruct (build_fonts _ _ _ _) as [fs1 r1]. destruct r1 as [next|e| |]; try discriminate;
    [|injection H as <- <-; split; [split; reflexivity|split; reflexivity]].
  destruct (injectFonts _ _ _) as [[p1 idx]|e| |]; try discriminate;
    [|injection H as <- <-; split; [split; reflexivity|split; reflexivity]].
  set (new := flat_map _ (ch_ord ch [32] _ _)) in H. clearbody new.
  destruct (injectImgs _ _ _) as [[p4 names]|e| |] eqn:Ei; try discriminate;
    [|injection H as <- <-; split; [split; reflexivity|split; reflexivity]].
  apply injectImgs_length in Ei. rewrite map_length, img_objs_length in Ei. apply combine_datas in Ei.
  set (is := map _ (combine (s_imgs s) names)) in *. clearbody is.
  set (fs2 := fold_left set_index idx fs1) in *. clearbody fs2. set (b := match new ++ _ with [] => true | _ => ch_room ch end) in H. clearbody b.
  destruct (injectContent _ _ _ _ _ _) as [p5|e| |]; try discriminate.
  - destruct (s_prot s) as [pr|].
    + apply bind_ok in H as (os & _ & H). destruct b; injection H as <- <-; (split; [split; [reflexivity|exact Ei|reflexivity]|split; reflexivity]).
    + destruct b; injection H as <- <-; (split; [split; [reflexivity|exact Ei|reflexivity]|split; reflexivity]).
  - destruct b; injection H as <- <-; (split; [split; [reflexivity|exact Ei|reflexivity]|split; reflexivity]).
Qed.
Lemma page_iframe : forall s o s' e, page_call s o = Ok (s', e) -> iframe s s'.
Proof.
  intros s o s' e H. unfold page_call in H. destruct o as [[p q]| | |]; try discriminate; [injection H as <- <-; split; reflexivity|].
  unfold fails in H. injection H as <- <-. apply iframe_refl.
Qed.

Definition about_images (c : call) : bool :=
  match c with KOpen _ | KImg _ _ _ _ _ _ _ | KImg64 _ _ _ _ _ _ _ | KImgCache _ _ _ _ _ _ _ => true | _ => false end.
Lemma call_iframe : forall w fuel c s s' e, about_images c = false -> call_of w fuel c s = Ok (s', e) -> iframe s s'.
Proof.
  intros w fuel c s s' e A H.
  assert (R : forall z, Ok (s, z) = Ok (s', e) -> iframe s s') by (intros z X; assert (s' = s) by congruence; subst; apply iframe_refl).
  destruct c; try discriminate; cbn [call_of] in H.
  - unfold addFont in H. destruct (lookup _ _); [unfold fails in H; eauto|].
    destruct (match file with Some d => parseTtf d | None => Err EOther end); try discriminate; [|unfold fails in H; eauto].
    destruct (s_names s); [|discriminate]. unfold ok in H. injection H as <- <-. split; reflexivity.
  - unfold textriseOverride in H. destruct (lookup _ _); [|unfold fails in H; eauto]. unfold ok in H. injection H as <- <-. split; reflexivity.
  - unfold kernOverride in H. destruct (lookup _ _); [|unfold fails in H; eauto]. unfold ok in H. injection H as <- <-. split; reflexivity.
  - unfold setFont in H. destruct (lookup _ _); [|unfold fails in H; eauto]. unfold ok in H. injection H as <- <-. split; reflexivity.
  - eapply insert_text_iframe; eauto.
  - eapply wrap_iframe; eauto.
  - apply bind_ok in H as ([s1 r] & E & H). cbn [fst snd] in H. assert (s' = s1) by congruence. subst. eapply measure_iframe; eauto.
  - unfold ok in H. injection H as <- <-. split; [reflexivity|reflexivity|]. unfold places, showCellBorder. cbn. rewrite flat_map_app. cbn. apply app_nil_r.
  - eapply page_iframe; eauto.
  - eapply page_iframe; eauto.
  - eapply page_iframe; eauto.
  - unfold setProt in H. destruct (setProtection _ _ _ _); try discriminate; [|unfold fails in H; eauto]. unfold ok in H. injection H as <- <-. split; reflexivity.
  - apply bind_ok in H as ([s1 r] & E & H). cbn [fst snd] in H. assert (s' = s1) by congruence. subst. apply (save_iframe _ _ _ _ _ _ E).
Qed.

(** ** Page sizes *)
Lemma place_sizes : forall id pg x y w h s s' e, place_image id pg x y w h s = Ok (s', e) -> d_sizes (s_doc s') = d_sizes (s_doc s).
Proof. intros. f_equal. eapply place_doc; eauto. Qed.
Lemma new_image_sizes : forall w b i s s' e, new_image w b i s = Ok (s', e) -> d_sizes (s_doc s') = d_sizes (s_doc s).
Proof.
  intros w b i s s' e H. unfold new_image in H. destruct (insertImgObj _ _ _ _ _ _) as [[p d]| | |]; try discriminate;
    unfold ok, fails in H; injection H as <- <-; reflexivity.
Qed.
Lemma insertImg_sizes : forall wd b i pg x y w h s s' e, insertImg wd b i pg x y w h s = Ok (s', e) -> d_sizes (s_doc s') = d_sizes (s_doc s).
Proof.
  intros wd b i pg x y w h s s' e H. unfold insertImg in H. apply bind_ok in H as ([s1 e1] & E & H). cbn [fst snd] in H.
  apply new_image_sizes in E. destruct e1; [unfold fails in H; congruence|]. apply place_sizes in H. congruence.
Qed.
Lemma call_sizes : forall w fuel c s s' e, is_open c = false -> call_of w fuel c s = Ok (s', e) -> d_sizes (s_doc s') = d_sizes (s_doc s).
Proof.
  intros w fuel c s s' e A H.
  destruct c; try discriminate; cbn [call_of] in H.
  - unfold addFont in H. destruct (lookup _ _); [unfold fails in H; congruence|].
    destruct (match file with Some d => parseTtf d | None => Err EOther end); try discriminate; [|unfold fails in H; congruence].
    destruct (s_names s); [|discriminate]. unfold ok in H. injection H as <- <-. reflexivity.
  - unfold textriseOverride in H. destruct (lookup _ _); unfold ok, fails in H; injection H as <- <-; reflexivity.
  - unfold kernOverride in H. destruct (lookup _ _); unfold ok, fails in H; injection H as <- <-; reflexivity.
  - unfold setFont in H. destruct (lookup _ _); unfold ok, fails in H; injection H as <- <-; reflexivity.
  - f_equal. eapply insert_text_doc; eauto.
  - f_equal. eapply wrap_doc; eauto.
  - apply bind_ok in H as ([s1 r] & E & H). cbn [fst snd] in H. assert (s' = s1) by congruence. subst. f_equal. eapply measure_doc; eauto.
  - eapply insertImg_sizes; eauto.
  - unfold insertImgBase64 in H. destruct (w_base64 w b64); try discriminate; [eapply insertImg_sizes; eauto|]. unfold fails in H. congruence.
  - unfold insertImgWithCache in H. cbv zeta in H. destruct (lookup _ _) as [id|]; [eapply place_sizes; eauto|].
    apply bind_ok in H as ([s1 e1] & E & H). cbn [fst snd] in H. apply new_image_sizes in E.
    destruct e1; [unfold fails in H; congruence|]. destruct (s_cache s); [|discriminate]. apply place_sizes in H. rewrite H. exact E.
  - unfold ok in H. injection H as <- <-. reflexivity.
  - unfold page_call in H. destruct (removePage _ _ _) as [[p q]| | |]; try discriminate; unfold fails in H; injection H as <- <-; reflexivity.
  - unfold page_call in H. destruct (removeOtherPages _ _ _) as [[p q]| | |]; try discriminate; unfold fails in H; injection H as <- <-; reflexivity.
  - unfold page_call in H. destruct (duplicatePageAfter _ _ _ _) as [[p q]| | |]; try discriminate; unfold fails in H; injection H as <- <-; reflexivity.
  - unfold setProt in H. destruct (setProtection _ _ _ _); try discriminate; unfold ok, fails in H; injection H as <- <-; reflexivity.
  - apply bind_ok in H as ([s1 r] & E & H). cbn [fst snd] in H. assert (s' = s1) by congruence. subst. apply (save_iframe _ _ _ _ _ _ E).
Qed.
Lemma history_sizes : forall w fuel cs s s' log, forallb (fun c => negb (is_open c)) cs = true -> history w fuel cs s = Ok (s', log) ->
  d_sizes (s_doc s') = d_sizes (s_doc s).
Proof.
  induction cs as [|c cs IH]; intros s s' log A H; cbn [history forallb] in *.
  - congruence.
  - apply andb_true_iff in A as [A1 A2]. apply bind_ok in H as ([s1 e] & E & H). cbn [fst snd] in H.
    apply bind_ok in H as ([s2 l2] & E2 & H). cbn [fst snd] in H. assert (s' = s2) by congruence. subst.
    apply IH in E2; auto. apply call_sizes in E; [congruence|]. destruct (is_open c); auto; discriminate.
Qed.
