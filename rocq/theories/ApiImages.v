(** Images placed through the cache. *)
From Coq Require Import String List ZArith Lia Bool Permutation.
From Coq.Floats Require Import SpecFloat.
From Verif Require Import Base BaseProofs Output Props PdfData PagesProofs Crawl Inject Md5Rc4 Crypto Png Utf8 Float64 Ttf Subset Text Wrap Parse Api ApiSpec ApiProofs ApiIds ApiFrames.
Open Scope Z_scope.
Open Scope list_scope.

Definition made (w : world) (img data : bytes) : Prop :=
  exists beyond p p', insertImgObj (w_config w) (w_inflate w) (w_compress w) beyond p img = Ok (p', data).

Record cinv (w : world) (n0 : nat) (pl0 : list nat) (log : list entry) (s : state) (c : list (bytes * nat)) (ids : list nat) : Prop := mkCinv {
  ci_is : s_cache s = Some c;
  ci_nd : NoDup (map fst c);
  ci_seq : map snd c = seq n0 (List.length c);
  ci_len : List.length (map im_data (s_imgs s)) = (n0 + List.length c)%nat;
  ci_keys : forall k, In k (map fst c) <-> In k (map md5 (cached log));
  ci_places : places s = pl0 ++ ids;
  ci_each : Forall2 (fun img id => In (md5 img, id) c) (cached log) ids;
  ci_data : forall key id, In (key, id) c -> exists img data, In img (cached log) /\ md5 img = key /\
              nth_error (map im_data (s_imgs s)) id = Some data /\ made w img data }.

Definition cache_only (c : call) : bool := match c with KOpen _ | KImg _ _ _ _ _ _ _ | KImg64 _ _ _ _ _ _ _ => false | _ => true end.

Lemma assoc_in : forall (A : Type) k (m : list (bytes * A)) v, assoc k m = Some v -> In (k, v) m.
Proof.
  induction m as [|[a v] m IH]; intros x H; cbn in H; [discriminate|]. destruct (beqb a k) eqn:E.
  - apply beqb_eq in E. subst. left. congruence.
  - right. auto.
Qed.
Lemma assoc_none : forall (A : Type) k (m : list (bytes * A)), assoc k m = None -> ~ In k (map fst m).
Proof.
  induction m as [|[a v] m IH]; intros H; cbn in *; [tauto|]. destruct (beqb a k) eqn:E; [discriminate|].
  intros [X|X]; [subst; rewrite beqb_refl in E; discriminate|exact (IH H X)].
Qed.

Lemma cached_other : forall log c e, about_images c = false -> cached (log ++ [(c, e)]) = cached log.
Proof. intros log c e H. unfold cached. rewrite flat_map_app. destruct c; try discriminate; cbn; apply app_nil_r. Qed.
Lemma cached_error : forall log b i p x y w h e, cached (log ++ [(KImgCache b i p x y w h, Some e)]) = cached log.
Proof. intros. unfold cached. rewrite flat_map_app. cbn. apply app_nil_r. Qed.
Lemma cached_done : forall log b i p x y w h, cached (log ++ [(KImgCache b i p x y w h, None)]) = cached log ++ [i].
Proof. intros. unfold cached. rewrite flat_map_app. reflexivity. Qed.

Lemma cache_error : forall wd b i pg x y w h s s' e, insertImgWithCache wd b i pg x y w h s = Ok (s', Some e) -> s' = s.
Proof.
  intros wd b i pg x y w h s s' e H. unfold insertImgWithCache in H. cbv zeta in H.
  assert (NP : forall id t t' e, place_image id pg x y w h t = Ok (t', Some e) -> False).
  { intros id t t' z X. unfold place_image in X. apply bind_ok in X as (ph & _ & X). discriminate X. }
  destruct (lookup _ _) as [id|]; [exfalso; eauto|].
  apply bind_ok in H as ([s1 e1] & E & H). cbn [fst snd] in H. destruct e1 as [z|].
  - unfold fails in H. assert (s' = s1) by congruence. subst. unfold new_image in E.
    destruct (insertImgObj _ _ _ _ _ _) as [[p d]| | |]; unfold ok, fails in E; congruence.
  - destruct (s_cache s); [exfalso; eauto|discriminate].
Qed.

Lemma place_done : forall id pg x y w h s s' e, place_image id pg x y w h s = Ok (s', e) ->
  e = None /\ s_cache s' = s_cache s /\ s_imgs s' = s_imgs s /\ places s' = places s ++ [id].
Proof.
  intros id pg x y w h s s' e H. unfold place_image in H. apply bind_ok in H as (ph & _ & H). unfold ok in H. injection H as <- <-.
  repeat split. unfold places. cbn. rewrite flat_map_app. reflexivity.
Qed.

Lemma cinv_cache : forall wd n0 pl0 log s c ids b i pg x y w h s' e, cinv wd n0 pl0 log s c ids ->
  insertImgWithCache wd b i pg x y w h s = Ok (s', e) ->
  exists c' ids', cinv wd n0 pl0 (log ++ [(KImgCache b i pg x y w h, e)]) s' c' ids'.
Proof.
  intros wd n0 pl0 log s c ids b i pg x y w h s' e Iv H. destruct e as [e|].
  - apply cache_error in H. subst. exists c, ids. destruct Iv. split; try rewrite cached_error; assumption.
  - destruct Iv as [I1 I2 I3 I4 I5 I6 I7 I8]. unfold insertImgWithCache in H. cbv zeta in H. rewrite I1 in H. cbn [lookup] in H.
    destruct (assoc (md5 i) c) as [id|] eqn:A.
    + apply assoc_in in A. apply place_done in H as (_ & C1 & C2 & C3). exists c, (ids ++ [id]). split; try rewrite cached_done.
      * congruence.
      * exact I2.
      * exact I3.
      * rewrite C2. exact I4.
      * intros k. rewrite I5, map_app, in_app_iff. cbn. split; [tauto|]. intros [X|[X|[]]]; [exact X|]. subst.
        apply I5. apply in_map_iff. exists (md5 i, id). auto.
      * rewrite C3, I6, app_assoc. reflexivity.
      * apply Forall2_app; [exact I7|]. constructor; [exact A|constructor].
      * intros key z Hz. destruct (I8 _ _ Hz) as (img & data & J1 & J2 & J3 & J4). exists img, data. rewrite C2.
        split; [apply in_or_app; auto|auto].
    + apply assoc_none in A. apply bind_ok in H as ([s1 e1] & E & H). cbn [fst snd] in H. destruct e1; [discriminate|].
      unfold new_image in E. destruct (insertImgObj _ _ _ _ _ _) as [[p d]| | |] eqn:Ob; try discriminate.
      unfold ok in E. injection E as <-. apply place_done in H as (_ & C1 & C2 & C3). cbn [s_cache s_imgs with_cache with_imgs] in C1, C2.
      change (places _) with (places s) in C3 at 2.
      rewrite map_length in I4.
      exists (c ++ [(md5 i, List.length (s_imgs s))]), (ids ++ [List.length (s_imgs s)]). split; try rewrite cached_done.
      * exact C1.
      * rewrite map_app. cbn. apply nodup_join; [exact I2|constructor; [intros []|constructor]|]. intros z Hz [<-|[]]. exact (A Hz).
      * rewrite map_app, app_length, I3. cbn [map snd List.length]. rewrite seq_app. f_equal. cbn. rewrite I4. reflexivity.
      * rewrite C2, map_length, !app_length, I4. cbn. lia.
      * intros k. rewrite !map_app, !in_app_iff, I5. reflexivity.
      * rewrite C3, I6, app_assoc. reflexivity.
      * apply Forall2_app; [|constructor; [apply in_or_app; right; left; reflexivity|constructor]].
        clear - I7. induction I7; constructor; auto. apply in_or_app. auto.
      * intros key z Hz. rewrite C2, map_app. apply in_app_or in Hz as [Hz|[Hz|[]]].
        -- destruct (I8 _ _ Hz) as (img & data & J1 & J2 & J3 & J4). exists img, data. split; [apply in_or_app; auto|]. split; [exact J2|].
           split; [|exact J4]. rewrite nth_error_app1; [exact J3|]. apply nth_error_Some. congruence.
        -- injection Hz as <- <-. exists i, d. split; [apply in_or_app; right; left; reflexivity|]. split; [reflexivity|]. split.
           ++ rewrite nth_error_app2; rewrite map_length; [|lia]. rewrite Nat.sub_diag. reflexivity.
           ++ exists b, (d_pdf (s_doc s)), p. exact Ob.
Qed.

Lemma cinv_history : forall wd fuel s0 cs s log, s_cache s0 = Some [] -> forallb cache_only cs = true ->
  history wd fuel cs s0 = Ok (s, log) -> exists c ids, cinv wd (List.length (s_imgs s0)) (places s0) log s c ids.
Proof.
  intros wd fuel s0 cs. induction cs as [|c cs IH] using rev_ind; intros s log C0 A H.
  - cbn in H. injection H as <- <-. exists [], []. split; cbn; try constructor; auto.
    + rewrite map_length. lia.
    + rewrite app_nil_r. reflexivity.
    + intros key id [].
  - rewrite forallb_snoc in A. apply andb_true_iff in A as [A1 A2]. apply history_snoc in H as (s1 & l1 & e & H1 & C & ->).
    destruct (IH _ _ C0 A1 H1) as (m & ids & Iv). clear IH H1. destruct (about_images c) eqn:Ab.
    + destruct c; try discriminate. cbn [call_of] in C. eapply cinv_cache; eauto.
    + apply call_iframe in C; [|exact Ab]. destruct C as [F1 F2 F3]. exists m, ids. destruct Iv as [I1 I2 I3 I4 I5 I6 I7 I8].
      split; try rewrite (cached_other _ _ _ Ab); try rewrite F1; try rewrite F2; try rewrite F3; assumption.
Qed.

Definition bytes_dec : forall a b : bytes, {a = b} + {a <> b} := list_eq_dec Z.eq_dec.

Lemma nth_forall2 : forall (A C : Type) (R : A -> C -> Prop) l m, Forall2 R l m -> forall i a c, nth_error l i = Some a -> nth_error m i = Some c -> R a c.
Proof.
  induction 1 as [|x z l m H F IH]; intros i a c Ha Hc; [destruct i; discriminate|].
  destruct i; cbn in Ha, Hc; [congruence|eauto].
Qed.

Theorem cached_once : forall wd fuel s0 cs s log, s_cache s0 = Some [] -> forallb cache_only cs = true ->
  history wd fuel cs s0 = Ok (s, log) ->
  List.length (s_imgs s) = (List.length (s_imgs s0) + List.length (nodup bytes_dec (map md5 (cached log))))%nat /\
  exists ids, places s = places s0 ++ ids /\ List.length ids = List.length (cached log) /\
    (forall i j a b x y, nth_error (cached log) i = Some a -> nth_error (cached log) j = Some b ->
       nth_error ids i = Some x -> nth_error ids j = Some y -> (x = y <-> md5 a = md5 b)) /\
    (forall i a x, nth_error (cached log) i = Some a -> nth_error ids i = Some x ->
       exists im img, nth_error (s_imgs s) x = Some im /\ In img (cached log) /\ md5 img = md5 a /\ made wd img (im_data im)).
Proof.
  intros wd fuel s0 cs s log C0 A H. destruct (cinv_history _ _ _ _ _ _ C0 A H) as (c & ids & [I1 I2 I3 I4 I5 I6 I7 I8]).
  split.
  - rewrite map_length in I4. rewrite I4. f_equal. rewrite <- (map_length fst c). apply Permutation_length.
    apply NoDup_Permutation; [exact I2|apply NoDup_nodup|]. intros k. rewrite nodup_In. apply I5.
  - exists ids. split; [exact I6|]. split; [clear - I7; induction I7; cbn; congruence|].
    assert (ND : NoDup (map snd c)) by (rewrite I3; apply seq_NoDup).
    assert (Fn : forall k x y, In (k, x) c -> In (k, y) c -> x = y).
    { clear - I2. induction c as [|[k v] c IH]; intros q x y Hx Hy; [destruct Hx|]. cbn in I2. inversion I2; subst.
      destruct Hx as [Hx|Hx], Hy as [Hy|Hy].
      - congruence.
      - injection Hx as -> ->. exfalso. apply H1. apply in_map_iff. exists (q, y). auto.
      - injection Hy as -> ->. exfalso. apply H1. apply in_map_iff. exists (q, x). auto.
      - eauto. }
    assert (Fi : forall k l x, In (k, x) c -> In (l, x) c -> k = l).
    { clear - ND. induction c as [|[k v] c IH]; intros q l x Hx Hy; [destruct Hx|]. cbn in ND. inversion ND; subst.
      destruct Hx as [Hx|Hx], Hy as [Hy|Hy].
      - congruence.
      - injection Hx as -> ->. exfalso. apply H1. apply in_map_iff. exists (l, x). auto.
      - injection Hy as -> ->. exfalso. apply H1. apply in_map_iff. exists (q, x). auto.
      - eauto. }
    split.
    + intros i j a b x y Ha Hb Hx Hy. pose proof (nth_forall2 _ _ _ _ _ I7 _ _ _ Ha Hx) as P. pose proof (nth_forall2 _ _ _ _ _ I7 _ _ _ Hb Hy) as Q.
      cbv beta in P, Q. split; intros E; [subst; eauto|]. rewrite E in P. eauto.
    + intros i a x Ha Hx. pose proof (nth_forall2 _ _ _ _ _ I7 _ _ _ Ha Hx) as P. destruct (I8 _ _ P) as (img & data & J1 & J2 & J3 & J4).
      rewrite nth_error_map in J3. destruct (nth_error (s_imgs s) x) as [im|]; [|discriminate]. cbn in J3. injection J3 as <-. exists im, img. auto.
Qed.
