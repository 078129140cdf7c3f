(** pdft draws over documents of the writer GoPdf (C86). *)
From Coq Require Import String List ZArith Lia Bool.
From Coq.Floats Require Import SpecFloat.
From Verif Require Import Float64 TextSpec PdfSyntax GoPdf GoPdfSpec GoPdfDrawSpec GoPdfDocSpec GoPdfTree GoPdfOpenSpec GoPdfResSpec GoPdfReadySpec.
From Verif Require Import Base BaseProofs Output OutputSpec Props PdfData PagesSpec PagesProofs Inject InjectSpec Crawl ContentSpec ImgSpec Parse ParsePages ParseFinal Png Crypto Api ApiSpec ApiProofs ApiIds SaveSpec SaveDoc SaveWhole SaveDrawSpec SaveDrawn GoPdfReady.
Open Scope Z_scope.
Open Scope list_scope.

(** ** Calls that add something leave the objects of the document. *)
Definition extends (p p' : pdf) : Prop := root p' = root p /\ exists e, objs p' = objs p ++ e.
Lemma extends_refl : forall p p', p' = p -> extends p p'.
Proof. intros p p' ->. split; [reflexivity|]. exists []. rewrite app_nil_r. reflexivity. Qed.
Lemma extends_trans : forall a b c, extends a b -> extends b c -> extends a c.
Proof. intros a b c (R1 & e1 & E1) (R2 & e2 & E2). split; [congruence|]. exists (e1 ++ e2). rewrite E2, E1, app_assoc. reflexivity. Qed.
Lemma new_image_extends : forall w b i s s' e, new_image w b i s = Ok (s', e) -> extends (d_pdf (s_doc s)) (d_pdf (s_doc s')).
Proof.
  intros w b i s s' e H. unfold new_image in H. destruct (insertImgObj _ _ _ _ _ _) as [[p d]| | |] eqn:E; try discriminate.
  - unfold ok in H. assert (X : d_pdf (s_doc s') = p) by (apply (f_equal (fun r => match r with Ok (a, _) => d_pdf (s_doc a) | _ => p end)) in H; symmetry; exact H).
    rewrite X. unfold insertImgObj in E. apply bind_ok in E as (im & _ & E). destruct (createSMask im) as [m|].
    + unfold putNewObject, put in E. cbv beta iota zeta in E.
      apply (f_equal (fun r => match r with Ok (a, _) => a | _ => p end)) in E. rewrite <- E. split; [reflexivity|]. eexists. reflexivity.
    + apply extends_refl. congruence.
  - unfold fails in H. assert (X : s' = s) by congruence. rewrite X. apply extends_refl. reflexivity.
Qed.
Lemma insertImg_extends : forall wd b i pg x y w h s s' e, insertImg wd b i pg x y w h s = Ok (s', e) -> extends (d_pdf (s_doc s)) (d_pdf (s_doc s')).
Proof.
  intros wd b i pg x y w h s s' e H. unfold insertImg in H. apply bind_ok in H as ([s1 e1] & E & H). cbn [fst snd] in H.
  apply new_image_extends in E. destruct e1; [unfold fails in H; assert (s' = s1) by congruence; subst; exact E|].
  apply place_doc in H. rewrite H. exact E.
Qed.
Lemma call_extends : forall w fuel c s s' e, adds c -> call_of w fuel c s = Ok (s', e) -> extends (d_pdf (s_doc s)) (d_pdf (s_doc s')).
Proof.
  intros w fuel c s s' e A H.
  assert (D : forall t, s_doc t = s_doc s -> extends (d_pdf (s_doc s)) (d_pdf (s_doc t))) by (intros t X; apply extends_refl; rewrite X; reflexivity).
  destruct c; try destruct A; cbn [call_of] in H.
  - apply D. unfold addFont in H. destruct (lookup _ _); [unfold fails in H; congruence|].
    destruct (match file with Some d => Ttf.parseTtf d | None => Err EOther end); try discriminate; [|unfold fails in H; congruence].
    destruct (s_names s); [|discriminate]. unfold ok in H.
    apply (f_equal (fun r => match r with Ok (a, _) => s_doc a | _ => s_doc s end)) in H. symmetry; exact H.
  - apply D. unfold textriseOverride in H. destruct (lookup _ _); [|unfold fails in H; congruence].
    apply (f_equal (fun r => match r with Ok (a, _) => s_doc a | _ => s_doc s end)) in H. symmetry; exact H.
  - apply D. unfold kernOverride in H. destruct (lookup _ _); [|unfold fails in H; congruence].
    apply (f_equal (fun r => match r with Ok (a, _) => s_doc a | _ => s_doc s end)) in H. symmetry; exact H.
  - apply D. unfold setFont in H. destruct (lookup _ _); [|unfold fails in H; congruence].
    apply (f_equal (fun r => match r with Ok (a, _) => s_doc a | _ => s_doc s end)) in H. symmetry; exact H.
  - apply D. eapply insert_text_doc; eauto.
  - apply D. eapply wrap_doc; eauto.
  - apply bind_ok in H as ([s1 r] & E & H). cbn [fst snd] in H. assert (s' = s1) by congruence. subst. apply D. eapply measure_doc; eauto.
  - eapply insertImg_extends; eauto.
  - unfold insertImgBase64 in H. destruct (w_base64 w b64); try discriminate; [eapply insertImg_extends; eauto|].
    apply D. unfold fails in H. congruence.
  - unfold insertImgWithCache in H. cbv zeta in H. destruct (lookup _ _) as [id|]; [apply D; eapply place_doc; eauto|].
    apply bind_ok in H as ([s1 e1] & E & H). cbn [fst snd] in H. apply new_image_extends in E.
    destruct e1; [unfold fails in H; assert (s' = s1) by congruence; subst; exact E|].
    destruct (s_cache s); [|discriminate]. apply place_doc in H. rewrite H. exact E.
  - apply D. apply (f_equal (fun r => match r with Ok (a, _) => s_doc a | _ => s_doc s end)) in H. symmetry; exact H.
  - apply D. unfold setProt in H. destruct (setProtection _ _ _ _); try discriminate; [|unfold fails in H; congruence].
    apply (f_equal (fun r => match r with Ok (a, _) => s_doc a | _ => s_doc s end)) in H. symmetry; exact H.
Qed.
Lemma history_extends : forall w fuel cs s s' log, Forall adds cs -> history w fuel cs s = Ok (s', log) -> extends (d_pdf (s_doc s)) (d_pdf (s_doc s')).
Proof.
  induction cs as [|c cs IH]; intros s s' log A H; cbn [history] in *.
  - assert (s' = s) by congruence. subst. apply extends_refl. reflexivity.
  - inversion A as [|? ? A1 A2]; subst. apply bind_ok in H as ([s1 e] & E & H). cbn [fst snd] in H.
    apply bind_ok in H as ([s2 l2] & E2 & H). cbn [fst snd] in H. assert (s' = s2) by congruence. subst.
    eapply extends_trans; [eapply call_extends; eauto|eauto].
Qed.
Lemma adds_open : forall cs, Forall adds cs -> forallb (fun c => negb (is_open c)) cs = true.
Proof. intros cs H. apply forallb_forall. intros c Hc. rewrite Forall_forall in H. specialize (H c Hc). destruct c; try reflexivity. destruct H. Qed.
Lemma grows_nodup : forall p p', grows p p' -> NoDup (map oid (objs p)) -> NoDup (map oid (objs p')).
Proof.
  intros p p' (_ & new & E & (N & Fr)) H. rewrite E. apply nodup_join; [exact H|exact N|]. intros a Ha Hn. destruct (Fr a Hn) as (_ & X). specialize (X a Ha). lia.
Qed.
Lemma leaf_depth : forall ks, (depth (Node 2 (map Leaf ks)) <= 2)%nat.
Proof.
  intros ks. assert (X : (fold_right (fun t m => Nat.max (depth t) m) 0 (map Leaf ks) <= 1)%nat) by (induction ks as [|k ks IH]; cbn [map fold_right depth]; lia).
  change (S (fold_right (fun t m => Nat.max (depth t) m) 0 (map Leaf ks)) <= 2)%nat. lia.
Qed.
Lemma nth_combine : forall (A C : Type) (l : list A) (m : list C) n a c, nth_error l n = Some a -> nth_error m n = Some c -> nth_error (combine l m) n = Some (a, c).
Proof. induction l as [|x l IH]; intros m n a c H1 H2; destruct m as [|y m], n as [|n]; try discriminate; cbn [combine nth_error] in *; [congruence|]. apply IH; assumption. Qed.
Lemma nth_content : forall srcs n cid s, nth_error srcs n = Some (Some (cid, s)) -> In cid (content_ids srcs).
Proof. intros srcs n cid s H. apply nth_error_In in H. unfold content_ids. apply in_flat_map. exists (Some (cid, s)). split; [exact H|left; reflexivity]. Qed.
Lemma content_apart : forall srcs i j cid s t, NoDup (content_ids srcs) -> nth_error srcs i = Some (Some (cid, s)) -> nth_error srcs j = Some (Some (cid, t)) -> i = j.
Proof.
  induction srcs as [|x srcs IH]; intros i j cid s t N Hi Hj; [destruct i; discriminate|].
  assert (NR : NoDup (content_ids srcs)). { destruct x as [(c0, s0)|]; [|exact N]. cbn [content_ids flat_map app] in N. inversion N; assumption. }
  destruct i as [|i], j as [|j]; cbn [nth_error] in *; [reflexivity| | |f_equal; eapply IH; eauto].
  - assert (x = Some (cid, s)) by congruence. subst x. cbn [content_ids flat_map app] in N. inversion N as [|? ? X _]; subst. destruct X. eapply nth_content; eauto.
  - assert (x = Some (cid, t)) by congruence. subst x. cbn [content_ids flat_map app] in N. inversion N as [|? ? X _]; subst. destruct X. eapply nth_content; eauto.
Qed.
