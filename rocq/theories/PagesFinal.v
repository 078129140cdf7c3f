From Coq Require Import String List ZArith Lia Bool.
From Verif Require Import Base BaseProofs Output Props PropsStable PropsSpec PdfData PagesSpec PagesProofs PagesEdit PagesOps.
Open Scope Z_scope.
Open Scope list_scope.

Theorem page_list_leaves : forall p t, page_tree p t -> page_list p (leaves t).
Proof. intros p t H. exists (depth t). intros. apply getPageObjIDs_leaves; auto. Qed.

Theorem number_of_pages : forall p t f, page_tree p t -> (depth t <= f)%nat ->
  getNumberOfPage f p = Ok (Z.of_nat (List.length (leaves t))).
Proof. intros p t f H D. unfold getNumberOfPage. rewrite (getPageObjIDs_leaves p t) by auto. reflexivity. Qed.

Theorem remove_page : forall p rid ts f k, editable p rid ts -> (depth (Node rid ts) <= f)%nat ->
  let ids := leaves (Node rid ts) in let n := Z.of_nat (List.length ids) in
  1 <= k <= n ->
  exists p', removePage f p k = Ok (p', None) /\
    page_list p' (firstn (Z.to_nat (k - 1)) ids ++ skipn (Z.to_nat k) ids) /\
    page_count p' rid (n - 1) /\ edits p p' rid [].
Proof.
  intros p rid ts f k H D ids n Hk. apply editable_pinv in H.
  destruct (remove_ok p rid ts f k H D Hk) as (p' & R & PI & PC & Ed & _). exists p'. split; [auto|]. split; [|split; [|auto]].
  - apply pinv_page_list in PI. rewrite leaves_leaves in PI. exact PI.
  - replace (n - 1) with (Z.of_nat (List.length (firstn (Z.to_nat (k - 1)) ids ++ skipn (Z.to_nat k) ids))); auto.
    rewrite app_length, firstn_length, skipn_length. unfold n in *. lia.
Qed.

Theorem remove_others : forall p rid ts f k, editable p rid ts -> (depth (Node rid ts) <= f)%nat ->
  let ids := leaves (Node rid ts) in let n := Z.of_nat (List.length ids) in
  0 <= k < n ->
  exists p', removeOtherPages f p k = Ok (p', None) /\
    page_list p' [nth (Z.to_nat k) ids 0] /\ page_count p' rid 1 /\ edits p p' rid [].
Proof.
  intros p rid ts f k H D ids n Hk. apply editable_pinv in H.
  destruct (removeOther_ok p rid ts f k H D Hk) as (p' & R & PI & PC & Ed & _). exists p'. split; [auto|]. split; [|split; auto].
  apply pinv_page_list in PI. rewrite leaves_leaves in PI. exact PI.
Qed.

Theorem duplicate_page : forall p rid ts f k pos, editable p rid ts -> (depth (Node rid ts) <= f)%nat ->
  let ids := leaves (Node rid ts) in let n := Z.of_nat (List.length ids) in
  1 <= k <= n -> - n <= pos <= n - 1 -> numbers_left p 2 ->
  copyable (objs p) (nth (Z.to_nat (k - 1)) ids 0) ->
  exists p' o ps c co, version (objs p) (nth (Z.to_nat (k - 1)) ids 0) o /\ entries o ps /\
    value ps (B"Contents") c /\ (exists i, readObjID c = Ok i /\ version (objs p) i co) /\
    exists no nc ps', duplicatePageAfter f p k pos = Ok (p', None) /\
      page_list p' (firstn (place n pos) ids ++ oid no :: skipn (place n pos) ids) /\
      page_count p' rid (n + 1) /\ edits p p' rid [nc; no] /\
      (forall q, In q (objs p) -> oid q <> oid no /\ oid q <> oid nc) /\ oid no <> oid nc /\
      version (objs p') (oid no) no /\ entries no ps' /\
      value ps' (B"Contents") (itoa (oid nc) ++ B" 0 R") /\
      (forall k v, k <> B"Contents" -> (value ps' k v <-> value ps k v)) /\
      version (objs p') (oid nc) nc /\ odata nc = odata co.
Proof.
  intros p rid ts f k pos H D ids n Hk Hpos NL (o & ps & v & c & co & V & E & R & Cv & Rc & Vc).
  apply editable_pinv in H. pose proof (rewritable_good o ps E R) as G.
  destruct (duplicate_ok p rid ts f k pos H D Hk Hpos NL o ps v c co V E G Cv Rc Vc) as (p' & S & PI & PC & Ed & V1 & V2 & E' & G' & _).
  exists p', o, ps, v, co. split; [auto|split; [auto|split; [auto|split; [eauto|]]]].
  exists (mkObj (maxID (objs p) + 2) (setProperties (setPropByKey (B"Contents") (refText (maxID (objs p) + 1)) ps))),
    (mkObj (maxID (objs p) + 1) (odata co)), (setPropByKey (B"Contents") (refText (maxID (objs p) + 1)) ps).
  split; [exact S|]. split.
  { apply pinv_page_list in PI. rewrite leaves_leaves in PI. exact PI. }
  split; [exact PC|]. split; [exact Ed|]. split.
  { intros q Hq. cbn [oid]. pose proof (maxID_ge _ _ Hq). lia. }
  split; [cbn [oid]; lia|]. split; [exact V2|]. split; [exact E'|]. split.
  { apply value_set_same. eapply value_has; eauto. }
  split; [|split; [exact V1|reflexivity]].
  intros k' v' Hk'. apply value_set_other. auto.
Qed.

(** ** Sequences of calls *)
Lemma blank_set : forall v ps, blank (setPropByKey (B"Contents") v ps) = blank ps.
Proof.
  intros v ps. unfold blank. induction ps as [|q ps IH]; cbn [setPropByKey map]; auto.
  destruct (beqb (pkey q) (B"Contents")) eqn:E; cbn [map pkey]; rewrite E; [reflexivity|now rewrite IH].
Qed.

Lemma Forall2_length : forall A T (P : A -> T -> Prop) l m, Forall2 P l m -> List.length l = List.length m.
Proof. intros A T P l m H. induction H; cbn; auto. Qed.
Lemma Forall2_firstn : forall A T (P : A -> T -> Prop) n l m, Forall2 P l m -> Forall2 P (firstn n l) (firstn n m).
Proof. intros A T P n l m H. revert n. induction H; intros [|n]; cbn; auto. Qed.
Lemma Forall2_skipn : forall A T (P : A -> T -> Prop) n l m, Forall2 P l m -> Forall2 P (skipn n l) (skipn n m).
Proof. intros A T P n l m H. revert n. induction H; intros [|n]; cbn; auto. Qed.

Lemma firstn1_nth : forall (l : list Z) i, (i < List.length l)%nat -> firstn 1 (skipn i l) = [nth i l 0].
Proof. induction l as [|x l IH]; intros i H; cbn in H; [lia|]. destruct i; auto. cbn [skipn nth]. apply IH. lia. Qed.

Lemma list_op_length : forall A (l : list A) o, let n := Z.of_nat (List.length l) in
  in_range n [o] -> Z.of_nat (List.length (list_op o l)) = match o with Rm _ => n - 1 | Dup _ _ => n + 1 end.
Proof.
  intros A l [k|k pos] n H; cbn [in_range list_op] in *.
  - rewrite app_length, firstn_length, skipn_length. unfold n in *. lia.
  - destruct H as (Hk & Hp & _). rewrite !app_length, !firstn_length, !skipn_length. fold n.
    unfold place, n in *. destruct (pos <? 0); lia.
Qed.

(** The invariant along a sequence. *)
Definition sinv (f : nat) (p : pdf) (rid : Z) (ids : list Z) (vs : list (bytes * list prop)) (m : Z) : Prop :=
  exists ts, pinv p rid ts /\ (depth (Node rid ts) <= f)%nat /\ leaves (Node rid ts) = ids /\
    Forall2 (shows p rid) ids vs /\ Forall (cpy (objs p)) ids /\ numbers_left p m /\ NoDup ids /\ m < 2 ^ 63.

Lemma shows_mono : forall p p' rid id v, (forall i o, i <> rid -> version (objs p) i o -> version (objs p') i o) ->
  id <> rid -> shows p rid id v -> shows p' rid id v.
Proof. intros p p' rid id v M Hi (o & ps & w & c & co & V & E & C & R & N & Vc & Q). exists o, ps, w, c, co. auto 10. Qed.

Lemma cpy_mono : forall p p' rid id v, (forall i o, i <> rid -> version (objs p) i o -> version (objs p') i o) ->
  id <> rid -> shows p rid id v -> cpy (objs p) id -> cpy (objs p') id.
Proof.
  intros p p' rid id v M Hi (o & ps & w & c & co & V & E & C & R & N & Vc & Q)
    (o' & ps' & w' & c' & co' & V' & E' & G' & C' & R' & Vc').
  assert (o' = o) by (eapply version_inj; eauto). subst o'.
  unfold entries in *. rewrite E in E'. inversion E'; subst ps'.
  exists o, ps, w, c, co. auto 10.
Qed.

Lemma leaf_ne : forall p rid ts id, pinv p rid ts -> In id (leaves (Node rid ts)) -> id <> rid.
Proof.
  intros p rid ts id PI Hi ->. pose proof (sub_leaf p rid ts rid PI Hi) as HL.
  destruct PI as ((_ & HH) & _). eapply leaf_not_node; eauto.
Qed.

Lemma Forall2_mono_in : forall A T (P Q : A -> T -> Prop) l m, (forall a b, In a l -> P a b -> Q a b) ->
  Forall2 P l m -> Forall2 Q l m.
Proof.
  intros A T P Q l m H F. induction F as [|a b l m Pab F IH]; constructor.
  - apply H; auto. left; auto.
  - apply IH. intros; apply H; auto. right; auto.
Qed.

Lemma Forall2_in_l : forall A T (P : A -> T -> Prop) l m a, Forall2 P l m -> In a l -> exists b, In b m /\ P a b.
Proof.
  intros A T P l m a F. induction F as [|x y l m H F IH]; intros I; [destruct I|].
  destruct I as [->|I]; [exists y; split; [left|]; auto|]. destruct (IH I) as (b & Hb & Pb). exists b. split; [right|]; auto.
Qed.

Lemma edits_ids : forall p p' rid new, edits p p' rid new ->
  forall q', In q' (objs p') -> (exists q, In q (objs p) /\ oid q = oid q') \/ In q' new.
Proof.
  intros p p' rid new (_ & a & r & r' & b & ps & ps' & E & E' & V & V' & _) q' Hq.
  rewrite E' in Hq. apply in_app_or in Hq. destruct Hq as [Hq|Hq]; auto. left.
  apply in_app_or in Hq. rewrite E. destruct Hq as [Hq|[<-|Hq]].
  - exists q'. split; auto. apply in_or_app; auto.
  - exists r. split; [apply in_or_app; right; left; auto|].
    rewrite (version_oid _ _ _ V), (version_oid _ _ _ V'). auto.
  - exists q'. split; auto. apply in_or_app; right; right; auto.
Qed.

Lemma NoDup_sub : forall (l : list Z) i j, (i <= j)%nat -> NoDup l -> NoDup (firstn i l ++ skipn j l).
Proof.
  induction l as [|x l IH]; intros i j H N.
  - rewrite firstn_nil, skipn_nil. constructor.
  - destruct i as [|i].
    + cbn [firstn app]. apply NoDup_rev in N. rewrite <- (firstn_skipn j (x :: l)) in N. rewrite rev_app_distr in N.
      rewrite <- (rev_involutive (skipn j (x :: l))). apply NoDup_rev.
      clear - N. induction (rev (skipn j (x :: l))) as [|y k IHk]; [constructor|].
      inversion N; subst. constructor; [|auto]. intros C. apply H1. apply in_or_app; auto.
    + destruct j as [|j]; [lia|]. cbn [firstn skipn app]. inversion N; subst. constructor.
      * intros C. apply H2. apply in_app_or in C. destruct C as [C|C].
        { rewrite <- (firstn_skipn i l). apply in_or_app; auto. }
        { rewrite <- (firstn_skipn j l). apply in_or_app; auto. }
      * apply IH; auto. lia.
Qed.

Lemma step_rm : forall f p rid ids vs m k, (2 <= f)%nat -> sinv f p rid ids vs m -> in_range (Z.of_nat (List.length ids)) [Rm k] ->
  exists p', removePage f p k = Ok (p', None) /\ sinv f p' rid (list_op (Rm k) ids) (list_op (Rm k) vs) m /\
    page_count p' rid (Z.of_nat (List.length (list_op (Rm k) ids))).
Proof.
  intros f p rid ids vs m k Hf (ts & PI & D & <- & F2 & Fc & NL & ND & Hm) [Hk _].
  destruct (remove_ok p rid ts f k PI D Hk) as (p' & R & PI' & PC & Ed & Vo).
  set (ids := leaves (Node rid ts)) in *. cbn [list_op]. exists p'. split; [auto|split; [|auto]].
  set (ids' := firstn (Z.to_nat (k - 1)) ids ++ skipn (Z.to_nat k) ids) in *.
  assert (M : forall i o, i <> rid -> version (objs p) i o -> version (objs p') i o) by (intros; apply Vo; auto).
  assert (Sub : forall x, In x ids' -> In x ids).
  { intros x Hx. apply in_app_or in Hx. destruct Hx as [Hx|Hx];
      [rewrite <- (firstn_skipn (Z.to_nat (k - 1)) ids)|rewrite <- (firstn_skipn (Z.to_nat k) ids)];
      apply in_or_app; auto. }
  assert (NR : forall x, In x ids -> x <> rid) by (intros x Hx; apply (leaf_ne p rid ts); auto).
  exists (map Leaf ids'). rewrite leaves_leaves. split; [auto|]. split; [pose proof (flat_depth rid ids'); lia|].
  split; [auto|]. split; [|split; [|split; [|split; [|auto]]]].
  - apply (Forall2_mono_in _ _ (shows p rid)).
    + intros x v Hx S. apply (shows_mono p); auto.
    + apply Forall2_app; [apply Forall2_firstn|apply Forall2_skipn]; auto.
  - apply Forall_forall. intros x Hx. apply Sub in Hx. destruct (Forall2_in_l _ _ _ _ _ _ F2 Hx) as (v & _ & S).
    rewrite Forall_forall in Fc. apply (cpy_mono p p' rid x v); auto.
  - intros q Hq. destruct (edits_ids _ _ _ _ Ed q Hq) as [(q0 & H0 & <-)|[]]. auto.
  - apply NoDup_sub; auto. lia.
Qed.

Lemma step_dup : forall f p rid ids vs m k pos, (2 <= f)%nat -> 2 <= m -> sinv f p rid ids vs m ->
  in_range (Z.of_nat (List.length ids)) [Dup k pos] ->
  exists p', duplicatePageAfter f p k pos = Ok (p', None) /\
    (exists ids', sinv f p' rid ids' (list_op (Dup k pos) vs) (m - 2) /\
    page_count p' rid (Z.of_nat (List.length ids'))).
Proof.
  intros f p rid ids vs m k pos Hf H2 (ts & PI & D & <- & F2 & Fc & NL & ND & Hm) (Hk & Hp & _).
  set (ids := leaves (Node rid ts)) in *. set (n := Z.of_nat (List.length ids)) in *.
  set (src := nth (Z.to_nat (k - 1)) ids 0).
  assert (Isrc : In src ids) by (apply nth_In; unfold n in *; lia).
  assert (NR : forall x, In x ids -> x <> rid) by (intros x Hx; apply (leaf_ne p rid ts); auto).
  destruct (Forall2_in_l _ _ _ _ _ _ F2 Isrc) as (vw & _ & S).
  pose proof Fc as Fc0. rewrite Forall_forall in Fc0. specialize (Fc0 src Isrc).
  destruct S as (o & ps & v & c & co & V & E & Cv & Rc & Nc & Vc & Ev).
  assert (G : good ps).
  { destruct Fc0 as (o' & ps' & w' & c' & co' & V' & E' & G' & _).
    assert (o' = o) by (eapply version_inj; eauto). subst o'.
    unfold entries in *. rewrite E in E'. inversion E'; subst ps'. auto. }
  assert (NL2 : numbers_left p 2) by (intros q Hq; specialize (NL q Hq); lia).
  destruct (duplicate_ok p rid ts f k pos PI D Hk Hp NL2 o ps v c co V E G Cv Rc Vc) as (p' & R & PI' & PC & Ed & V1 & V2 & E' & G' & M).
  fold ids in R, PI', PC, Ed, V1, V2, E'. fold n in R, PI', PC. 
  change (Z.to_nat ((if pos <? 0 then n + pos else pos) + 1)) with (place n pos) in PI'.
  set (np := maxID (objs p) + 2) in *. set (nc := maxID (objs p) + 1) in *.
  set (j := place n pos) in *.
  set (ids' := firstn j ids ++ np :: skipn j ids) in *.
  assert (Fresh : forall q, In q (objs p) -> oid q < nc).
  { intros q Hq. pose proof (maxID_ge _ _ Hq). unfold nc. lia. }
  pose proof (maxID_nonneg (objs p)) as M0.
  assert (M1 : maxID (objs p) + m < 2 ^ 63).
  { destruct (maxID_in (objs p)) as [->|(q & Hq & <-)]; [lia|]. apply NL. auto. }
  assert (NRn : np <> rid /\ nc <> rid).
  { destruct PI as (_ & _ & (r & rs & Vr & _) & _). pose proof (Fresh _ (version_in _ _ _ Vr)).
    rewrite (version_oid _ _ _ Vr) in *. unfold np, nc in *. lia. }
  assert (Sn : shows p' rid np vw).
  { eexists _, _, (refText nc), nc, _. split; [exact V2|]. split; [exact E'|].
    split; [apply value_set_same; eapply value_has; eauto|]. split.
    { apply PropsRefs.readObjID_ref. apply PropsFinal.is_int_in. unfold is_int, nc. lia. }
    split; [tauto|]. split; [exact V1|]. rewrite blank_set. cbn [odata]. exact Ev. }
  assert (Len : Z.of_nat (List.length ids') = n + 1).
  { unfold ids', n. rewrite app_length. cbn [List.length].
    pose proof (f_equal (@List.length Z) (firstn_skipn j ids)) as X. rewrite app_length in X. lia. }
  assert (Jl : (j <= List.length ids)%nat).
  { unfold j, place, n in *. destruct (Z.ltb_spec pos 0); lia. }
  assert (Nin : ~ In np ids).
  { intros C. pose proof (sub_leaf p rid ts np PI C) as HL. inversion HL as [? q qs Vq _ _|]; subst.
    pose proof (Fresh _ (version_in _ _ _ Vq)). rewrite (version_oid _ _ _ Vq) in *. unfold np, nc in *. lia. }
  exists p'. split; [exact R|]. exists ids'. split; [|rewrite Len; exact PC].
  exists (map Leaf ids'). rewrite leaves_leaves. split; [auto|]. split; [pose proof (flat_depth rid ids'); lia|].
  split; [auto|]. split; [|split; [|split; [|split]]].
  - cbn [list_op]. pose proof (Forall2_length _ _ _ _ _ F2) as Lv.
    replace (Z.of_nat (List.length vs)) with n by (unfold n; lia). fold j.
    assert (Fm : Forall2 (shows p' rid) ids vs).
    { apply (Forall2_mono_in _ _ (shows p rid)); auto. intros x y Hx S. apply (shows_mono p); auto. }
    assert (F1 : Forall2 (shows p' rid) [np] (firstn 1 (skipn (Z.to_nat (k - 1)) vs))).
    { pose proof (Forall2_firstn _ _ _ 1 _ _ (Forall2_skipn _ _ _ (Z.to_nat (k - 1)) _ _ F2)) as X.
      rewrite firstn1_nth in X by (unfold n in *; lia). fold src in X.
      clear - X Sn Ev E Cv Rc V Vc. destruct (firstn 1 (skipn (Z.to_nat (k - 1)) vs)) as [|y l]; [inversion X|].
      inversion X as [|? ? ? ? Sx Fx]; subst. inversion Fx; subst. constructor; auto.
      destruct Sx as (o2 & ps2 & v2 & c2 & co2 & W1 & W2 & W3 & W4 & W5 & W6 & W7).
      assert (o2 = o) by (eapply version_inj; eauto). subst o2. unfold entries in *. rewrite E in W2. inversion W2; subst ps2.
      apply value_get in W3. apply value_get in Cv. rewrite Cv in W3. inversion W3; subst v2.
      rewrite Rc in W4. inversion W4; subst c2. assert (co2 = co) by (eapply version_inj; eauto). subst co2.
      rewrite W7. exact Sn. }
    change (np :: skipn j ids) with ([np] ++ skipn j ids) in *.
    apply Forall2_app; [apply Forall2_firstn; auto|]. apply Forall2_app; [auto|apply Forall2_skipn; auto].
  - apply Forall_forall. intros x Hx. apply in_app_or in Hx.
    assert (K : In x ids \/ x = np).
    { destruct Hx as [Hx|[<-|Hx]]; auto; left; rewrite <- (firstn_skipn j ids); apply in_or_app; auto. }
    destruct K as [K| ->].
    + destruct (Forall2_in_l _ _ _ _ _ _ F2 K) as (y & _ & Sy). rewrite Forall_forall in Fc.
      apply (cpy_mono p p' rid x y); auto.
    + destruct Sn as (o2 & ps2 & v2 & c2 & co2 & W1 & W2 & W3 & W4 & W5 & W6 & W7).
      assert (o2 = mkObj np (setProperties (setPropByKey (B"Contents") (refText nc) ps))) by (eapply version_inj; eauto).
      subst o2. exists (mkObj np (setProperties (setPropByKey (B"Contents") (refText nc) ps))), ps2, v2, c2, co2.
      split; [auto|split; [auto|split; [|auto]]]. unfold entries in *. rewrite E' in W2. inversion W2; subst. auto.
  - intros q Hq. destruct (edits_ids _ _ _ _ Ed q Hq) as [(q0 & H0 & <-)|[<-|[<-|[]]]].
    + specialize (NL q0 H0). lia.
    + cbn [oid]. unfold nc. lia.
    + cbn [oid]. unfold np. lia.
  - unfold ids'. apply NoDup_Add with (a := np) (l := ids); [|split; auto].
    rewrite <- (firstn_skipn j ids) at 1. apply Add_app.
  - lia.
Qed.

Theorem sequence : forall os f p rid ids vs m, (2 <= f)%nat -> 2 * Z.of_nat (List.length os) <= m ->
  sinv f p rid ids vs m -> in_range (Z.of_nat (List.length ids)) os ->
  (exists n, page_count p rid n /\ n = Z.of_nat (List.length ids)) \/ os <> [] ->
  exists p' ids' m', calls f p os p' /\ sinv f p' rid ids' (list_ops os vs) m' /\
    page_count p' rid (Z.of_nat (List.length ids')).
Proof.
  induction os as [|o os IH]; intros f p rid ids vs m Hf Hm SI IR HC.
  - exists p, ids, m. cbn [calls list_ops fold_left]. destruct HC as [(n & C & ->)|C]; [auto|congruence].
  - cbn [List.length] in Hm. cbn [calls list_ops fold_left].
    assert (Lv : List.length vs = List.length ids).
    { destruct SI as (ts & _ & _ & _ & F2 & _). symmetry. apply (Forall2_length _ _ _ _ _ F2). }
    destruct o as [k|k pos].
    + destruct IR as [Hk IR].
      destruct (step_rm f p rid ids vs m k Hf SI (conj Hk I)) as (p1 & C1 & S1 & PC1).
      destruct (IH f p1 rid _ _ m Hf ltac:(lia) S1) as (p' & ids' & m' & C' & S' & PC').
      * rewrite (list_op_length _ ids (Rm k)) by (cbn; auto). exact IR.
      * left. eauto.
      * exists p', ids', m'. split; [exists p1; auto|]. auto.
    + destruct IR as (Hk & Hp & IR).
      destruct (step_dup f p rid ids vs m k pos Hf ltac:(lia) SI (conj Hk (conj Hp I))) as (p1 & C1 & ids1 & S1 & PC1).
      assert (L1 : Z.of_nat (List.length ids1) = Z.of_nat (List.length ids) + 1).
      { destruct S1 as (ts & _ & _ & _ & F2 & _). rewrite (Forall2_length _ _ _ _ _ F2).
        rewrite (list_op_length _ vs (Dup k pos)) by (rewrite Lv; cbn; auto). lia. }
      destruct (IH f p1 rid _ _ (m - 2) Hf ltac:(lia) S1) as (p' & ids' & m' & C' & S' & PC').
      * rewrite L1. exact IR.
      * left. eauto.
      * exists p', ids', m'. split; [exists p1; auto|]. auto.
Qed.

Theorem page_ops : forall os f p rid ts vs, (depth (Node rid ts) <= f)%nat ->
  let ids := leaves (Node rid ts) in
  editable p rid ts -> NoDup ids -> Forall2 (shows p rid) ids vs -> Forall (copyable (objs p)) ids ->
  numbers_left p (2 * Z.of_nat (List.length os)) -> 2 * Z.of_nat (List.length os) < 2 ^ 63 ->
  os <> [] -> in_range (Z.of_nat (List.length ids)) os ->
  exists p' ids', calls f p os p' /\ page_list p' ids' /\ NoDup ids' /\
    Forall2 (shows p' rid) ids' (list_ops os vs) /\
    getNumberOfPage f p' = Ok (Z.of_nat (List.length (list_ops os vs))) /\
    page_count p' rid (Z.of_nat (List.length (list_ops os vs))).
Proof.
  intros os f p rid ts vs D ids H ND F2 Fc NL Hm Ho IR.
  assert (Hf : (2 <= f)%nat).
  { destruct ts as [|t ts].
    - destruct os as [|[k|k pos] os]; [congruence| |]; cbn in IR; lia.
    - cbn [depth fold_right] in D. destruct t; cbn [depth] in D; lia. }
  assert (SI : sinv f p rid ids vs (2 * Z.of_nat (List.length os))).
  { exists ts. apply editable_pinv in H. split; [auto|split; [auto|split; [auto|split; [auto|split; [|split; [auto|split; auto]]]]]].
    eapply Forall_impl; [|exact Fc]. apply copyable_cpy. }
  destruct (sequence os f p rid ids vs _ Hf (Z.le_refl _) SI IR (or_intror Ho)) as (p' & ids' & m' & C & S & PC).
  exists p', ids'. destruct S as (ts' & PI & D' & E & F2' & _ & _ & ND' & _).
  rewrite <- (Forall2_length _ _ _ _ _ F2'). split; [auto|]. split.
  { rewrite <- E. apply pinv_page_list. auto. }
  split; [auto|]. split; [auto|]. split; [|auto].
  unfold getNumberOfPage. rewrite (pinv_list p' rid ts') by auto. rewrite E. reflexivity.
Qed.

(** ** Out of range *)
Theorem remove_too_big : forall p t f k, page_tree p t -> (depth t <= f)%nat ->
  Z.of_nat (List.length (leaves t)) < k ->
  removePage f p k = Ok (p, Some ENoPageRemove) /\ removeOtherPages f p k = Ok (p, Some ENoPageKeep) /\
  forall pos, duplicatePageAfter f p k pos = Ok (p, Some ENoPageCopy).
Proof.
  intros p t f k H D Hk. unfold removePage, removeOtherPages, duplicatePageAfter.
  rewrite (getPageObjIDs_leaves p t) by auto. cbn [bind].
  replace ((0 <? k) && (Z.of_nat (List.length (leaves t)) <? k)) with true by lia. auto.
Qed.

Theorem remove_panics : forall p t f k, page_tree p t -> (depth t <= f)%nat -> k <= 0 ->
  removePage f p k = Panic /\ (forall pos, duplicatePageAfter f p k pos = Panic) /\
  (k < 0 -> removeOtherPages f p k = Panic).
Proof.
  intros p t f k H D Hk. unfold removePage, removeOtherPages, duplicatePageAfter.
  rewrite (getPageObjIDs_leaves p t) by auto. cbn [bind].
  replace ((0 <? k) && (Z.of_nat (List.length (leaves t)) <? k)) with false by lia.
  split; [|split].
  - unfold copy_within, from. replace ((0 <=? k - 1) && _) with false by lia. reflexivity.
  - intros pos. unfold at_. replace (k - 1 <? 0) with true by lia. reflexivity.
  - intros Hk'. unfold at_. replace (k <? 0) with true by lia. reflexivity.
Qed.

Theorem remove_others_last_panics : forall p t f, page_tree p t -> (depth t <= f)%nat ->
  removeOtherPages f p (Z.of_nat (List.length (leaves t))) = Panic.
Proof.
  intros p t f H D. unfold removeOtherPages. rewrite (getPageObjIDs_leaves p t) by auto. cbn [bind].
  set (n := List.length (leaves t)). replace ((0 <? Z.of_nat n) && (Z.of_nat n <? Z.of_nat n)) with false by lia.
  unfold at_. replace (Z.of_nat n <? 0) with false by lia. rewrite Nat2Z.id.
  rewrite (proj2 (nth_error_None (leaves t) n)) by (subst n; lia). reflexivity.
Qed.

(** A page without Contents, or with an unreadable reference there, is not
    copied and nothing changes. *)
Theorem duplicate_no_contents : forall p t f k pos, page_tree p t -> (depth t <= f)%nat ->
  1 <= k <= Z.of_nat (List.length (leaves t)) ->
  forall o ps, version (objs p) (nth (Z.to_nat (k - 1)) (leaves t) 0) o -> entries o ps ->
  (~ has_key ps (B"Contents") -> duplicatePageAfter f p k pos = Ok (p, Some ENoContents)) /\
  (forall v e, value ps (B"Contents") v -> readObjID v = Err e -> duplicatePageAfter f p k pos = Ok (p, Some e)).
Proof.
  intros p t f k pos H D Hk o ps V E. unfold duplicatePageAfter. rewrite (getPageObjIDs_leaves p t) by auto. cbn [bind].
  replace ((0 <? k) && (Z.of_nat (List.length (leaves t)) <? k)) with false by lia.
  unfold at_. replace (k - 1 <? 0) with false by lia.
  rewrite (nth_error_nth' (leaves t) 0) by lia. cbn [bind].
  unfold pageContents. rewrite (version_get _ _ _ V). cbn [bind]. unfold entries in E. rewrite E. cbn [bind]. split.
  - intros N. apply get_none in N. rewrite N. reflexivity.
  - intros v e Cv R. rewrite (value_get _ _ _ Cv). cbn [pval]. rewrite R. reflexivity.
Qed.

Theorem duplicate_bad_pos : forall p t f k pos, page_tree p t -> (depth t <= f)%nat ->
  let n := Z.of_nat (List.length (leaves t)) in
  1 <= k <= n -> copyable (objs p) (nth (Z.to_nat (k - 1)) (leaves t) 0) ->
  n <= pos \/ pos < - n -> duplicatePageAfter f p k pos = Panic.
Proof.
  intros p t f k pos H D n Hk (o & ps & v & c & co & V & E & _ & Cv & Rc & Vc) Hp.
  unfold duplicatePageAfter. rewrite (getPageObjIDs_leaves p t) by auto. cbn [bind]. fold n.
  replace ((0 <? k) && (n <? k)) with false by lia.
  unfold at_. replace (k - 1 <? 0) with false by lia.
  rewrite (nth_error_nth' (leaves t) 0) by (unfold n in *; lia). cbn [bind].
  unfold pageContents. rewrite (version_get _ _ _ V). cbn [bind]. unfold entries in E. rewrite E. cbn [bind].
  rewrite (value_get _ _ _ Cv). cbn [pval]. rewrite Rc. cbn [bind]. rewrite (version_get _ _ _ Vc). cbn [bind].
  unfold putNewObject. set (q := if pos <? 0 then n + pos else pos).
  assert (Hq : n <= q \/ q < 0) by (subst q; destruct (Z.ltb_spec pos 0); lia).
  assert (Ll : Z.of_nat (List.length (leaves t ++ [0])) = n + 1) by (rewrite app_length; cbn [List.length]; unfold n; lia).
  unfold copy_within, from. rewrite Ll.
  destruct ((0 <=? q + 1) && (q + 1 <=? n + 1)) eqn:B1; [|reflexivity]. cbn [bind].
  destruct ((0 <=? q) && (q <=? n + 1)) eqn:B2; [|reflexivity]. cbn [bind].
  assert (q = n) by lia. unfold set_at.
  match goal with |- context [Z.of_nat (List.length ?x)] => assert (Lx : (List.length x <= List.length (leaves t ++ [0%Z]))%nat) end.
  { rewrite !app_length, !firstn_length, !skipn_length. cbn [List.length]. lia. }
  match goal with |- context [if ?c then _ else Panic] => replace c with false by lia end. reflexivity.
Qed.

(** ** Checking concrete documents *)
Lemma lone_free_elim : forall s, PropsNorm.lone_free s = true -> no_lone_angle s.
Proof.
  intros s H a w1 x w2 b E W1 W2. subst s. induction a as [|y a IH].
  - cbn [app PropsNorm.lone_free PropsNorm.lone] in H. apply andb_true_iff in H. destruct H as [H _].
    assert (is_ws4 w1 = true) by (unfold white, is_ws4 in *; lia).
    assert (is_ws4 w2 = true) by (unfold white, is_ws4 in *; lia).
    rewrite H0, H1, andb_true_r in H. cbn [andb] in H. lia.
  - apply IH. cbn [app PropsNorm.lone_free] in H. apply andb_true_iff in H. tauto.
Qed.

Lemma rewritable_check : forall s, contains (B"stream") s = false -> forallb (fun c => (0 <=? c) && (c <? 128)) s = true ->
  PropsNorm.lone_free s = true -> rewritable s.
Proof.
  intros s C A L. exists s. split; [|split].
  - left. split; auto. intros a b E. apply (proj1 (contains_false _ _) C (List.length a)). exists a, b. auto.
  - apply Forall_forall. intros c Hc. rewrite forallb_forall in A. specialize (A c Hc). lia.
  - apply lone_free_elim; auto.
Qed.

Lemma entries_key : forall o k ps q, entries o ps -> getPropByKey k ps = Some q -> has_key ps k.
Proof. intros o k ps q _ H. apply get_value in H. destruct H. eapply value_has; eauto. Qed.
