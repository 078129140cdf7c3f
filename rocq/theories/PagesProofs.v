From Coq Require Import String List ZArith Lia Bool.
From Verif Require Import Base BaseProofs Output Props PropsFlat PropsWrite PropsRead PropsNorm PropsStable PropsRefs PropsSpec PropsFinal PdfData PagesSpec.
Open Scope Z_scope.
Open Scope list_scope.

(** ** Keys *)
Lemma value_get : forall ps k v, value ps k v -> getPropByKey k ps = Some (mkProp k v).
Proof.
  intros ps k v (a & b & -> & H). induction a as [|q a IH]; cbn [app getPropByKey].
  - cbn [pkey]. rewrite beqb_refl. reflexivity.
  - destruct (beqb (pkey q) k) eqn:E.
    + apply beqb_eq in E. exfalso. apply (H q); [left; auto|auto].
    + apply IH. intros; apply H; right; auto.
Qed.

Lemma get_value : forall ps k q, getPropByKey k ps = Some q -> q = mkProp k (pval q) /\ value ps k (pval q).
Proof.
  induction ps as [|p ps IH]; intros k q H; cbn [getPropByKey] in H; [discriminate|].
  destruct (beqb (pkey p) k) eqn:E.
  - inversion H; subst p. clear H. apply beqb_eq in E. destruct q as [k' v]. cbn [pkey pval] in *. subst k'.
    split; [reflexivity|]. exists [], ps. split; [reflexivity|]. intros ? [].
  - destruct (IH k q H) as (E1 & a & b & -> & F). split; auto. exists (p :: a), b. split; auto.
    intros x [<-|Hx]; auto. intros C. rewrite C, beqb_refl in E. discriminate.
Qed.

Lemma value_has : forall ps k v, value ps k v -> has_key ps k.
Proof. intros ps k v (a & b & -> & _). exists v. apply in_or_app. right. left. auto. Qed.

Lemma get_none : forall ps k, getPropByKey k ps = None <-> ~ has_key ps k.
Proof.
  intros ps k. split.
  - intros H (v & Hv). induction ps as [|p ps IH]; [destruct Hv|]. cbn [getPropByKey] in H.
    destruct (beqb (pkey p) k) eqn:E; [discriminate|]. destruct Hv as [->|Hv]; auto.
    cbn in E. rewrite beqb_refl in E. discriminate.
  - intros H. destruct (getPropByKey k ps) as [q|] eqn:E; auto. apply get_value in E. destruct E as [_ E].
    exfalso. apply H. eapply value_has; eauto.
Qed.

Lemma has_value : forall ps k, has_key ps k -> exists v, value ps k v.
Proof.
  intros ps k H. destruct (getPropByKey k ps) as [q|] eqn:E.
  - apply get_value in E. destruct E. eauto.
  - apply get_none in E. contradiction.
Qed.

Lemma get_dec : forall ps k, has_key ps k \/ ~ has_key ps k.
Proof.
  intros ps k. destruct (getPropByKey k ps) as [q|] eqn:E.
  - left. apply get_value in E. destruct E. eapply value_has; eauto.
  - right. apply get_none; auto.
Qed.

Lemma annots_spec : forall o, has_annots o = true <-> annotated o.
Proof.
  intros o. unfold has_annots, annotated, entries. split.
  - destruct (readProperties (odata o)) as [ps| | |]; try discriminate.
    destruct (getPropByKey (B"Annots") ps) eqn:E; [|discriminate]. intros _. exists ps. split; auto.
    apply get_value in E. destruct E. eapply value_has; eauto.
  - intros (ps & -> & H). destruct (getPropByKey (B"Annots") ps) eqn:E; auto. apply get_none in E. contradiction.
Qed.

Lemma annots_false : forall o, has_annots o = false <-> ~ annotated o.
Proof.
  intros o. rewrite <- annots_spec. destruct (has_annots o); split; intros; try discriminate; auto; try congruence.
Qed.

(** ** The version of an object *)
Fixpoint firstI (id : Z) (os : list obj) : option nat :=
  match os with
  | [] => None
  | o :: os' => if oid o =? id then Some 0%nat else option_map S (firstI id os')
  end.
Fixpoint lastA (id : Z) (os : list obj) : option nat :=
  match os with
  | [] => None
  | o :: os' => match lastA id os' with
                | Some j => Some (S j)
                | None => if (oid o =? id) && has_annots o then Some 0%nat else None
                end
  end.

Definition pickf (full : list obj) (r : nat) (i : nat) : nat :=
  match nth_error full i with Some o => if has_annots o then i else r | None => r end.

Lemma indices_fold : forall id os pre r,
  fold_left (pickf (pre ++ os)) (indices id (List.length pre) os) r =
  match lastA id os with Some j => (List.length pre + j)%nat | None => r end.
Proof.
  intros id. induction os as [|o os IH]; intros pre r; [reflexivity|].
  cbn [indices lastA].
  assert (E : pre ++ o :: os = (pre ++ [o]) ++ os) by (rewrite <- app_assoc; reflexivity).
  assert (L : S (List.length pre) = List.length (pre ++ [o])) by (rewrite app_length; cbn; lia).
  destruct (oid o =? id) eqn:Eo.
  - cbn [fold_left]. rewrite E, L, IH. rewrite app_length. cbn [List.length].
    destruct (lastA id os); [lia|]. cbn [andb]. unfold pickf.
    rewrite <- E. rewrite nth_error_app2, Nat.sub_diag by lia. cbn [nth_error].
    destruct (has_annots o); lia.
  - rewrite E, L, IH. rewrite app_length. cbn [List.length andb]. destruct (lastA id os); lia.
Qed.

Lemma indices_first : forall id os n, match indices id n os with
  | [] => firstI id os = None
  | i :: _ => exists j, firstI id os = Some j /\ i = (n + j)%nat end.
Proof.
  intros id. induction os as [|o os IH]; intros n; cbn [indices firstI]; [reflexivity|].
  destruct (oid o =? id).
  - exists 0%nat. split; auto.
  - specialize (IH (S n)). destruct (indices id (S n) os).
    + rewrite IH. reflexivity.
    + destruct IH as (j & -> & ->). exists (S j). split; auto. lia.
Qed.

Lemma getIdx_eq : forall id os, getIdx id os = match lastA id os with Some j => Some j | None => firstI id os end.
Proof.
  intros id os. unfold getIdx.
  pose proof (indices_first id os 0) as F. pose proof (fun r => indices_fold id os [] r) as G.
  cbn [app List.length] in G. unfold pickf in G.
  destruct (indices id 0 os) as [|i is] eqn:E.
  - rewrite F. specialize (G 0%nat). pose proof (G) as G1. specialize (indices_fold id os [] 1%nat). 
    cbn [app List.length]. rewrite E. cbn [fold_left] in *. destruct (lastA id os); auto. intros. lia.
  - destruct F as (j & F & ->). rewrite F. cbn [Nat.add] in *. specialize (G j).
    destruct is as [|i2 is].
    + cbn [fold_left] in G. destruct (lastA id os); auto. f_equal.
      destruct (nth_error os j) as [o|]; [destruct (has_annots o)|]; lia.
    + rewrite G. destruct (lastA id os); auto.
Qed.

Lemma lastA_some : forall id os j, lastA id os = Some j <->
  exists a o b, os = a ++ o :: b /\ List.length a = j /\ oid o = id /\ has_annots o = true /\
    forall q, In q b -> oid q = id -> has_annots q = false.
Proof.
  intros id. induction os as [|o os IH]; intros j; cbn [lastA].
  - split; [discriminate|]. intros (a & o & b & E & _). destruct a; discriminate.
  - assert (N : lastA id os = None <-> forall q, In q os -> oid q = id -> has_annots q = false).
    { clear IH. induction os as [|p os IH]; cbn [lastA]; [split; auto; intros _ q []|].
      destruct (lastA id os) as [x|] eqn:E.
      - split; [discriminate|]. intros H. assert (Some x = None); [|discriminate].
        apply IH. intros; apply H; auto. right; auto.
      - destruct ((oid p =? id) && has_annots p) eqn:P.
        + split; [discriminate|]. intros H. apply andb_true_iff in P. destruct P as [P1 P2].
          rewrite H in P2; [discriminate|left; auto|lia].
        + split; auto. intros _ q [<-|Hq] Hi.
          * apply andb_false_iff in P. destruct P; auto. lia.
          * apply IH; auto. }
    destruct (lastA id os) as [x|] eqn:E.
    + split.
      * intros H. inversion H; subst. destruct (proj1 (IH x) eq_refl) as (a & p & b & -> & L & R).
        exists (o :: a), p, b. repeat split; try tauto. cbn. lia.
      * intros (a & p & b & E1 & L & I & A & F). destruct a as [|y a].
        { cbn in E1. inversion E1; subst. exfalso. assert (Some x = None); [|discriminate]. apply N. auto. }
        { cbn in E1. inversion E1; subst. cbn. f_equal. f_equal.
          assert (Some x = Some (List.length a)); [|congruence]. apply IH. exists a, p, b. auto. }
    + destruct ((oid o =? id) && has_annots o) eqn:P.
      * apply andb_true_iff in P. destruct P as [P1 P2]. split.
        { intros H. inversion H; subst. exists [], o, os. repeat split; auto. lia. apply N; auto. }
        { intros (a & p & b & E1 & L & I & A & F). destruct a as [|y a]; [cbn in *; subst; auto|].
          cbn in E1. inversion E1; subst. exfalso. assert (has_annots p = false); [|congruence].
          apply (proj1 N eq_refl); auto. apply in_or_app; right; left; auto. }
      * split; [discriminate|]. intros (a & p & b & E1 & L & I & A & F). exfalso.
        destruct a as [|y a]; cbn in E1; inversion E1; subst.
        { rewrite A in P. lia. }
        { assert (has_annots p = false); [|congruence].
          apply (proj1 N eq_refl); auto. apply in_or_app; right; left; auto. }
Qed.

Lemma lastA_none : forall id os, lastA id os = None <-> forall q, In q os -> oid q = id -> has_annots q = false.
Proof.
  intros id os. split.
  - intros H q Hq Hi. destruct (has_annots q) eqn:A; auto. exfalso.
    revert H. induction os as [|o os IH]; [destruct Hq|]. cbn [lastA].
    destruct (lastA id os) eqn:E; [discriminate|]. destruct Hq as [<-|Hq]; [|auto].
    rewrite A, Hi, Z.eqb_refl. discriminate.
  - intros H. destruct (lastA id os) as [j|] eqn:E; auto. apply lastA_some in E.
    destruct E as (a & o & b & -> & _ & I & A & _). rewrite H in A; [discriminate| |auto].
    apply in_or_app; right; left; auto.
Qed.

Lemma firstI_some : forall id os j, firstI id os = Some j <->
  exists a o b, os = a ++ o :: b /\ List.length a = j /\ oid o = id /\ forall q, In q a -> oid q <> id.
Proof.
  intros id. induction os as [|o os IH]; intros j; cbn [firstI].
  - split; [discriminate|]. intros (a & o & b & E & _). destruct a; discriminate.
  - destruct (Z.eqb_spec (oid o) id) as [Eo|Eo].
    + split.
      * intros H. inversion H; subst. exists [], o, os. repeat split; auto.
      * intros (a & p & b & E1 & L & I & F). destruct a as [|y a]; [cbn in *; subst; auto|].
        cbn in E1. inversion E1; subst. exfalso. apply (F y); [left|]; auto.
    + split.
      * intros H. destruct (firstI id os) as [x|] eqn:E; [|discriminate]. cbn in H. inversion H; subst.
        destruct (proj1 (IH x) eq_refl) as (a & p & b & -> & L & I & F).
        exists (o :: a), p, b. repeat split; auto. cbn; lia. intros q [<-|Hq]; auto.
      * intros (a & p & b & E1 & L & I & F). destruct a as [|y a]; cbn in E1; inversion E1; subst; [congruence|].
        rewrite (proj2 (IH (List.length a))); auto. exists a, p, b. repeat split; auto. intros; apply F; right; auto.
Qed.

(** A version with its place in the table. *)
Lemma version_idx : forall os id o, version os id o <->
  exists i, getIdx id os = Some i /\ nth_error os i = Some o /\ oid o = id.
Proof.
  intros os id o. split.
  - intros (a & b & E & I & H). exists (List.length a). split; [|split; auto].
    2:{ subst os. rewrite nth_error_app2, Nat.sub_diag by lia. reflexivity. }
    rewrite getIdx_eq. destruct H as [[A F]|[N F]].
    + rewrite (proj2 (lastA_some id os (List.length a))); auto.
      exists a, o, b. repeat split; auto; [now apply annots_spec|].
      intros q Hq Hi. apply annots_false; auto.
    + rewrite (proj2 (lastA_none id os)).
      2:{ intros q Hq Hi. apply annots_false; auto. }
      apply firstI_some. exists a, o, b. auto.
  - intros (i & G & N & I). rewrite getIdx_eq in G. destruct (lastA id os) as [j|] eqn:L.
    + inversion G; subst. apply lastA_some in L. destruct L as (a & p & b & E & Lj & _ & A & F).
      subst os i. rewrite nth_error_app2, Nat.sub_diag in N by lia. cbn in N. inversion N; subst.
      exists a, b. split; [auto|split; [auto|left]]. split; [now apply annots_spec|].
      intros q Hq Hi. apply annots_false; auto.
    + rewrite lastA_none in L. apply firstI_some in G. destruct G as (a & p & b & E & Lj & _ & F).
      subst os i. rewrite nth_error_app2, Nat.sub_diag in N by lia. cbn in N. inversion N; subst.
      exists a, b. split; [auto|split; [auto|right]]. split; auto.
      intros q Hq Hi. apply annots_false; auto.
Qed.

Lemma version_get : forall os id o, version os id o -> getObj id os = Ok o.
Proof. intros os id o H. apply version_idx in H. destruct H as (i & G & N & _). unfold getObj. rewrite G, N. reflexivity. Qed.

Lemma getIdx_oid : forall os id i, getIdx id os = Some i -> exists o, nth_error os i = Some o /\ oid o = id.
Proof.
  intros os id i G. rewrite getIdx_eq in G. destruct (lastA id os) as [j|] eqn:L.
  - inversion G; subst. apply lastA_some in L. destruct L as (a & p & b & E & Lj & I & _). exists p. split; auto.
    subst. rewrite nth_error_app2, Nat.sub_diag by lia. reflexivity.
  - apply firstI_some in G. destruct G as (a & p & b & E & Lj & I & F). exists p. split; auto.
    subst. rewrite nth_error_app2, Nat.sub_diag by lia. reflexivity.
Qed.

Lemma get_version : forall os id o, getObj id os = Ok o -> version os id o.
Proof.
  intros os id o H. unfold getObj in H. destruct (getIdx id os) as [i|] eqn:G; [|discriminate].
  destruct (nth_error os i) as [p|] eqn:N; [|discriminate]. inversion H; subst.
  apply version_idx. exists i. destruct (getIdx_oid _ _ _ G) as (q & N' & I). split; [auto|split; auto]. congruence.
Qed.

Lemma version_inj : forall os id o o', version os id o -> version os id o' -> o = o'.
Proof. intros os id o o' H H'. apply version_get in H. apply version_get in H'. congruence. Qed.

Lemma version_oid : forall os id o, version os id o -> oid o = id.
Proof. intros os id o (a & b & _ & H & _). auto. Qed.

Lemma version_in : forall os id o, version os id o -> In o os.
Proof. intros os id o (a & b & -> & _). apply in_or_app. right. left. auto. Qed.

(** Replacing one object by another with the same number and as much
    annotation moves nothing. *)
Lemma getIdx_replace : forall a r r' b id, oid r' = oid r -> has_annots r' = has_annots r ->
  getIdx id (a ++ r' :: b) = getIdx id (a ++ r :: b).
Proof.
  intros a r r' b id E1 E2. rewrite !getIdx_eq.
  assert (L : lastA id (a ++ r' :: b) = lastA id (a ++ r :: b)).
  { induction a as [|x a IH]; cbn [app lastA]; [now rewrite E1, E2|now rewrite IH]. }
  assert (F : firstI id (a ++ r' :: b) = firstI id (a ++ r :: b)).
  { clear L. induction a as [|x a IH]; cbn [app firstI]; [now rewrite E1|now rewrite IH]. }
  rewrite L, F. reflexivity.
Qed.

Lemma set_nth_split : forall A (f : A -> A) a x b, set_nth (List.length a) f (a ++ x :: b) = a ++ f x :: b.
Proof. induction a as [|y a IH]; intros; cbn; [auto|now rewrite IH]. Qed.

Lemma version_replace_other : forall a r r' b id o, oid r' = oid r -> has_annots r' = has_annots r -> id <> oid r ->
  (version (a ++ r' :: b) id o <-> version (a ++ r :: b) id o).
Proof.
  intros a r r' b id o E1 E2 Hid. rewrite !version_idx.
  split; intros (i & G & N & I); exists i;
    [rewrite (getIdx_replace a r r' b) in G by auto|rewrite (getIdx_replace a r r' b) by auto];
    (split; [auto|split; [|auto]]);
    (destruct (Nat.eq_dec i (List.length a)) as [->|Hi];
      [rewrite nth_error_app2, Nat.sub_diag in N by lia; cbn in N; inversion N; subst; congruence|]);
    (destruct (Nat.lt_ge_cases i (List.length a));
      [rewrite nth_error_app1 in * by auto; auto|]);
    rewrite nth_error_app2 in * by lia;
    (destruct (i - List.length a)%nat eqn:D; [lia|]); cbn [nth_error] in *; auto.
Qed.

Lemma version_replace : forall a r r' b, oid r' = oid r -> has_annots r' = has_annots r ->
  getIdx (oid r) (a ++ r :: b) = Some (List.length a) -> version (a ++ r' :: b) (oid r) r'.
Proof.
  intros a r r' b E1 E2 G. apply version_idx. exists (List.length a).
  rewrite (getIdx_replace a r r' b) by auto. split; [auto|split; auto].
  rewrite nth_error_app2, Nat.sub_diag by lia. reflexivity.
Qed.

(** Adding an object with a new number. *)
Lemma getIdx_snoc_other : forall os o id, oid o <> id -> getIdx id (os ++ [o]) = getIdx id os.
Proof.
  intros os o id H. rewrite !getIdx_eq.
  assert (L : lastA id (os ++ [o]) = lastA id os).
  { induction os as [|x os IH]; cbn [app lastA]; [|now rewrite IH].
    destruct (Z.eqb_spec (oid o) id); [contradiction|reflexivity]. }
  assert (F : firstI id (os ++ [o]) = firstI id os).
  { clear L. induction os as [|x os IH]; cbn [app firstI]; [|now rewrite IH].
    destruct (Z.eqb_spec (oid o) id); [contradiction|reflexivity]. }
  now rewrite L, F.
Qed.

Lemma version_snoc_other : forall os o id q, oid o <> id -> (version (os ++ [o]) id q <-> version os id q).
Proof.
  intros os o id q H. rewrite !version_idx. split; intros (i & G & N & I); exists i.
  - rewrite getIdx_snoc_other in G by auto. split; [auto|split; auto].
    destruct (getIdx_oid _ _ _ G) as (q' & N' & _). rewrite nth_error_app1 in N; auto.
    apply nth_error_Some. congruence.
  - rewrite getIdx_snoc_other by auto. split; [auto|split; auto]. rewrite nth_error_app1; auto.
    apply nth_error_Some. congruence.
Qed.

Lemma version_snoc_new : forall os o, (forall q, In q os -> oid q <> oid o) -> version (os ++ [o]) (oid o) o.
Proof.
  intros os o H. exists os, []. split; [auto|split; [auto|]].
  destruct (has_annots o) eqn:A.
  - left. split; [now apply annots_spec|]. intros q [].
  - right. split; auto. intros q Hq Hi. apply annots_false. apply in_app_or in Hq. destruct Hq as [Hq|[<-|[]]]; auto.
    exfalso. eapply H; eauto.
Qed.

Lemma maxID_ge : forall os o, In o os -> oid o <= maxID os.
Proof.
  assert (M : forall os m, m <= fold_left (fun m o => if m <? oid o then oid o else m) os m).
  { induction os as [|x os IH]; intros m; cbn [fold_left]; [lia|].
    specialize (IH (if m <? oid x then oid x else m)). destruct (Z.ltb_spec m (oid x)); lia. }
  unfold maxID. generalize 0. intros m os o. revert m. induction os as [|x os IH]; intros m H; [destruct H|].
  cbn [fold_left]. destruct H as [->|H]; [|auto].
  eapply Z.le_trans; [|apply M]. destruct (Z.ltb_spec m (oid o)); lia.
Qed.

Lemma maxID_in : forall os, maxID os = 0 \/ exists o, In o os /\ oid o = maxID os.
Proof.
  unfold maxID. intros os. generalize 0. induction os as [|x os IH]; intros m; cbn [fold_left]; auto.
  destruct (IH (if m <? oid x then oid x else m)) as [E|(o & Ho & E)].
  - destruct (m <? oid x); auto. right. exists x. split; [left|]; auto.
  - right. exists o. split; [right|]; auto.
Qed.

Lemma maxID_nonneg : forall os, 0 <= maxID os.
Proof.
  unfold maxID. intros os. assert (G : forall m, m <= fold_left (fun m o => if m <? oid o then oid o else m) os m).
  { induction os as [|x os IH]; intros m; cbn [fold_left]; [lia|].
    specialize (IH (if m <? oid x then oid x else m)). destruct (Z.ltb_spec m (oid x)); lia. }
  apply G.
Qed.

(** ** The traversal *)
Definition visits (f : nat) (os : list obj) : list Z -> res (list Z) :=
  fix go (l : list Z) : res (list Z) :=
    match l with
    | [] => Ok []
    | k :: l' => do a <- visit f os k; do b <- go l'; Ok (a ++ b)
    end.

Lemma page_no_kids : forall ps A (x : prop -> A) (y : A),
  page_entries ps ->
  match getPropByKey (B"Pages") ps, getPropByKey (B"Kids") ps with
  | Some _, Some k => x k | _, _ => y end = y.
Proof.
  intros ps A x y [_ H].
  destruct (getPropByKey (B"Pages") ps) as [q|] eqn:E1; auto.
  destruct (getPropByKey (B"Kids") ps) as [q'|] eqn:E2; auto.
  exfalso. apply H. apply get_value in E1, E2. split; eapply value_has; [apply E1|apply E2].
Qed.

Lemma has_get : forall ps k, has_key ps k -> exists q, getPropByKey k ps = Some q.
Proof. intros ps k H. destruct (getPropByKey k ps) eqn:E; eauto. apply get_none in E. contradiction. Qed.

Lemma depth_le : forall ts t, In t ts -> (depth t <= fold_right (fun t m => Nat.max (depth t) m) 0 ts)%nat.
Proof.
  induction ts as [|x ts IH]; intros t H; [destruct H|]. cbn [fold_right].
  destruct H as [->|H]; [lia|]. apply IH in H. lia.
Qed.

Lemma visit_leaves : forall f os t, holds os t -> (depth t <= f)%nat -> visit f os (tid t) = Ok (leaves t).
Proof.
  induction f as [|f IH]; intros os t H D.
  - destruct t; cbn in D; lia.
  - cbn [visit]. inversion H as [id o ps V E P|id o ps v ts V E (P1 & P2 & P3) K F]; subst; cbn [tid].
    + rewrite (version_get _ _ _ V). cbn [bind]. unfold entries in E. rewrite E.
      rewrite page_no_kids by auto. unfold isPage. destruct P as [P _]. apply has_get in P.
      destruct P as [q ->]. reflexivity.
    + rewrite (version_get _ _ _ V). cbn [bind]. unfold entries in E. rewrite E.
      apply has_get in P1. destruct P1 as [q ->]. rewrite (value_get _ _ _ P3). cbn [pval].
      cbn [depth] in D. fold (visits f os).
      destruct K as [->|(K & e & ->)].
      * assert (G : forall ts', (forall t, In t ts' -> In t ts) -> visits f os (map tid ts') = Ok (flat_map leaves ts')).
        { induction ts' as [|t ts' IHt]; intros S; [reflexivity|].
          cbn [map flat_map visits]. rewrite IH.
          - cbn [bind]. fold (visits f os). rewrite IHt by (intros; apply S; right; auto). reflexivity.
          - rewrite Forall_forall in F. apply F, S. left; auto.
          - specialize (depth_le ts t (S t (or_introl eq_refl))). lia. }
        cbn [leaves]. apply G. auto.
      * destruct ts; [|discriminate]. unfold isPage. rewrite (proj2 (get_none ps (B"Page")) P2). reflexivity.
Qed.

Lemma getPageObjIDs_leaves : forall p t f, page_tree p t -> (depth t <= f)%nat -> getPageObjIDs f p = Ok (leaves t).
Proof.
  intros p t f ((c & ps & v & V & E & Pv & R) & H) D. unfold getPageObjIDs.
  rewrite (version_get _ _ _ V). cbn [bind]. unfold entries in E. rewrite E.
  rewrite (value_get _ _ _ Pv). cbn [pval]. rewrite R. apply visit_leaves; auto.
Qed.
