From Coq Require Import String List ZArith Lia Bool.
From Verif Require Import Base BaseProofs Output Props PropsFlat PropsWrite PropsRead PropsNorm PropsStable PropsRefs PropsSpec PropsFinal PdfData PagesSpec PagesProofs PagesEdit.
Open Scope Z_scope.
Open Scope list_scope.

Lemma rewritable_good : forall o ps, entries o ps -> rewritable (odata o) -> good ps.
Proof.
  intros o ps E (head & BS & A & L). unfold entries in E. destruct (read_dict_part _ ps E) as [d D].
  destruct (dict_part_head _ head d BS D) as (a & b & Eh).
  apply (read_good (odata o) d); auto.
  - apply is_ascii_ascii in A. rewrite Eh in A. apply Forall_app in A. destruct A as [_ A].
    apply Forall_app in A. tauto.
  - apply lone_free_intro in L. rewrite Eh in L. apply lone_free_suffix in L. eapply lone_free_prefix; eauto.
Qed.

(** The invariant kept by the page functions. *)
Definition pinv (p : pdf) (rid : Z) (ts : list tree) : Prop :=
  page_tree p (Node rid ts) /\ root p <> rid /\
  (exists r ps, version (objs p) rid r /\ entries r ps /\ good ps /\ has_key ps (B"Count")) /\
  Forall is_int (leaves (Node rid ts)).

Lemma editable_pinv : forall p rid ts, editable p rid ts -> pinv p rid ts.
Proof.
  intros p rid ts (H1 & H2 & (r & ps & V & E & R & C) & H4). split; [auto|split; [auto|split; auto]].
  exists r, ps. repeat split; auto; apply (rewritable_good r ps); auto.
Qed.

Lemma holds_mono_n : forall os os' n t, (forall id o, version os id o -> version os' id o) ->
  (depth t <= n)%nat -> holds os t -> holds os' t.
Proof.
  intros os os'. induction n as [|n IH]; intros t M D H; [destruct t; cbn in D; lia|].
  inversion H as [id o ps V E P|id o ps v ts V E P K F]; subst.
  - eapply h_leaf; eauto.
  - eapply h_node; eauto. rewrite Forall_forall in *. intros t Ht. apply IH; auto.
    cbn [depth] in D. pose proof (depth_le ts t Ht). lia.
Qed.

Lemma holds_mono : forall os os' t, (forall id o, version os id o -> version os' id o) -> holds os t -> holds os' t.
Proof. intros. eapply holds_mono_n; eauto. Qed.

Lemma holds_sub : forall os t id, holds os t -> In id (leaves t) -> holds os (Leaf id).
Proof.
  intros os t id. 
  assert (G : forall n t, (depth t <= n)%nat -> holds os t -> In id (leaves t) -> holds os (Leaf id)).
  { induction n as [|n IH]; intros u D H I; [destruct u; cbn in D; lia|].
    inversion H as [i o ps V E P|i o ps v ts V E P K F]; subst.
    - destruct I as [<-|[]]. auto.
    - cbn [leaves] in I. apply in_flat_map in I. destruct I as (x & Hx & I).
      rewrite Forall_forall in F. apply (IH x); auto.
      cbn [depth] in D. pose proof (depth_le ts x Hx). lia. }
  apply (G (depth t)). auto.
Qed.

Lemma leaf_not_node : forall os id ts, holds os (Leaf id) -> holds os (Node id ts) -> False.
Proof.
  intros os id ts H1 H2. inversion H1 as [? o ps V E P|]; inversion H2 as [|? o' ps' v ts' V' E' P' K F]; subst.
  assert (o = o') by (eapply version_inj; eauto). subst. unfold entries in *. rewrite E in E'. inversion E'; subst.
  destruct P as [P _], P' as (_ & P' & _). contradiction.
Qed.

Lemma leaves_leaves : forall rid ids, leaves (Node rid (map Leaf ids)) = ids.
Proof. intros rid ids. cbn [leaves]. induction ids as [|i ids IH]; cbn; auto. f_equal. auto. Qed.

Lemma setPages_ok : forall p rid ts ids a r b, pinv p rid ts -> objs p = a ++ r :: b ->
  getIdx rid (objs p) = Some (List.length a) -> Forall is_int ids ->
  (forall id, In id ids -> holds (objs p) (Leaf id)) ->
  exists d ps ps', let p' := mkPdf (root p) (a ++ mkObj rid d :: b) in
    setPages p ids = Ok p' /\ pinv p' rid (map Leaf ids) /\ page_count p' rid (Z.of_nat (List.length ids)) /\
    (forall id o, id <> rid -> (version (objs p') id o <-> version (objs p) id o)) /\
    version (objs p) rid r /\ version (objs p') rid (mkObj rid d) /\ entries r ps /\ entries (mkObj rid d) ps' /\
    (forall k v, k <> B"Count" -> k <> B"Kids" -> (value ps' k v <-> value ps k v)).
Proof.
  intros p rid ts ids a r b (PT & Hroot & (r0 & ps & V & E & G & HC) & HI) Eo Gi FI HL.
  assert (Vr : version (objs p) rid r0) by auto.
  assert (r0 = r).
  { apply version_idx in V. destruct V as (i & G' & N & _). rewrite Gi in G'. inversion G'; subst.
    rewrite Eo, nth_error_app2, Nat.sub_diag in N by lia. cbn in N. congruence. }
  subst r0. pose proof (version_oid _ _ _ V) as Oid.
  destruct PT as [(c & cps & cv & CV & CE & CP & CR) HH]. cbn [tid] in *.
  inversion HH as [|? o' ps'' kv ts' V' E' (K1 & K2 & K3) KN KF]; subst ts'.
  assert (o' = r) by (eapply version_inj; eauto). subst o'. subst id.
  unfold entries in E, E'. rewrite E in E'. inversion E'; subst ps''. clear E' V'.
  set (n := itoa (Z.of_nat (List.length ids))).
  set (ps1 := setPropByKey (B"Count") n ps).
  set (ps2 := setPropByKey (B"Kids") (refArrText ids) ps1).
  set (ps3 := setPropByKey (B"Kids") (norm (refArrText ids)) ps1).
  assert (G1 : good ps1) by (apply good_set; auto; apply itoa_svalue).
  assert (G3 : good ps3) by (apply good_set; auto; apply arr_svalue).
  assert (R : readProperties (setProperties ps2) = Ok ps3).
  { rewrite wlist_read by (apply wlist_set; [apply arr_wvalue|apply good_wlist; auto]).
    unfold ps2. rewrite map_norm_set, stable_norm by apply G1. reflexivity. }
  assert (HK : forall k, has_key ps3 k <-> has_key ps k).
  { intros k. unfold ps3, ps1. rewrite !keys_set. tauto. }
  exists (setProperties ps2), ps, ps3. cbv zeta. set (r' := mkObj rid (setProperties ps2)).
  assert (Er' : entries r' ps3) by exact R.
  assert (An : has_annots r' = has_annots r).
  { apply eq_true_iff_eq. rewrite !annots_spec. unfold annotated, entries. cbn [odata r'].
    rewrite R, E. split; intros (q & Q & K); inversion Q; subst; eexists; split; eauto; apply HK; auto. }
  assert (Oid' : oid r' = oid r) by (cbn; auto).
  assert (Vo : forall id o, id <> rid -> (version (a ++ r' :: b) id o <-> version (objs p) id o)).
  { intros id o Hid. rewrite Eo. apply version_replace_other; auto. congruence. }
  assert (Vr' : version (a ++ r' :: b) rid r').
  { rewrite <- Oid. apply (version_replace a r r' b); auto. rewrite Oid, <- Eo. auto. }
  split; [|split; [|split; [|split; [|split; [|split; [|split; [|split]]]]]]]; auto.
  - unfold setPages. rewrite (version_get _ _ _ CV). cbn [bind]. unfold entries in CE. rewrite CE. cbn [bind].
    rewrite (value_get _ _ _ CP). cbn [asDictionary pval]. rewrite CR. cbn [bind].
    rewrite (version_get _ _ _ Vr). cbn [bind]. rewrite E. cbn [bind].
    destruct (has_get _ _ HC) as [q ->]. fold n. fold ps1.
    assert (K : has_key ps1 (B"Kids")) by (apply keys_set; eapply value_has; eauto).
    destruct (has_get _ _ K) as [q' ->]. fold ps2. unfold setData. rewrite Gi. cbn [bind].
    rewrite Eo, set_nth_split, Oid. reflexivity.
  - split; [split|split; [|split]].
    + exists c, cps, cv. cbn [objs root]. split; [|auto]. apply Vo; auto.
    + cbn [objs]. apply (h_node _ rid r' ps3 (norm (refArrText ids))); auto.
      * split; [apply HK; auto|split; [rewrite HK; auto|]]. apply value_set_same, keys_set. eapply value_has; eauto.
      * rewrite map_map. cbn [tid]. rewrite map_id. apply arr_kids. auto.
      * apply Forall_forall. intros t Ht. apply in_map_iff in Ht. destruct Ht as (id & <- & Hid).
        specialize (HL id Hid). inversion HL as [? o qs Vq Eq Pq|]; subst.
        apply (h_leaf _ id o qs); auto. apply Vo; auto. intros ->.
        eapply leaf_not_node; [exact HL|exact HH].
    + cbn [root]. auto.
    + exists r', ps3. cbn [objs]. split; [auto|split; [auto|split; [auto|]]]. apply HK. auto.
    + rewrite leaves_leaves. auto.
  - exists r', ps3. cbn [objs]. split; [auto|split; [auto|]].
    unfold ps3. apply value_set_other; [discriminate|]. apply value_set_same. auto.
  - intros k v H1 H2. unfold ps3, ps1. rewrite !value_set_other by auto. tauto.
Qed.

(** ** List surgery *)
Lemma from_ok : forall A (l : list A) i, 0 <= i <= Z.of_nat (List.length l) -> from l i = Ok (skipn (Z.to_nat i) l).
Proof.
  intros A l i H. unfold from. replace ((0 <=? i) && (i <=? Z.of_nat (List.length l))) with true by lia. reflexivity.
Qed.

Lemma copy_remove : forall (l : list Z) k, 1 <= k <= Z.of_nat (List.length l) ->
  exists l1, copy_within l (k - 1) k = Ok l1 /\ 1 <= Z.of_nat (List.length l1) /\
    firstn (List.length l1 - 1) l1 = firstn (Z.to_nat (k - 1)) l ++ skipn (Z.to_nat k) l.
Proof.
  intros l k H. unfold copy_within. rewrite !from_ok by lia. cbn [bind]. eexists. split; [reflexivity|].
  set (i := Z.to_nat (k - 1)). assert (Ek : Z.to_nat k = S i) by lia. rewrite Ek.
  assert (Li : (i < List.length l)%nat) by lia.
  set (m := Nat.min (List.length (skipn i l)) (List.length (skipn (S i) l))).
  assert (Em : m = (List.length l - S i)%nat) by (subst m; rewrite !skipn_length; lia).
  rewrite Em. rewrite (firstn_all2 (skipn (S i) l)) by (rewrite skipn_length; lia).
  rewrite app_assoc. set (u := firstn i l ++ skipn (S i) l).
  assert (Lu : List.length u = (List.length l - 1)%nat).
  { subst u. rewrite app_length, firstn_length, skipn_length. lia. }
  set (w := skipn (List.length l - S i) (skipn i l)).
  assert (Lw : List.length w = 1%nat) by (subst w; rewrite !skipn_length; lia).
  rewrite app_length, Lw. split; [lia|].
  replace (List.length u + 1 - 1)%nat with (List.length u + 0)%nat by lia. rewrite firstn_app_2. cbn. apply app_nil_r.
Qed.

Lemma skipn_cons_nth : forall (l : list Z) j, (j < List.length l)%nat -> exists x, skipn j l = x :: skipn (S j) l.
Proof.
  induction l as [|y l IH]; intros j H; cbn in H; [lia|]. destruct j as [|j]; [exists y; auto|].
  destruct (IH j) as [x E]; [lia|]. exists x. cbn [skipn] in *. rewrite E. destruct l; reflexivity.
Qed.

Lemma copy_insert : forall (l : list Z) j x, 0 <= j < Z.of_nat (List.length l) ->
  exists l1, copy_within (l ++ [0]) (j + 1) j = Ok l1 /\
    set_at l1 (j + 1) x = Ok (firstn (Z.to_nat (j + 1)) l ++ x :: skipn (Z.to_nat (j + 1)) l).
Proof.
  intros l j x H. unfold copy_within. assert (Ll : List.length (l ++ [0]) = S (List.length l)) by (rewrite app_length; cbn; lia).
  rewrite !from_ok by lia. cbn [bind]. eexists. split; [reflexivity|].
  set (i := Z.to_nat j). replace (Z.to_nat (j + 1)) with (S i) by lia.
  assert (Li : (i < List.length l)%nat) by lia.
  replace (Nat.min _ _) with (List.length l - i)%nat by (rewrite !skipn_length; lia).
  rewrite (skipn_all2 (skipn (S i) (l ++ [0]))) by (rewrite skipn_length; lia). rewrite app_nil_r.
  rewrite skipn_app. replace (i - List.length l)%nat with 0%nat by lia. change (skipn 0 [0]) with [0].
  rewrite (firstn_app _ (skipn i l)). rewrite (firstn_all2 (skipn i l)) by (rewrite skipn_length; lia).
  rewrite skipn_length, Nat.sub_diag. change (firstn 0 [0]) with (@nil Z). rewrite app_nil_r.
  replace (firstn (S i) (l ++ [0])) with (firstn (S i) l).
  2:{ rewrite firstn_app. replace (S i - List.length l)%nat with 0%nat by lia. change (firstn 0 [0]) with (@nil Z). now rewrite app_nil_r. }
  assert (Lf : List.length (firstn (S i) l) = S i) by (rewrite firstn_length; lia).
  destruct (skipn_cons_nth l i Li) as [y Ey]. rewrite Ey. unfold set_at.
  rewrite app_length, Lf. cbn [List.length].
  replace ((0 <=? j + 1) && (j + 1 <? Z.of_nat (S i + S (List.length (skipn (S i) l))))) with true by lia.
  replace (Z.to_nat (j + 1)) with (List.length (firstn (S i) l)) by lia. rewrite set_nth_split. reflexivity.
Qed.

(** ** RemovePage and RemoveOtherPages *)
Lemma version_split : forall os id o, version os id o ->
  exists a b, os = a ++ o :: b /\ getIdx id os = Some (List.length a).
Proof.
  intros os id o V. apply version_idx in V. destruct V as (i & G & N & _).
  apply nth_error_split in N. destruct N as (a & b & E & L). exists a, b. subst. auto.
Qed.

Lemma pinv_setPages : forall p rid ts ids, pinv p rid ts -> Forall is_int ids ->
  (forall id, In id ids -> holds (objs p) (Leaf id)) ->
  exists p', setPages p ids = Ok p' /\ pinv p' rid (map Leaf ids) /\
    page_count p' rid (Z.of_nat (List.length ids)) /\ edits p p' rid [] /\
    (forall id o, id <> rid -> (version (objs p') id o <-> version (objs p) id o)).
Proof.
  intros p rid ts ids PI FI HL. destruct PI as (PT & Hr & (r & ps & V & E & G & HC) & HI) eqn:PE.
  destruct (version_split _ _ _ V) as (a & b & Eo & Gi).
  destruct (setPages_ok p rid ts ids a r b PI Eo Gi FI HL) as (d & ps1 & ps2 & S & PI' & PC & Vo & V1 & V2 & E1 & E2 & K).
  eexists. split; [exact S|]. split; [auto|split; [auto|split; [|auto]]].
  split; [reflexivity|]. exists a, r, (mkObj rid d), b, ps1, ps2. cbn [objs]. rewrite app_nil_r. auto 10.
Qed.

Lemma sub_leaf : forall p rid ts id, pinv p rid ts -> In id (leaves (Node rid ts)) -> holds (objs p) (Leaf id).
Proof. intros p rid ts id ((_ & H) & _) I. eapply holds_sub; eauto. Qed.

Lemma pinv_list : forall p rid ts f, pinv p rid ts -> (depth (Node rid ts) <= f)%nat ->
  getPageObjIDs f p = Ok (leaves (Node rid ts)).
Proof. intros p rid ts f (H & _) D. apply getPageObjIDs_leaves; auto. Qed.

Lemma flat_depth : forall rid ids, (depth (Node rid (map Leaf ids)) <= 2)%nat.
Proof. intros rid ids. cbn [depth]. induction ids as [|i ids IH]; cbn [map fold_right depth] in *; lia. Qed.

Lemma pinv_page_list : forall p rid ts, pinv p rid ts -> page_list p (leaves (Node rid ts)).
Proof. intros p rid ts H. exists (depth (Node rid ts)). intros. apply (pinv_list p rid ts); auto. Qed.

Lemma remove_ok : forall p rid ts f k, pinv p rid ts -> (depth (Node rid ts) <= f)%nat ->
  let ids := leaves (Node rid ts) in 1 <= k <= Z.of_nat (List.length ids) ->
  let ids' := firstn (Z.to_nat (k - 1)) ids ++ skipn (Z.to_nat k) ids in
  exists p', removePage f p k = Ok (p', None) /\ pinv p' rid (map Leaf ids') /\
    page_count p' rid (Z.of_nat (List.length ids')) /\ edits p p' rid [] /\
    (forall id o, id <> rid -> (version (objs p') id o <-> version (objs p) id o)).
Proof.
  intros p rid ts f k PI D ids Hk ids'. unfold removePage. rewrite (pinv_list p rid ts) by auto. cbn [bind]. fold ids.
  replace ((0 <? k) && (Z.of_nat (List.length ids) <? k)) with false by lia.
  destruct (copy_remove ids k Hk) as (l1 & -> & L & E). cbn [bind].
  replace (1 <=? Z.of_nat (List.length l1)) with true by lia. rewrite E. fold ids'.
  assert (Sub : forall x, In x ids' -> In x ids).
  { intros x Hx. apply in_app_or in Hx. destruct Hx as [Hx|Hx];
      [rewrite <- (firstn_skipn (Z.to_nat (k - 1)) ids)|rewrite <- (firstn_skipn (Z.to_nat k) ids)];
      apply in_or_app; auto. }
  destruct (pinv_setPages p rid ts ids') as (p' & S & R).
  - auto.
  - apply Forall_forall. intros x Hx. destruct PI as (_ & _ & _ & F). rewrite Forall_forall in F. apply F, Sub, Hx.
  - intros x Hx. apply (sub_leaf p rid ts); auto.
  - exists p'. rewrite S. split; [reflexivity|exact R].
Qed.

Lemma removeOther_ok : forall p rid ts f k, pinv p rid ts -> (depth (Node rid ts) <= f)%nat ->
  let ids := leaves (Node rid ts) in 0 <= k < Z.of_nat (List.length ids) ->
  let ids' := [nth (Z.to_nat k) ids 0] in
  exists p', removeOtherPages f p k = Ok (p', None) /\ pinv p' rid (map Leaf ids') /\
    page_count p' rid 1 /\ edits p p' rid [] /\
    (forall id o, id <> rid -> (version (objs p') id o <-> version (objs p) id o)).
Proof.
  intros p rid ts f k PI D ids Hk ids'. unfold removeOtherPages. rewrite (pinv_list p rid ts) by auto. cbn [bind]. fold ids.
  replace ((0 <? k) && (Z.of_nat (List.length ids) <? k)) with false by lia.
  unfold at_. replace (k <? 0) with false by lia.
  rewrite (nth_error_nth' ids 0) by lia. cbn [bind]. fold ids'.
  assert (Hin : In (nth (Z.to_nat k) ids 0) ids) by (apply nth_In; lia).
  destruct (pinv_setPages p rid ts ids') as (p' & S & R).
  - auto.
  - constructor; [|constructor]. destruct PI as (_ & _ & _ & F). rewrite Forall_forall in F. apply F; auto.
  - intros x [<-|[]]. eapply sub_leaf; eauto.
  - exists p'. rewrite S. split; [reflexivity|exact R].
Qed.

(** ** DuplicatePageAfter *)
Definition fresh (os : list obj) (o : obj) : Prop := forall q, In q os -> oid q <> oid o.

Lemma version_snoc : forall os o id q, fresh os o -> version os id q -> version (os ++ [o]) id q.
Proof.
  intros os o id q F V. apply version_snoc_other; auto. intros E.
  apply (F q); [eapply version_in; eauto|]. rewrite (version_oid _ _ _ V). auto.
Qed.

Lemma maxID_fresh : forall os d, fresh os (mkObj (maxID os + 1) d).
Proof. intros os d q Hq. cbn. pose proof (maxID_ge os q Hq). lia. Qed.

Lemma pinv_put : forall p rid ts o, pinv p rid ts -> fresh (objs p) o -> pinv (put p o) rid ts.
Proof.
  intros p rid ts o (((c & ps & v & V & R) & H) & Hr & (r & rs & Vr & Rr) & F) Fr.
  split; [split|split; [auto|split; [|auto]]].
  - exists c, ps, v. split; auto. apply version_snoc; auto.
  - apply (holds_mono (objs p)); auto. intros. apply version_snoc; auto.
  - exists r, rs. split; auto. apply version_snoc; auto.
Qed.

(** A page that can be duplicated, without reference to bytes. *)
Definition cpy (os : list obj) (id : Z) : Prop :=
  exists o ps v c co, version os id o /\ entries o ps /\ good ps /\
    value ps (B"Contents") v /\ readObjID v = Ok c /\ version os c co.

Lemma copyable_cpy : forall os id, copyable os id -> cpy os id.
Proof.
  intros os id (o & ps & v & c & co & V & E & R & H). exists o, ps, v, c, co. split; [auto|split; [auto|split; [|auto]]].
  apply (rewritable_good o); auto.
Qed.

Lemma maxID_snoc : forall os d, maxID (os ++ [mkObj (maxID os + 1) d]) = maxID os + 1.
Proof.
  intros os d. unfold maxID at 1. rewrite fold_left_app. fold (maxID os). cbn [fold_left oid].
  destruct (Z.ltb_spec (maxID os) (maxID os + 1)); lia.
Qed.

Lemma duplicate_ok : forall p rid ts f k pos, pinv p rid ts -> (depth (Node rid ts) <= f)%nat ->
  let ids := leaves (Node rid ts) in let n := Z.of_nat (List.length ids) in
  1 <= k <= n -> - n <= pos <= n - 1 ->
  let src := nth (Z.to_nat (k - 1)) ids 0 in
  numbers_left p 2 ->
  forall o ps v c co, version (objs p) src o -> entries o ps -> good ps ->
    value ps (B"Contents") v -> readObjID v = Ok c -> version (objs p) c co ->
  let nc := maxID (objs p) + 1 in let np := maxID (objs p) + 2 in
  let j := Z.to_nat ((if pos <? 0 then n + pos else pos) + 1) in
  let ids' := firstn j ids ++ np :: skipn j ids in
  let ps' := setPropByKey (B"Contents") (refText nc) ps in
  let co' := mkObj nc (odata co) in let o' := mkObj np (setProperties ps') in
  exists p', duplicatePageAfter f p k pos = Ok (p', None) /\ pinv p' rid (map Leaf ids') /\
    page_count p' rid (n + 1) /\ edits p p' rid [co'; o'] /\
    version (objs p') nc co' /\ version (objs p') np o' /\ entries o' ps' /\ good ps' /\
    (forall id q, id <> rid -> version (objs p) id q -> version (objs p') id q).
Proof.
  intros p rid ts f k pos PI D ids n Hk Hpos src NL o ps v c co V E G Cv Rc Vc nc np j ids' ps' co' o'.
  pose proof (maxID_nonneg (objs p)) as M0.
  assert (M1 : maxID (objs p) + 2 < 2 ^ 63).
  { destruct (maxID_in (objs p)) as [->|(q & Hq & <-)]; [lia|]. apply NL. auto. }
  assert (Isrc : In src ids) by (apply nth_In; unfold n in *; lia).
  pose proof (sub_leaf p rid ts src PI Isrc) as HL.
  assert (PE : page_entries ps).
  { inversion HL as [? o1 qs V1 E1 P1|]; subst. assert (o1 = o) by (eapply version_inj; eauto). subst.
    unfold entries in *. rewrite E in E1. inversion E1; subst. auto. }
  assert (G' : good ps') by (apply good_set; auto; apply ref_svalue1).
  assert (E' : entries o' ps') by (unfold entries, o'; cbn [odata]; apply good_read; auto).
  assert (PE' : page_entries ps').
  { destruct PE as [A1 A2]. unfold ps'. split; [apply keys_set; auto|]. rewrite !keys_set. auto. }
  set (p1 := put p co'). set (p2 := put p1 o').
  assert (F1 : fresh (objs p) co') by apply maxID_fresh.
  assert (F2 : fresh (objs p1) o').
  { intros q Hq. cbn [oid o']. apply in_app_or in Hq. destruct Hq as [Hq|[<-|[]]].
    - pose proof (maxID_ge _ _ Hq). unfold np. lia.
    - cbn [oid co']. unfold nc, np. lia. }
  assert (PI1 : pinv p1 rid ts) by (apply pinv_put; auto).
  assert (PI2 : pinv p2 rid ts) by (apply pinv_put; auto).
  assert (Vn : version (objs p2) np o') by (apply (version_snoc_new (objs p1) o'); exact F2).
  assert (Vnc : version (objs p2) nc co').
  { apply (version_snoc (objs p1)); auto. apply (version_snoc_new (objs p) co'). exact F1. }
  assert (Up : forall id q, version (objs p) id q -> version (objs p2) id q).
  { intros. apply (version_snoc (objs p1)); auto. apply (version_snoc (objs p)); auto. }
  assert (Hr2 : exists r, version (objs p) rid r).
  { destruct PI as (_ & _ & (r & rs & Vr & _) & _). eauto. }
  destruct Hr2 as [r Vr].
  assert (Nnc : nc <> rid /\ np <> rid).
  { pose proof (maxID_ge _ _ (version_in _ _ _ Vr)) as M. rewrite (version_oid _ _ _ Vr) in M. unfold nc, np. lia. }
  destruct (version_split _ _ _ Vr) as (a & b & Eo & Gi).
  assert (Gi2 : getIdx rid (objs p2) = Some (List.length a)).
  { cbn [p2 p1 put objs]. rewrite !getIdx_snoc_other; auto; cbn [oid o' co']; tauto. }
  assert (Eo2 : objs p2 = a ++ r :: (b ++ [co'; o'])).
  { cbn [p2 p1 put objs]. rewrite Eo, <- !app_assoc. reflexivity. }
  assert (HL2 : forall id, In id ids' -> holds (objs p2) (Leaf id)).
  { intros id Hid. apply in_app_or in Hid. destruct Hid as [Hid|[<-|Hid]].
    - apply (sub_leaf p2 rid ts); auto. fold ids. rewrite <- (firstn_skipn j ids). apply in_or_app; auto.
    - apply (h_leaf _ np o' ps'); auto.
    - apply (sub_leaf p2 rid ts); auto. fold ids. rewrite <- (firstn_skipn j ids). apply in_or_app; auto. }
  assert (FI : Forall is_int ids').
  { destruct PI as (_ & _ & _ & F). fold ids in F. rewrite <- (firstn_skipn j ids) in F. apply Forall_app in F.
    destruct F as [Fa Fb]. apply Forall_app. split; auto. constructor; auto. unfold is_int, np. lia. }
  destruct (setPages_ok p2 rid ts ids' a r _ PI2 Eo2 Gi2 FI HL2) as (d & q1 & q2 & S & PI' & PC & Vo & V1 & V2 & E1 & E2 & K).
  cbv zeta in *. eexists. split; [|split; [exact PI'|split; [|split]]].
  - unfold duplicatePageAfter. rewrite (pinv_list p rid ts) by auto. cbn [bind]. fold ids. fold n.
    replace ((0 <? k) && (n <? k)) with false by lia.
    unfold at_. replace (k - 1 <? 0) with false by lia.
    rewrite (nth_error_nth' ids 0) by (unfold n in *; lia). cbn [bind]. fold src.
    unfold pageContents. rewrite (version_get _ _ _ V). cbn [bind]. unfold entries in E. rewrite E. cbn [bind].
    rewrite (value_get _ _ _ Cv). cbn [pval]. rewrite Rc. cbn [bind]. rewrite (version_get _ _ _ Vc). cbn [bind].
    unfold putNewObject. fold nc. fold co'. fold p1.
    replace (maxID (objs p1) + 1) with np by (unfold p1, put, co', nc, np; cbn [objs]; rewrite maxID_snoc; lia).
    fold ps'. fold o'. fold p2.
    assert (Hj : 0 <= (if pos <? 0 then n + pos else pos) < Z.of_nat (List.length ids)).
    { fold n. destruct (Z.ltb_spec pos 0); lia. }
    destruct (copy_insert ids _ np Hj) as (l1 & -> & Q). cbn [bind]. rewrite Q. cbn [bind]. fold j. fold ids'.
    rewrite S. reflexivity.
  - replace (n + 1) with (Z.of_nat (List.length ids')); auto.
    unfold ids', n. rewrite app_length. cbn [List.length].
    rewrite <- (firstn_skipn j ids) at 3. rewrite app_length. lia.
  - split; [reflexivity|]. exists a, r, (mkObj rid d), b, q1, q2. cbn [objs].
    split; [auto|]. split; [rewrite <- app_assoc; reflexivity|]. auto.
  - split; [apply Vo; tauto|]. split; [apply Vo; tauto|]. split; [auto|split; [auto|]].
    intros id q Hid Hq. apply Vo; auto.
Qed.
