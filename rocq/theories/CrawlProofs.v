(** Lemmas on maps, replacements and the crawler. *)
From Coq Require Import String List ZArith Lia Bool Permutation.
From Verif Require Import Base BaseProofs Output Props PropsFlat PropsRead PropsWrite PropsStable PropsRefs PropsFinal PdfData PagesSpec PagesProofs PagesEdit PagesOps Crawl Inject.
Open Scope Z_scope.
Open Scope list_scope.

(** ** Maps *)
Lemma mem_get : forall A (m : list (Z * A)) k, mem_key k m = true <-> exists v, map_get m k = Some v.
Proof.
  induction m as [|[k' v] m IH]; intros k; cbn [mem_key map_get].
  - split; [discriminate|]. intros (v & H). discriminate.
  - destruct (k =? k') eqn:E; cbn [orb]; [split; eauto|]. apply IH.
Qed.

Lemma mem_none : forall A (m : list (Z * A)) k, mem_key k m = false <-> map_get m k = None.
Proof.
  intros. pose proof (mem_get A m k) as H. destruct (mem_key k m), (map_get m k) as [v|]; split; auto; try discriminate; intros _.
  - destruct H as [H _]. destruct (H eq_refl). discriminate.
  - destruct H as [_ H]. discriminate H. eauto.
Qed.

Lemma get_snoc : forall A (m : list (Z * A)) k v j, map_get m k = None ->
  map_get (m ++ [(k, v)]) j = if j =? k then Some v else map_get m j.
Proof.
  induction m as [|[k' w] m IH]; intros k v j H; cbn [app map_get] in *; [reflexivity|].
  destruct (Z.eqb_spec k k'); [discriminate|].
  destruct (Z.eqb_spec j k'); [|apply IH; auto]. subst.
  destruct (Z.eqb_spec k' k); [congruence|reflexivity].
Qed.

Lemma get_upd : forall A (f : A -> A) (m : list (Z * A)) k j,
  map_get (upd_key k f m) j = if j =? k then option_map f (map_get m j) else map_get m j.
Proof.
  induction m as [|[k' w] m IH]; intros k j; cbn [upd_key map_get].
  - destruct (j =? k); reflexivity.
  - destruct (Z.eqb_spec k k'); cbn [map_get].
    + subst. destruct (Z.eqb_spec j k'); reflexivity.
    + rewrite IH. destruct (Z.eqb_spec j k'); [|reflexivity]. subst.
      destruct (Z.eqb_spec k' k); [congruence|reflexivity].
Qed.

Lemma get_set : forall A (m : list (Z * A)) k v j,
  map_get (set_key k v m) j = if j =? k then Some v else map_get m j.
Proof.
  intros. unfold set_key. destruct (mem_key k m) eqn:E.
  - rewrite get_upd. apply mem_get in E. destruct E as (w & E).
    destruct (Z.eqb_spec j k); [subst; rewrite E; reflexivity|reflexivity].
  - apply mem_none in E. apply get_snoc. auto.
Qed.

Lemma keys_upd : forall A (f : A -> A) (m : list (Z * A)) k, map fst (upd_key k f m) = map fst m.
Proof.
  induction m as [|[k' w] m IH]; intros k; cbn [upd_key map]; auto.
  destruct (k =? k'); cbn [map fst]; [reflexivity|]. f_equal. apply IH.
Qed.

Lemma mem_in : forall A (m : list (Z * A)) k, mem_key k m = true <-> In k (map fst m).
Proof.
  induction m as [|[k' w] m IH]; intros k; cbn [mem_key map In fst].
  - split; [discriminate|tauto].
  - rewrite orb_true_iff, Z.eqb_eq, IH. split; intros [H|H]; auto.
Qed.

Lemma NoDup_snoc : forall A (l : list A) x, NoDup l -> ~ In x l -> NoDup (l ++ [x]).
Proof.
  intros. apply (Permutation_NoDup (l := x :: l)); [|constructor; auto].
  apply Permutation_cons_append.
Qed.

Lemma nodup_set : forall A (m : list (Z * A)) k v, NoDup (map fst m) -> NoDup (map fst (set_key k v m)).
Proof.
  intros. unfold set_key. destruct (mem_key k m) eqn:E.
  - rewrite keys_upd. auto.
  - rewrite map_app. cbn [map fst]. apply NoDup_snoc; auto. intros X. apply mem_in in X. congruence.
Qed.

Lemma nodup_touch : forall id m, NoDup (map fst m) -> NoDup (map fst (touch id m)).
Proof.
  intros. unfold touch. destruct (mem_key id m) eqn:E; auto.
  rewrite map_app. cbn [map fst]. apply NoDup_snoc; auto. intros X. apply mem_in in X. congruence.
Qed.

Lemma get_in : forall A (m : list (Z * A)) k v, map_get m k = Some v -> In (k, v) m.
Proof.
  induction m as [|[k' w] m IH]; intros k v H; cbn [map_get] in H; [discriminate|].
  destruct (Z.eqb_spec k k'); [inversion H; subst; left; auto|right; auto].
Qed.

Lemma in_get : forall A (m : list (Z * A)) k v, NoDup (map fst m) -> In (k, v) m -> map_get m k = Some v.
Proof.
  induction m as [|[k' w] m IH]; intros k v N H; [destruct H|]. cbn [map fst] in N. inversion N; subst.
  cbn [map_get]. destruct H as [H|H].
  - inversion H; subst. rewrite Z.eqb_refl. reflexivity.
  - destruct (Z.eqb_spec k k'); [|auto]. subst. exfalso. apply H2. apply (in_map fst) in H. exact H.
Qed.

(** ** Replacing data in the object table *)
Lemma setData_other : forall os id d os', setData id d os = Ok os' -> forall j, j <> id -> getIdx j os' = getIdx j os.
Proof.
  intros os id d os' H j N. unfold setData in H. destruct (getIdx id os) as [i|] eqn:G; [|discriminate].
  inversion H; subst os'. clear H. destruct (getIdx_oid os id i G) as (o & Hn & Ho).
  apply nth_error_split in Hn. destruct Hn as (a & b & -> & L). subst i. rewrite set_nth_split.
  rewrite !getIdx_eq.
  assert (L : forall x y, oid x = id -> oid y = id -> forall a', lastA j (a' ++ x :: b) = lastA j (a' ++ y :: b)).
  { intros x y Hx Hy. induction a' as [|q a' IH]; cbn [app lastA].
    - destruct (lastA j b); auto. destruct (Z.eqb_spec (oid x) j), (Z.eqb_spec (oid y) j); cbn [andb]; congruence.
    - rewrite IH. reflexivity. }
  assert (F : forall x y, oid x = id -> oid y = id -> forall a', firstI j (a' ++ x :: b) = firstI j (a' ++ y :: b)).
  { intros x y Hx Hy. induction a' as [|q a' IH]; cbn [app firstI].
    - destruct (Z.eqb_spec (oid x) j), (Z.eqb_spec (oid y) j); congruence.
    - rewrite IH. reflexivity. }
  rewrite (L _ o), (F _ o) by (cbn [oid]; auto). reflexivity.
Qed.

Lemma setData_nth : forall os id d os' i, getIdx id os = Some i -> setData id d os = Ok os' ->
  List.length os' = List.length os /\
  forall n o, nth_error os n = Some o -> nth_error os' n = Some (if (n =? i)%nat then mkObj id d else o).
Proof.
  intros os id d os' i G H. unfold setData in H. rewrite G in H. inversion H; subst os'. clear H.
  destruct (getIdx_oid os id i G) as (o0 & Hn & Ho). apply nth_error_split in Hn. destruct Hn as (a & b & -> & L).
  subst i. rewrite set_nth_split. split; [rewrite !app_length; reflexivity|].
  intros n o Hn. destruct (Nat.eqb_spec n (List.length a)).
  - subst n. rewrite nth_error_app2, Nat.sub_diag in * by lia. cbn in *. congruence.
  - destruct (Nat.lt_ge_cases n (List.length a)).
    + rewrite nth_error_app1 in * by lia. auto.
    + rewrite nth_error_app2 in * by lia. destruct (n - List.length a)%nat eqn:E; [lia|]. exact Hn.
Qed.

Lemma replaceAll_spec : forall wrap must os, NoDup (map fst must) ->
  (forall id, In id (map fst must) -> getIdx id os <> None) ->
  exists os', replaceAll wrap must os = Ok os' /\ List.length os' = List.length os /\
    forall n o, nth_error os n = Some o -> exists o', nth_error os' n = Some o' /\ oid o' = oid o /\
      (forall s, In (oid o, s) must -> getIdx (oid o) os = Some n -> odata o' = wrap s) /\
      (getIdx (oid o) os <> Some n \/ ~ In (oid o) (map fst must) -> o' = o).
Proof.
  intros wrap. induction must as [|[id s] must IH]; intros os N H.
  - exists os. split; [reflexivity|]. split; [reflexivity|]. intros n o Hn. exists o. split; [auto|]. split; [auto|].
    split; [intros s []|auto].
  - cbn [map fst] in N, H. inversion N as [|x l N1 N2]; subst x l.
    destruct (getIdx id os) as [i|] eqn:G; [|exfalso; eapply H; [left; reflexivity|exact G]].
    assert (exists os1, setData id (wrap s) os = Ok os1) as (os1 & E1) by (unfold setData; rewrite G; eauto).
    pose proof (setData_other _ _ _ _ E1) as O1. destruct (setData_nth _ _ _ _ i G E1) as (L1 & T1).
    destruct (IH os1 N2) as (os' & E' & L' & T').
    { intros j Hj. rewrite O1; [apply H; right; auto|]. intros ->. auto. }
    exists os'. cbn [replaceAll]. rewrite E1. cbn [bind]. split; [auto|]. split; [congruence|].
    intros n o Hn. pose proof (T1 n o Hn) as H1. apply T' in H1. destruct H1 as (o' & Hn' & Ho' & Hin & Hout).
    exists o'. split; [auto|].
    destruct (Nat.eqb_spec n i) as [->|Hni].
    + destruct (getIdx_oid os id i G) as (o0 & Hn0 & Ho0). assert (o = o0) by congruence. subst o0.
      cbn [oid] in *. rewrite Ho0. split; [auto|]. split.
      * intros t [Ht|Ht] Gt.
        -- inversion Ht; subst t. rewrite Hout; [reflexivity|]. right. auto.
        -- exfalso. apply N1. apply (in_map fst) in Ht. exact Ht.
      * intros [X|X]; [congruence|]. cbn [map fst In] in X. tauto.
    + split; [auto|]. destruct (Z.eq_dec (oid o) id) as [e|e].
      * split.
        -- intros t _ Gt. rewrite e in Gt. congruence.
        -- intros _. apply Hout. right. rewrite e. auto.
      * rewrite O1 in * by auto. split.
        -- intros t [Ht|Ht] Gt; [inversion Ht; congruence|]. auto.
        -- intros [X|X]; apply Hout; [left; auto|right]. cbn [map fst In] in X. tauto.
Qed.

(** ** Types of values *)
Lemma split1_space : forall s a b l, split1 32 s = a :: b :: l -> In 32 s.
Proof.
  intros s a b l H. destruct (in_dec Z.eq_dec 32 s) as [i|n]; auto.
  rewrite split1_nosep in H; [discriminate|]. apply Forall_forall. intros x Hx ->. auto.
Qed.

Lemma atoi_chars : forall s n, atoi s = Ok n -> s <> [] /\ Forall (fun c => c = 43 \/ c = 45 \/ 48 <= c <= 57) s.
Proof.
  intros s n H.
  assert (D : forall b v, atou b = Some v -> Forall (fun c => c = 43 \/ c = 45 \/ 48 <= c <= 57) b).
  { intros b v Hb. unfold atou in Hb. destruct b as [|x b]; [discriminate|].
    destruct (forallb is_digit (x :: b)) eqn:F; [|discriminate].
    apply Forall_forall. intros c Hc. rewrite forallb_forall in F. apply F in Hc. unfold is_digit in Hc. lia. }
  unfold atoi in H. destruct s as [|c s]; [discriminate|]. split; [discriminate|].
  destruct (Z.eqb_spec c 43); [|destruct (Z.eqb_spec c 45)].
  - destruct (atou s) eqn:A; [|discriminate]. constructor; [auto|]. eapply D; eauto.
  - destruct (atou s) eqn:A; [|discriminate]. constructor; [auto|]. eapply D; eauto.
  - destruct (atou (c :: s)) eqn:A; [|discriminate]. eapply D; eauto.
Qed.

Lemma not_dict : forall c s, c <> 60 -> prefixb (B"<<") (c :: s) = false.
Proof. intros. change (B"<<") with [60; 60]. apply prefixb_false_cons. auto. Qed.
Lemma not_arr : forall c s, c <> 91 -> prefixb (B"[") (c :: s) = false.
Proof. intros. change (B"[") with [91]. apply prefixb_false_cons. auto. Qed.

Lemma type_num : forall v n, atoi (trim_space v) = Ok n -> propertyType v = PNumber.
Proof.
  intros v n H. destruct (atoi_chars _ _ H) as (Hn & F). unfold propertyType.
  rewrite trim_space_idem. destruct (trim_space v) as [|c s]; [congruence|]. inversion F; subst.
  rewrite not_dict, not_arr by lia. rewrite !andb_false_r, H. reflexivity.
Qed.

Lemma type_ref : forall v id, readObjID v = Ok id -> propertyType v = PDictionary.
Proof.
  intros v id H. unfold readObjID in H. unfold propertyType. rewrite trim_space_idem.
  destruct (trim_space v) as [|c0 s0] eqn:E; [discriminate|].
  destruct (split1 32 (c0 :: s0)) as [|a [|b [|c [|? ?]]]] eqn:S; try discriminate.
  pose proof (split1_space _ _ _ _ S) as Sp. destruct (atoi_chars _ _ H) as (Hn & F).
  (* the first character of the value is the first character of a *)
  assert (Hc : forall x, (x = 60 \/ x = 91) -> c0 <> x).
  { intros x Hx ->. cbn [split1] in S. replace (x =? 32) with false in S by lia.
    destruct (split1 32 s0) as [|w ws] eqn:S0; [discriminate|]. inversion S; subst a.
    destruct (trim_space_sub (x :: w)) as (p & q & Epq).
    assert (T : ascii x /\ is_space1 x = false) by (unfold ascii, is_space1; lia). destruct T as (T1 & T2).
    assert (exists r, trim_space (x :: w) = x :: r) as (r & Er).
    { assert (Tl : trim_left_space (x :: w) = x :: w) by (apply trim_left_id, space_len_cons; auto).
      unfold trim_space. rewrite Tl. destruct (trim_right_prefix (x :: w)) as (z & Ez).
      destruct (trim_right_space (x :: w)) as [|y r] eqn:Et.
      - exfalso. cbn [app] in Ez. apply Hn. unfold trim_space. rewrite Tl. exact Et.
      - cbn [app] in Ez. inversion Ez; subst. eauto. }
    rewrite Er in F. inversion F; subst. lia. }
  rewrite not_dict, not_arr by (apply Hc; auto).
  rewrite !andb_false_r. destruct (atoi (c0 :: s0)) as [n|e| |] eqn:A; auto.
  apply atoi_chars in A. destruct A as (_ & A). rewrite Forall_forall in A. apply A in Sp. lia.
Qed.
