From Coq Require Import String List ZArith Lia Bool.
From Verif Require Import Base BaseProofs Props PropsFlat PropsWrite PropsRead PropsNorm PropsStable PropsRefs PropsSpec.
Open Scope Z_scope.
Open Scope list_scope.

Lemma is_ascii_ascii : forall s, is_ascii s -> Forall ascii s.
Proof. intros s F. eapply Forall_impl; [|exact F]. intros a H. unfold ascii. cbn beta in H. lia. Qed.

Lemma lone_free_intro : forall s, no_lone_angle s -> lone_free s = true.
Proof.
  induction s as [|c s IH]; intros H; [reflexivity|]. cbn [lone_free].
  rewrite IH.
  2:{ intros a w1 x w2 b E. apply (H (c :: a) w1 x w2 b). subst. reflexivity. }
  rewrite andb_true_r. apply negb_true_iff. destruct (is_ws4 c) eqn:E; auto. cbn [andb].
  destruct s as [|x [|w s]]; auto. cbn [lone]. destruct (is_ws4 w) eqn:W; [|apply andb_false_r].
  destruct (H [] c x w s eq_refl) as [H1 H2]; unfold white, is_ws4 in *; lia.
Qed.

Lemma read_dict_part : forall raw ps, readProperties raw = Ok ps -> exists d, dict_part raw d.
Proof.
  intros raw ps H. unfold readProperties, dict_part in *.
  set (tmp0 := match index stream_kw raw with Some n => firstn n raw | None => raw end) in *.
  destruct (index (B"<<") tmp0) as [s|] eqn:I1; [|discriminate].
  destruct (last_index (B">>") tmp0) as [e|] eqn:I2; [|discriminate].
  destruct (e <? s)%nat; [discriminate|].
  destruct (slice raw (Z.of_nat s + 2) (Z.of_nat e)) as [d| | |] eqn:Sl; cbn [bind] in H; try discriminate.
  exists d, s, e. cbv zeta. auto.
Qed.

Lemma dict_part_head : forall raw head d, before_stream raw head -> dict_part raw d -> exists a b, head = a ++ d ++ b.
Proof.
  intros raw head d BS (s & e & I1 & I2 & Sl). cbv zeta in *.
  destruct (slice_split _ _ _ _ Sl) as (r1 & r2 & E & L1 & L2).
  assert (Hh : match index stream_kw raw with Some n => firstn n raw | None => raw end = head).
  { destruct BS as [[-> N]|(rest & E1 & N)].
    - destruct (index stream_kw head) as [n|] eqn:I; auto. apply index_some in I.
      destruct I as [(a & b & E2 & _) _]. exfalso. apply (N a b). exact E2.
    - assert (I : index stream_kw raw = Some (List.length head)).
      { apply index_intro.
        - exists head, rest. auto.
        - intros m Hm (a & b & E2 & La). apply N in E2. lia. }
      rewrite I, E1, firstn_app, firstn_all, Nat.sub_diag. cbn. apply app_nil_r. }
  rewrite Hh in *. apply last_index_some in I2. destruct I2 as (p & q & E2 & Lp).
  assert (P : exists h2, raw = head ++ h2).
  { destruct BS as [[-> _]|(rest & -> & _)]; [exists []; now rewrite app_nil_r|eauto]. }
  destruct P as [h2 P].
  assert (Len : (List.length (r1 ++ d) <= List.length head)%nat).
  { rewrite E2, !app_length. unfold blen in *. lia. }
  exists r1, (skipn (List.length (r1 ++ d)) head).
  rewrite app_assoc. rewrite <- (firstn_skipn (List.length (r1 ++ d)) head) at 1. f_equal.
  assert (F1 : firstn (List.length (r1 ++ d)) raw = r1 ++ d).
  { rewrite E, app_assoc, firstn_app, firstn_all, Nat.sub_diag. cbn. apply app_nil_r. }
  rewrite P, firstn_app in F1. replace (List.length (r1 ++ d) - List.length head)%nat with 0%nat in F1 by lia.
  cbn in F1. rewrite app_nil_r in F1. exact F1.
Qed.

Theorem rewrite_keeps : forall raw head ps, before_stream raw head -> is_ascii head -> no_lone_angle head ->
  readProperties raw = Ok ps -> readProperties (setProperties ps) = Ok ps.
Proof.
  intros raw head ps BS A L R. destruct (read_dict_part raw ps R) as [d D].
  destruct (dict_part_head raw head d BS D) as (a & b & E).
  apply (rewrite_stable raw d); auto.
  - apply is_ascii_ascii in A. rewrite E in A. apply Forall_app in A. destruct A as [_ A].
    apply Forall_app in A. tauto.
  - apply lone_free_intro in L. rewrite E in L. apply lone_free_suffix in L. eapply lone_free_prefix; eauto.
Qed.

(** Looking one key up gives the same answer before and after. *)
Theorem rewrite_lookup : forall raw head ps k, before_stream raw head -> is_ascii head -> no_lone_angle head ->
  readProperties raw = Ok ps -> readProperty (setProperties ps) k = readProperty raw k.
Proof.
  intros raw head ps k BS A L R. unfold readProperty. rewrite R.
  rewrite (rewrite_keeps raw head ps) by auto. reflexivity.
Qed.

Lemma is_int_in : forall n, is_int n -> in_int n.
Proof. intros n H. unfold is_int, in_int, int64_min, int64_max in *. lia. Qed.

Theorem ref_roundtrip : forall id, is_int id -> readObjID (refText id) = Ok id.
Proof. intros. apply readObjID_ref, is_int_in. auto. Qed.

Theorem refs_roundtrip : forall ids, ids <> [] -> Forall is_int ids -> readObjIDs (refArrText ids) = Ok ids.
Proof.
  intros ids H F. apply readObjIDs_refArr; auto. eapply Forall_impl; [|exact F]. exact is_int_in.
Qed.

(** Ten-digit padded numbers of the cross-reference table. *)
Theorem padded_roundtrip : forall n w, 0 <= n < 2 ^ 63 -> (0 < w)%nat -> atoi (pad0 w (utoa n)) = Ok n.
Proof.
  intros n w H Hw. unfold atoi.
  assert (D : Forall (fun c => 48 <= c <= 57) (pad0 w (utoa n))).
  { unfold pad0. apply Forall_app. split; [|apply utoa_Forall; lia].
    apply Forall_forall. intros c Hc. apply repeat_spec in Hc. lia. }
  assert (Nn : pad0 w (utoa n) <> []).
  { unfold pad0. pose proof (utoa_nonnil n). destruct (utoa n); [congruence|]. destruct (repeat 48 _); discriminate. }
  assert (At : atou (pad0 w (utoa n)) = Some n).
  { unfold atou. destruct (pad0 w (utoa n)) eqn:E; [congruence|]. rewrite <- E.
    rewrite pad0_digits, dec_value_pad0, utoa_value by lia. reflexivity. }
  destruct (pad0 w (utoa n)) as [|c t] eqn:E; [congruence|]. inversion D; subst.
  destruct (Z.eqb_spec c 43); [lia|]. destruct (Z.eqb_spec c 45); [lia|].
  rewrite At. replace ((int64_min <=? n) && (n <=? int64_max)) with true; auto.
  unfold int64_min, int64_max. lia.
Qed.

Theorem decimal_roundtrip : forall n, is_int n -> atoi (itoa n) = Ok n.
Proof. intros. apply atoi_itoa. apply is_int_in. auto. Qed.

(** Numbers from 0 up are printed with digits only and no leading zero. *)
Lemma digits_head : forall f n acc, 0 < n -> Z.log2 n < Z.of_nat f -> exists c t, digits f n acc = c :: t /\ 49 <= c <= 57.
Proof.
  induction f as [|f IH]; intros n acc H L.
  - pose proof (Z.log2_nonneg n). lia.
  - cbn [digits]. destruct (Z.ltb_spec n 10).
    + exists (48 + n), acc. split; auto. lia.
    + apply IH; [apply Z.div_str_pos; lia|].
      assert (Z.log2 (n / 10) < Z.log2 n); [|lia].
      apply Z.log2_lt_pow2; [apply Z.div_str_pos; lia|].
      pose proof (Z.log2_spec n ltac:(lia)) as [_ S]. rewrite Z.pow_succ_r in S by apply Z.log2_nonneg.
      apply Z.div_lt_upper_bound; lia.
Qed.

Theorem no_leading_zero : forall n, 0 <= n ->
  Forall (fun c => 48 <= c <= 57) (itoa n) /\ (forall t, itoa n = 48 :: t -> n = 0 /\ t = []).
Proof.
  intros n H. rewrite itoa_nonneg by auto. split; [apply utoa_Forall; auto|].
  intros t E. destruct (Z.eq_dec n 0) as [->|Hn].
  - cbn in E. inversion E. auto.
  - unfold utoa in E. destruct (digits_head (S (Z.to_nat (Z.log2 n))) n []) as (c & u & D & Hc); [lia| |].
    + pose proof (Z.log2_nonneg n). lia.
    + rewrite D in E. inversion E. lia.
Qed.

Lemma before_stream_index : forall raw n, index stream_kw raw = Some n -> before_stream raw (firstn n raw).
Proof.
  intros raw n H. apply index_some in H. destruct H as [(a & b & E & L) M]. right. exists b. split.
  - rewrite E at 2. rewrite E at 1. subst n. rewrite firstn_app, firstn_all, Nat.sub_diag. cbn [firstn].
    rewrite app_nil_r. reflexivity.
  - intros a' b' E'. destruct (Nat.leb_spec (List.length (firstn n raw)) (List.length a')) as [|Hl]; auto.
    exfalso. apply (M (List.length a')); [|exists a', b'; auto].
    pose proof (firstn_le_length n raw). lia.
Qed.
