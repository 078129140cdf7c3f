(** Lemmas about the string functions of Base.v. *)
From Coq Require Import String Ascii List ZArith Lia Bool.
From Verif Require Import Base.
Open Scope Z_scope.
Open Scope list_scope.

Ltac Zify.zify_post_hook ::= Z.div_mod_to_equations.

(** ** Equality and prefixes *)
Lemma beqb_eq : forall a b, beqb a b = true <-> a = b.
Proof.
  induction a as [|x a IH]; destruct b as [|y b]; simpl; try (split; congruence).
  rewrite andb_true_iff, Z.eqb_eq, IH. split; [intros [-> ->]; auto | intros H; inversion H; auto].
Qed.

Lemma beqb_refl : forall a, beqb a a = true.
Proof. intros; apply beqb_eq; auto. Qed.

Lemma beqb_neq : forall a b, beqb a b = false <-> a <> b.
Proof.
  intros. destruct (beqb a b) eqn:E.
  - apply beqb_eq in E. split; congruence.
  - split; auto. intros _ ->. rewrite beqb_refl in E. discriminate.
Qed.

Lemma beqb_spec : forall a b, reflect (a = b) (beqb a b).
Proof.
  intros. destruct (beqb a b) eqn:E; constructor.
  - now apply beqb_eq.
  - now apply beqb_neq.
Qed.

Lemma bytes_eq_dec : forall a b : bytes, {a = b} + {a <> b}.
Proof. apply list_eq_dec, Z.eq_dec. Defined.

Lemma prefixb_spec : forall p s, prefixb p s = true <-> exists t, s = p ++ t.
Proof.
  induction p as [|x p IH]; simpl; intros s.
  - split; eauto.
  - destruct s as [|y s].
    + split; [discriminate | intros [t H]; discriminate].
    + rewrite andb_true_iff, Z.eqb_eq, IH. split.
      * intros [-> [t ->]]. eauto.
      * intros [t H]. inversion H; subst. eauto.
Qed.

Lemma prefixb_app : forall p t, prefixb p (p ++ t) = true.
Proof. intros. apply prefixb_spec. eauto. Qed.

Lemma prefixb_false_cons : forall x p y s, x <> y -> prefixb (x :: p) (y :: s) = false.
Proof. intros. simpl. destruct (Z.eqb_spec x y); [congruence | reflexivity]. Qed.

(** ** Occurrences *)

(** [occ p s n]: pattern [p] occurs in [s] at offset [n]. *)
Definition occ (p s : bytes) (n : nat) : Prop := exists a b, s = a ++ p ++ b /\ List.length a = n.

Lemma occ_cons : forall p x s n, occ p (x :: s) (S n) <-> occ p s n.
Proof.
  intros. split.
  - intros ([|y a] & b & H & L); simpl in *; [discriminate|]. inversion H; subst. exists a, b. auto.
  - intros (a & b & -> & L). exists (x :: a), b. simpl. auto.
Qed.

Lemma occ_0 : forall p s, occ p s 0 <-> prefixb p s = true.
Proof.
  intros. rewrite prefixb_spec. split.
  - intros (a & b & H & L). destruct a; [|discriminate]. exists b. auto.
  - intros [t ->]. exists [], t. auto.
Qed.

Lemma index_spec : forall p s,
  match index p s with
  | Some n => occ p s n /\ forall m, (m < n)%nat -> ~ occ p s m
  | None => forall m, ~ occ p s m
  end.
Proof.
  induction s as [|x s IH].
  - simpl. destruct (prefixb p []) eqn:E.
    + split; [apply occ_0; auto | lia].
    + intros m (a & b & H & L). destruct a; [|discriminate]. simpl in H.
      assert (prefixb p [] = true) by (rewrite prefixb_spec; exists b; auto). congruence.
  - simpl. destruct (prefixb p (x :: s)) eqn:E.
    + split; [apply occ_0; auto | lia].
    + destruct (index p s) as [n|] eqn:En; simpl.
      * destruct IH as [IH1 IH2]. split; [now apply occ_cons|].
        intros [|m] Hm; [rewrite occ_0; congruence|]. rewrite occ_cons. apply IH2. lia.
      * intros [|m]; [rewrite occ_0; congruence|]. rewrite occ_cons. apply IH.
Qed.

Lemma index_some : forall p s n, index p s = Some n ->
  occ p s n /\ forall m, (m < n)%nat -> ~ occ p s m.
Proof. intros. pose proof (index_spec p s) as H1. rewrite H in H1. auto. Qed.

Lemma index_none : forall p s, index p s = None <-> forall m, ~ occ p s m.
Proof.
  intros. pose proof (index_spec p s) as H1. destruct (index p s) as [n|]; split; auto.
  - discriminate.
  - intros H. destruct H1 as [H1 _]. exfalso. eapply H; eauto.
Qed.

Lemma index_intro : forall p s n, occ p s n -> (forall m, (m < n)%nat -> ~ occ p s m) ->
  index p s = Some n.
Proof.
  intros. pose proof (index_spec p s) as H1. destruct (index p s) as [k|].
  - destruct H1 as [H1 H2]. f_equal.
    destruct (Nat.lt_trichotomy k n) as [L|[L|L]]; auto.
    + exfalso. eapply H0; eauto.
    + exfalso. eapply H2; eauto.
  - exfalso. eapply H1; eauto.
Qed.

Lemma last_index_spec : forall p s,
  match last_index p s with
  | Some n => occ p s n /\ forall m, (m > n)%nat -> ~ occ p s m
  | None => forall m, ~ occ p s m
  end.
Proof.
  induction s as [|x s IH].
  - simpl. destruct (prefixb p []) eqn:E.
    + split; [apply occ_0; auto|]. intros m Hm (a & b & H & L).
      symmetry in H. apply app_eq_nil in H. destruct H; subst. simpl in *. lia.
    + intros m (a & b & H & L). destruct a; [|discriminate]. simpl in H.
      assert (prefixb p [] = true) by (rewrite prefixb_spec; exists b; auto). congruence.
  - simpl. destruct (last_index p s) as [n|] eqn:En.
    + destruct IH as [IH1 IH2]. split; [now apply occ_cons|].
      intros [|m] Hm; [lia|]. rewrite occ_cons. apply IH2. lia.
    + destruct (prefixb p (x :: s)) eqn:E.
      * split; [apply occ_0; auto|]. intros [|m] Hm; [lia|]. rewrite occ_cons. apply IH.
      * intros [|m]; [rewrite occ_0; congruence|]. rewrite occ_cons. apply IH.
Qed.

Lemma last_index_intro : forall p s n, occ p s n -> (forall m, (m > n)%nat -> ~ occ p s m) ->
  last_index p s = Some n.
Proof.
  intros. pose proof (last_index_spec p s) as H1. destruct (last_index p s) as [k|].
  - destruct H1 as [H1 H2]. f_equal.
    destruct (Nat.lt_trichotomy k n) as [L|[L|L]]; auto.
    + exfalso. eapply H2; eauto.
    + exfalso. eapply H0; eauto.
  - exfalso. eapply H1; eauto.
Qed.

Lemma last_index_some : forall p s n, last_index p s = Some n -> occ p s n.
Proof. intros. pose proof (last_index_spec p s) as H1. rewrite H in H1. tauto. Qed.

Lemma last_index_none : forall p s, last_index p s = None -> forall m, ~ occ p s m.
Proof. intros. pose proof (last_index_spec p s) as H1. rewrite H in H1. auto. Qed.

Definition no_occ (p s : bytes) : Prop := forall n, ~ occ p s n.

Lemma contains_false : forall p s, contains p s = false <-> no_occ p s.
Proof.
  intros. unfold contains, no_occ. pose proof (index_none p s) as H.
  destruct (index p s); split; try tauto; try discriminate.
  intros Hn. exfalso. apply H in Hn. discriminate.
Qed.

Lemma contains_true : forall p s, contains p s = true <-> exists n, occ p s n.
Proof.
  intros. unfold contains. pose proof (index_spec p s) as H.
  destruct (index p s) as [k|]; split; try discriminate; auto.
  - destruct H. eauto.
  - intros [n Hn]. exfalso. eapply H; eauto.
Qed.

Lemma occ_len : forall p s n, occ p s n -> (n + List.length p <= List.length s)%nat.
Proof. intros p s n (a & b & -> & <-). rewrite !app_length. lia. Qed.

Lemma occ_skip : forall p a s n, occ p (a ++ s) (List.length a + n) <-> occ p s n.
Proof. induction a; simpl; intros; [reflexivity|]. rewrite occ_cons. auto. Qed.

Lemma occ_app_l : forall p a b n, occ p a n -> occ p (a ++ b) n.
Proof. intros p a b n (x & y & -> & L). exists x, (y ++ b). rewrite <- !app_assoc. auto. Qed.

Lemma occ_nth : forall p s n, occ p s n <-> firstn (List.length p) (skipn n s) = p /\ (n <= List.length s)%nat.
Proof.
  intros. split.
  - intros (a & b & -> & <-). rewrite skipn_app, skipn_all, Nat.sub_diag. simpl.
    rewrite firstn_app, Nat.sub_diag, firstn_all. simpl. rewrite !app_nil_r. split; auto.
    rewrite app_length; lia.
  - intros [H L]. exists (firstn n s), (skipn (List.length p) (skipn n s)).
    rewrite <- H at 1. rewrite firstn_skipn, firstn_skipn. split; auto. apply firstn_length_le; auto.
Qed.

(** An occurrence inside [a] and past the end of [a]. *)
Lemma occ_app : forall p a b n, occ p (a ++ b) n ->
  occ p a n \/ (exists m, n = (List.length a + m)%nat /\ occ p b m) \/
  ((n < List.length a)%nat /\ (List.length a < n + List.length p)%nat).
Proof.
  intros p a b n H.
  destruct (le_lt_dec (List.length a) n) as [L|L].
  - right; left. exists (n - List.length a)%nat. split; [lia|].
    apply (occ_skip p a). replace (List.length a + (n - List.length a))%nat with n by lia. auto.
  - destruct (le_lt_dec (n + List.length p) (List.length a)) as [L2|L2]; [left | right; right; lia].
    rewrite occ_nth in *. destruct H as [H _]. split; [|lia].
    rewrite skipn_app in H. rewrite firstn_app in H.
    rewrite skipn_length in H.
    replace (List.length p - (List.length a - n))%nat with 0%nat in H by lia.
    simpl in H. now rewrite app_nil_r in H.
Qed.

(** If the first byte of [p] does not occur in [a], there is no occurrence that starts in [a]. *)
Lemma no_occ_start : forall x p a b n, Forall (fun c => c <> x) a -> (n < List.length a)%nat ->
  ~ occ (x :: p) (a ++ b) n.
Proof.
  intros x p a b n F L (u & v & H & Lu). subst n.
  assert (nth_error (a ++ b) (List.length u) = Some x).
  { rewrite H. rewrite nth_error_app2 by lia. rewrite Nat.sub_diag. reflexivity. }
  rewrite nth_error_app1 in H0 by lia. apply nth_error_In in H0.
  rewrite Forall_forall in F. apply F in H0. congruence.
Qed.

Lemma occ_in_all : forall p s n x, occ p s n -> In x p -> In x s.
Proof. intros p s n x (a & b & -> & _) H. rewrite !in_app_iff. auto. Qed.

(** ** Slices *)
Lemma slice_ok : forall s i j t, slice s i j = Ok t ->
  0 <= i <= j /\ j <= blen s /\ t = firstn (Z.to_nat (j - i)) (skipn (Z.to_nat i) s).
Proof.
  intros s i j t H. unfold slice in H.
  destruct ((0 <=? i) && (i <=? j) && (j <=? blen s)) eqn:E; [|discriminate].
  inversion H. repeat split; lia.
Qed.

Lemma skipn_add : forall (A : Type) n m (l : list A), skipn n (skipn m l) = skipn (m + n) l.
Proof.
  intros A n m l. revert l. induction m as [|m IH]; intros l; [reflexivity|].
  destruct l as [|x l]; [destruct n; reflexivity|]. exact (IH l).
Qed.

Lemma slice_split : forall s i j t, slice s i j = Ok t ->
  exists a c, s = a ++ t ++ c /\ blen a = i /\ blen a + blen t = j.
Proof.
  intros s i j t H. apply slice_ok in H. destruct H as (H1 & H2 & ->). unfold blen in *.
  exists (firstn (Z.to_nat i) s), (skipn (Z.to_nat j) s). split; [|split].
  - rewrite <- (firstn_skipn (Z.to_nat i) s) at 1. f_equal.
    rewrite <- (firstn_skipn (Z.to_nat (j - i)) (skipn (Z.to_nat i) s)) at 1. f_equal.
    rewrite skipn_add. f_equal. lia.
  - rewrite firstn_length_le by lia. lia.
  - rewrite !firstn_length_le; rewrite ?skipn_length; lia.
Qed.

Lemma slice_app : forall a b c i j, i = blen a -> j = blen a + blen b ->
  slice (a ++ b ++ c) i j = Ok b.
Proof.
  intros a b c i j -> ->. unfold slice, blen. rewrite !app_length.
  replace ((0 <=? Z.of_nat (List.length a)) && _ && _) with true by lia.
  f_equal. rewrite Nat2Z.id, skipn_app, skipn_all, Nat.sub_diag. simpl.
  replace (Z.to_nat _) with (List.length b) by lia.
  rewrite firstn_app, Nat.sub_diag, firstn_all. simpl. apply app_nil_r.
Qed.

Lemma blen_app : forall a b, blen (a ++ b) = blen a + blen b.
Proof. intros. unfold blen. rewrite app_length. lia. Qed.

Lemma blen_cons : forall x a, blen (x :: a) = 1 + blen a.
Proof. intros. unfold blen. simpl List.length. lia. Qed.

Lemma blen_nonneg : forall a, 0 <= blen a.
Proof. intros. unfold blen. lia. Qed.

(** ** Decimal numbers *)
Lemma digits_app : forall f n acc, digits f n acc = digits f n [] ++ acc.
Proof.
  induction f; simpl; intros; auto.
  destruct (n <? 10); auto. rewrite IHf, (IHf (n / 10) [_]). rewrite <- app_assoc. auto.
Qed.

Lemma dec_value_app : forall a b v, dec_value v (a ++ b) = dec_value (dec_value v a) b.
Proof. induction a; simpl; intros; auto. Qed.

Lemma digits_value : forall f n, 0 <= n < 2 ^ Z.of_nat f -> dec_value 0 (digits f n []) = n.
Proof.
  induction f; intros n H.
  - simpl in *. lia.
  - cbn [digits]. destruct (Z.ltb_spec n 10).
    + cbn [dec_value]. lia.
    + rewrite digits_app, dec_value_app, IHf.
      * cbn [dec_value]. lia.
      * rewrite Nat2Z.inj_succ, Z.pow_succ_r in H by lia. lia.
Qed.

Lemma digits_all : forall f n, 0 <= n < 2 ^ Z.of_nat f -> forallb is_digit (digits f n []) = true.
Proof.
  induction f; intros n H; [reflexivity|].
  cbn [digits]. destruct (Z.ltb_spec n 10).
  - cbn [forallb]. unfold is_digit. lia.
  - rewrite digits_app, forallb_app, IHf.
    + cbn [forallb]. unfold is_digit. lia.
    + rewrite Nat2Z.inj_succ, Z.pow_succ_r in H by lia. lia.
Qed.

Lemma digits_nonnil : forall f n acc, digits (S f) n acc <> [].
Proof.
  intros. rewrite digits_app. cbn [digits]. destruct (n <? 10); [discriminate|].
  rewrite digits_app. destruct (digits f (n / 10) []); discriminate.
Qed.

Lemma log2_bound : forall n, 0 <= n -> n < 2 ^ Z.of_nat (S (Z.to_nat (Z.log2 n))).
Proof.
  intros. rewrite Nat2Z.inj_succ, Z2Nat.id by apply Z.log2_nonneg.
  destruct (Z.eq_dec n 0) as [->|]; [reflexivity|]. apply Z.log2_spec. lia.
Qed.

Lemma utoa_value : forall n, 0 <= n -> dec_value 0 (utoa n) = n.
Proof. intros. apply digits_value. pose proof (log2_bound n H). lia. Qed.

Lemma utoa_digits : forall n, 0 <= n -> forallb is_digit (utoa n) = true.
Proof. intros. apply digits_all. pose proof (log2_bound n H). lia. Qed.

Lemma utoa_nonnil : forall n, utoa n <> [].
Proof. intros. apply digits_nonnil. Qed.

Lemma atou_utoa : forall n, 0 <= n -> atou (utoa n) = Some n.
Proof.
  intros. unfold atou. pose proof (utoa_nonnil n). destruct (utoa n) eqn:E; [congruence|].
  rewrite <- E, utoa_digits, utoa_value by auto. auto.
Qed.

Lemma utoa_Forall : forall n, 0 <= n -> Forall (fun c => 48 <= c <= 57) (utoa n).
Proof.
  intros. apply Forall_forall. intros c Hc. pose proof (utoa_digits n H) as D.
  rewrite forallb_forall in D. apply D in Hc. unfold is_digit in Hc. lia.
Qed.

Lemma atoi_itoa : forall n, int64_min <= n <= int64_max -> atoi (itoa n) = Ok n.
Proof.
  intros n H. unfold itoa. destruct (Z.ltb_spec n 0).
  - unfold atoi. replace (45 =? 43) with false by reflexivity. replace (45 =? 45) with true by reflexivity.
    cbn iota beta. rewrite atou_utoa by lia.
    replace (- - n) with n by lia.
    destruct ((int64_min <=? n) && (n <=? int64_max)) eqn:E; auto. lia.
  - pose proof (utoa_nonnil n) as Hn. pose proof (utoa_Forall n ltac:(lia)) as F.
    pose proof (atou_utoa n ltac:(lia)) as A.
    unfold atoi. destruct (utoa n) as [|c s] eqn:E; [congruence|].
    inversion F; subst.
    destruct (Z.eqb_spec c 43); [lia|]. destruct (Z.eqb_spec c 45); [lia|].
    rewrite A. destruct ((int64_min <=? n) && (n <=? int64_max)) eqn:E2; auto. lia.
Qed.

Lemma digits_len : forall f n k, 0 <= n < 10 ^ Z.of_nat (S k) ->
  (List.length (digits f n []) <= S k)%nat.
Proof.
  induction f; intros n k H; [simpl; lia|].
  cbn [digits]. destruct (Z.ltb_spec n 10); [simpl; lia|].
  rewrite digits_app, app_length. cbn [List.length].
  destruct k.
  - change (10 ^ Z.of_nat 1) with 10 in H. lia.
  - specialize (IHf (n / 10) k). rewrite (Nat2Z.inj_succ (S k)), Z.pow_succ_r in H by lia. lia.
Qed.

Lemma utoa_len : forall n k, (0 < k)%nat -> 0 <= n < 10 ^ Z.of_nat k -> (List.length (utoa n) <= k)%nat.
Proof. intros. destruct k; [lia|]. apply digits_len. auto. Qed.

Lemma itoa_nonneg : forall n, 0 <= n -> itoa n = utoa n.
Proof. intros. unfold itoa. destruct (Z.ltb_spec n 0); [lia|auto]. Qed.

Lemma utoa_inj : forall a b, 0 <= a -> 0 <= b -> utoa a = utoa b -> a = b.
Proof. intros. rewrite <- (utoa_value a), <- (utoa_value b) by auto. congruence. Qed.

Lemma pad0_len : forall w s, (List.length s <= w)%nat -> List.length (pad0 w s) = w.
Proof. intros. unfold pad0. rewrite app_length, repeat_length. lia. Qed.

Lemma dec_value_zeros : forall k s, dec_value 0 (repeat 48 k ++ s) = dec_value 0 s.
Proof. induction k; simpl; intros; auto. Qed.

Lemma dec_value_pad0 : forall w s, dec_value 0 (pad0 w s) = dec_value 0 s.
Proof. intros. apply dec_value_zeros. Qed.

Lemma pad0_digits : forall w n, 0 <= n -> forallb is_digit (pad0 w (utoa n)) = true.
Proof.
  intros. unfold pad0. rewrite forallb_app, utoa_digits by auto. rewrite andb_true_r.
  apply forallb_forall. intros x Hx. apply repeat_spec in Hx. subst. reflexivity.
Qed.

(** ** White space *)
Definition ascii (c : Z) : Prop := 0 <= c < 128.

Lemma space_len_cons : forall c s, ascii c -> is_space1 c = false -> space_len (c :: s) = 0%nat.
Proof.
  intros c s A H. unfold space_len. rewrite H. destruct s as [|d s]; auto.
  assert (is_space2 c d = false) as -> by (unfold is_space2, ascii in *; lia).
  destruct s as [|e s]; auto.
  assert (is_space3 c d e = false) as -> by (unfold is_space3, ascii in *; lia). auto.
Qed.

Lemma rspace_len_cons : forall c s, ascii c -> is_space1 c = false -> rspace_len (c :: s) = 0%nat.
Proof.
  intros c s A H. unfold rspace_len. rewrite H. destruct s as [|d s]; auto.
  assert (is_space2 d c = false) as -> by (unfold is_space2, ascii in *; lia).
  destruct s as [|e s]; auto.
  assert (is_space3 e d c = false) as -> by (unfold is_space3, ascii in *; lia). auto.
Qed.

Lemma drop_runs_0 : forall len f s, len s = 0%nat -> drop_runs len f s = s.
Proof. destruct f; simpl; intros; auto. rewrite H. auto. Qed.

Lemma space_len_space : forall c s, is_space1 c = true -> space_len (c :: s) = 1%nat.
Proof. intros. unfold space_len. rewrite H. auto. Qed.

Lemma rspace_len_space : forall c s, is_space1 c = true -> rspace_len (c :: s) = 1%nat.
Proof. intros. unfold rspace_len. rewrite H. auto. Qed.

Lemma space_len_le : forall s, (space_len s <= List.length s)%nat.
Proof.
  intros [|c [|d [|e s]]]; simpl; repeat match goal with |- context [if ?b then _ else _] => destruct b end; simpl; lia.
Qed.
Lemma rspace_len_le : forall s, (rspace_len s <= List.length s)%nat.
Proof.
  intros [|c [|d [|e s]]]; simpl; repeat match goal with |- context [if ?b then _ else _] => destruct b end; simpl; lia.
Qed.

(** drop_runs does not depend on the fuel once it is at least the length. *)
Lemma drop_runs_fuel : forall len, (forall s, (len s <= List.length s)%nat) ->
  forall f s, (List.length s <= f)%nat -> forall g, (List.length s <= g)%nat ->
  drop_runs len f s = drop_runs len g s.
Proof.
  intros len Hl. induction f; intros s Hf g Hg.
  - assert (len s = 0%nat) by (specialize (Hl s); lia). rewrite !drop_runs_0; auto.
  - destruct (len s) eqn:E.
    + rewrite !drop_runs_0; auto.
    + destruct g; [specialize (Hl s); lia|]. cbn [drop_runs]. rewrite E.
      specialize (Hl s).
      apply IHf; rewrite skipn_length; lia.
Qed.

Lemma drop_runs_len0 : forall len, (forall s, (len s <= List.length s)%nat) ->
  forall f s, (List.length s <= f)%nat -> len (drop_runs len f s) = 0%nat.
Proof.
  intros len Hl. induction f; intros s Hf; cbn [drop_runs].
  - specialize (Hl s). lia.
  - destruct (len s) eqn:E; auto. apply IHf. rewrite skipn_length. lia.
Qed.

Lemma drop_runs_suffix : forall len f s, exists a, s = a ++ drop_runs len f s.
Proof.
  induction f; intros s; cbn [drop_runs].
  - exists []. auto.
  - destruct (len s) eqn:E; [exists []; auto|].
    destruct (IHf (skipn (S n) s)) as [a Ha].
    exists (firstn (S n) s ++ a). rewrite <- app_assoc, <- Ha. symmetry. apply firstn_skipn.
Qed.

Lemma trim_left_cons_space : forall c s, is_space1 c = true ->
  trim_left_space (c :: s) = trim_left_space s.
Proof.
  intros. unfold trim_left_space. cbn [List.length drop_runs].
  rewrite space_len_space by auto. reflexivity.
Qed.

Lemma trim_left_spaces : forall a s, forallb is_space1 a = true ->
  trim_left_space (a ++ s) = trim_left_space s.
Proof.
  induction a as [|x a IH]; intros s H; [reflexivity|].
  cbn [forallb] in H. apply andb_true_iff in H. destruct H.
  cbn [app]. rewrite trim_left_cons_space; auto.
Qed.

Lemma trim_left_id : forall s, space_len s = 0%nat -> trim_left_space s = s.
Proof. intros. apply drop_runs_0. auto. Qed.

Lemma trim_right_snoc_space : forall c s, is_space1 c = true ->
  trim_right_space (s ++ [c]) = trim_right_space s.
Proof.
  intros. unfold trim_right_space. rewrite rev_app_distr. cbn [rev app].
  rewrite app_length, Nat.add_1_r. cbn [drop_runs].
  rewrite rspace_len_space by auto. reflexivity.
Qed.

Lemma trim_right_spaces : forall a s, forallb is_space1 a = true ->
  trim_right_space (s ++ a) = trim_right_space s.
Proof.
  induction a as [|x a IH] using rev_ind; intros s H; [now rewrite app_nil_r|].
  rewrite forallb_app in H. apply andb_true_iff in H. destruct H as [H1 H2]. cbn in H2.
  rewrite andb_true_r in H2.
  rewrite app_assoc, trim_right_snoc_space; auto.
Qed.

Lemma trim_right_id : forall s, rspace_len (rev s) = 0%nat -> trim_right_space s = s.
Proof. intros. unfold trim_right_space. rewrite drop_runs_0 by auto. apply rev_involutive. Qed.

(** [trimmed s]: TrimSpace leaves [s] alone. *)
Definition trimmed (s : bytes) : Prop := space_len s = 0%nat /\ rspace_len (rev s) = 0%nat.

Lemma trim_space_id : forall s, trimmed s -> trim_space s = s.
Proof. intros s [H1 H2]. unfold trim_space. rewrite trim_left_id, trim_right_id; auto. Qed.

Lemma trim_space_pad : forall a s b, forallb is_space1 a = true -> forallb is_space1 b = true ->
  trimmed s -> trim_space (a ++ s ++ b) = s.
Proof.
  intros a s b Ha Hb [H1 H2]. unfold trim_space.
  rewrite trim_left_spaces by auto.
  destruct s as [|x s].
  - cbn [app]. rewrite <- (app_nil_r b), trim_left_spaces by auto. reflexivity.
  - assert (trim_left_space ((x :: s) ++ b) = (x :: s) ++ b) as ->.
    { apply trim_left_id. destruct s as [|d [|e s]]; cbn [app]; auto.
      - destruct b as [|d b]; auto.
        cbn in Hb. apply andb_true_iff in Hb. destruct Hb as [Hd Hb].
        unfold space_len in *. destruct (is_space1 x); [discriminate|].
        assert (is_space2 x d = false) as -> by (unfold is_space2, is_space1 in *; lia).
        destruct b as [|e b]; auto.
        assert (is_space3 x d e = false) as -> by (unfold is_space3, is_space1 in *; lia). auto.
      - destruct b as [|e b]; auto.
        cbn in Hb. apply andb_true_iff in Hb. destruct Hb as [Hd Hb].
        unfold space_len in *. destruct (is_space1 x); [discriminate|].
        destruct (is_space2 x d); [discriminate|].
        assert (is_space3 x d e = false) as -> by (unfold is_space3, is_space1 in *; lia). auto. }
    rewrite trim_right_spaces by auto. apply trim_right_id. auto.
Qed.

Lemma trimmed_ascii : forall x s y, ascii x -> is_space1 x = false -> ascii y -> is_space1 y = false ->
  trimmed (x :: s ++ [y]).
Proof.
  intros. split.
  - apply space_len_cons; auto.
  - change (x :: s ++ [y]) with ((x :: s) ++ [y]). rewrite rev_app_distr. apply rspace_len_cons; auto.
Qed.

Lemma trimmed_one : forall x, ascii x -> is_space1 x = false -> trimmed [x].
Proof. intros. split; [apply space_len_cons | apply rspace_len_cons]; auto. Qed.

(** The result of TrimSpace is trimmed. *)
Lemma trim_space_trimmed : forall s, trimmed (trim_space s).
Proof.
  intros s. unfold trim_space. set (t := trim_left_space s).
  assert (Ht : space_len t = 0%nat) by (apply (drop_runs_len0 _ space_len_le); lia).
  unfold trim_right_space. set (u := drop_runs rspace_len (List.length t) (rev t)).
  assert (Hu : rspace_len u = 0%nat).
  { apply (drop_runs_len0 _ rspace_len_le). rewrite rev_length; lia. }
  split; [|rewrite rev_involutive; auto].
  destruct (drop_runs_suffix rspace_len (List.length t) (rev t)) as [a Ha]. fold u in Ha.
  assert (E : t = rev u ++ rev a) by (rewrite <- rev_app_distr, <- Ha, rev_involutive; auto).
  clearbody u. rewrite E in Ht. clear -Ht.
  destruct (rev u) as [|x [|y [|z w]]]; auto.
  - unfold space_len in *. cbn [app] in Ht.
    destruct (is_space1 x); [discriminate|]. auto.
  - unfold space_len in *. cbn [app] in Ht.
    destruct (is_space1 x); [discriminate|]. destruct (is_space2 x y); [discriminate|]. auto.
Qed.

Lemma trim_space_idem : forall s, trim_space (trim_space s) = trim_space s.
Proof. intros. apply trim_space_id, trim_space_trimmed. Qed.

Lemma trim_left_suffix : forall s, exists a, s = a ++ trim_left_space s.
Proof. intros. apply drop_runs_suffix. Qed.

Lemma trim_right_prefix : forall s, exists b, s = trim_right_space s ++ b.
Proof.
  intros. destruct (drop_runs_suffix rspace_len (List.length s) (rev s)) as [a Ha].
  exists (rev a). unfold trim_right_space. rewrite <- rev_app_distr, <- Ha, rev_involutive. auto.
Qed.

Lemma trim_space_sub : forall s, exists a b, s = a ++ trim_space s ++ b.
Proof.
  intros. destruct (trim_left_suffix s) as [a Ha]. destruct (trim_right_prefix (trim_left_space s)) as [b Hb].
  exists a, b. unfold trim_space. rewrite <- Hb. auto.
Qed.

(** ** Split *)
Fixpoint join1 (sep : Z) (ws : list bytes) : bytes :=
  match ws with
  | [] => []
  | [w] => w
  | w :: ws' => w ++ sep :: join1 sep ws'
  end.

Lemma split1_nonnil : forall sep s, split1 sep s <> [].
Proof. intros sep [|c s]; simpl; try discriminate. destruct (c =? sep); try discriminate.
  destruct (split1 sep s); discriminate. Qed.

Lemma split1_nosep : forall sep w, Forall (fun c => c <> sep) w -> split1 sep w = [w].
Proof.
  induction w as [|c w IH]; intros F; [reflexivity|].
  inversion F; subst. cbn [split1]. destruct (Z.eqb_spec c sep); [congruence|]. rewrite IH; auto.
Qed.

Lemma split1_word : forall sep w s, Forall (fun c => c <> sep) w ->
  split1 sep (w ++ sep :: s) = w :: split1 sep s.
Proof.
  induction w as [|c w IH]; intros s F.
  - cbn [split1 app]. rewrite Z.eqb_refl. auto.
  - inversion F; subst. cbn [split1 app]. destruct (Z.eqb_spec c sep); [congruence|].
    rewrite IH; auto.
Qed.

Lemma split1_join : forall sep ws, ws <> [] -> Forall (Forall (fun c => c <> sep)) ws ->
  split1 sep (join1 sep ws) = ws.
Proof.
  induction ws as [|w [|w2 ws] IH]; intros Hn F; [congruence| |].
  - inversion F; subst. apply split1_nosep. auto.
  - inversion F; subst. cbn [join1]. rewrite split1_word by auto. f_equal. apply IH; [discriminate|auto].
Qed.

(** ** Replace of single bytes *)
Lemma replace1_app : forall c n a b, replace1 c n (a ++ b) = replace1 c n a ++ replace1 c n b.
Proof. intros. apply flat_map_app. Qed.

Lemma replace1_none : forall c n s, Forall (fun x => x <> c) s -> replace1 c n s = s.
Proof.
  induction s as [|x s IH]; intros F; [reflexivity|]. inversion F; subst.
  unfold replace1 in *. cbn [flat_map]. destruct (Z.eqb_spec x c); [congruence|]. rewrite IH; auto.
Qed.

Lemma trim_left_set_none : forall cut s x t, s = x :: t -> cut x = false -> trim_left_set cut s = s.
Proof. intros. subst. cbn. rewrite H0. auto. Qed.
