(** Numbers with two decimals as written and read. *)
From Coq Require Import String List ZArith Lia Bool.
From Coq.Floats Require Import SpecFloat.
From Verif Require Import Base BaseProofs PdfSyntax PdfSyntaxProofs HexProofs Float64 TextSpec.
Open Scope Z_scope.
Open Scope list_scope.

Lemma dec_value_shift : forall s v, dec_value v s = v * 10 ^ Z.of_nat (List.length s) + dec_value 0 s.
Proof.
  induction s as [|c s IH]; intros v; [cbn; lia|]. cbn [dec_value List.length]. rewrite IH, (IH (10 * 0 + (c - 48))).
  rewrite Nat2Z.inj_succ, Z.pow_succ_r by lia. ring.
Qed.

Lemma span_all : forall p a b, forallb p a = true -> match b with [] => True | c :: _ => p c = false end -> span p (a ++ b) = (a, b).
Proof. intros p a b H. apply span_word. apply Forall_forall. apply forallb_forall. exact H. Qed.

Lemma forallb_reg : forall s, forallb is_digit s = true -> reg_word s.
Proof.
  intros s H. apply Forall_forall. intros c Hc. rewrite forallb_forall in H. specialize (H c Hc). unfold is_digit in H. unfold regular, wsp, delim. lia.
Qed.

Lemma fixed2_unsigned : forall n, 0 <= n -> unsigned (fixed2 n) = Some n.
Proof.
  intros n H. unfold unsigned, fixed2. change (B".") with [46]. cbn [app]. rewrite span_all; [|apply utoa_digits; lia|reflexivity].
  assert (L : List.length (pad0 2 (utoa (n mod 100))) = 2%nat) by (apply pad0_len, utoa_len; [lia|change (10 ^ Z.of_nat 2) with 100; lia]).
  rewrite L. change ((46 =? 46) && (2 <=? 2)%nat) with true. cbv iota. change (2 - 2)%nat with 0%nat. cbn [repeat]. rewrite app_nil_r.
  unfold atou. destruct (utoa (n / 100) ++ pad0 2 (utoa (n mod 100))) as [|c t] eqn:E.
  { apply app_eq_nil in E. destruct E as (E & _). apply utoa_nonnil in E. contradiction. }
  rewrite <- E. rewrite forallb_app, utoa_digits, pad0_digits by lia. cbn [andb]. f_equal.
  rewrite dec_value_app, dec_value_shift, L, dec_value_pad0, !utoa_value by lia. change (10 ^ Z.of_nat 2) with 100. lia.
Qed.

Lemma fixed2_reg : forall n, 0 <= n -> reg_word (fixed2 n).
Proof.
  intros n H. unfold fixed2. apply Forall_app. split; [apply utoa_reg; lia|]. apply Forall_app. split; [apply Forall_cons; [reflexivity|apply Forall_nil]|].
  apply forallb_reg, pad0_digits. lia.
Qed.

Lemma fixed2_head : forall n, 0 <= n -> exists c t, fixed2 n = c :: t /\ 48 <= c <= 57.
Proof.
  intros n H. unfold fixed2. pose proof (utoa_Forall (n / 100) ltac:(lia)) as F. pose proof (utoa_nonnil (n / 100)).
  destruct (utoa (n / 100)) as [|c t]; [congruence|]. inversion F; subst. cbn [app]. eauto.
Qed.

Lemma fixed2_atou : forall n, atou (fixed2 n) = None.
Proof.
  intros n. unfold fixed2. unfold atou. destruct (utoa (n / 100) ++ B"." ++ pad0 2 (utoa (n mod 100))) eqn:E; [reflexivity|]. rewrite <- E.
  rewrite !forallb_app. change (forallb is_digit (B".")) with false. rewrite andb_false_r. reflexivity.
Qed.

Definition sgn (s : bool) : bytes := if s then B"-" else [].
Lemma signed2 : forall s n, 0 <= n -> reg_word (sgn s ++ fixed2 n) /\ sgn s ++ fixed2 n <> [] /\ number (sgn s ++ fixed2 n) = None /\
  decimal (sgn s ++ fixed2 n) = Some (if s then - n else n).
Proof.
  intros s n H. pose proof (fixed2_reg n H) as R. pose proof (fixed2_unsigned n H) as U. pose proof (fixed2_atou n) as A.
  destruct s; cbn [sgn].
  - change (B"-") with [45]. cbn [app]. split; [apply Forall_cons; [reflexivity|exact R]|]. split; [discriminate|].
    cbn [number decimal]. change (45 =? 45) with true. cbv iota. rewrite A, U. split; reflexivity.
  - cbn [app]. destruct (fixed2_head n H) as (c & t & E & Hc). rewrite E in *. split; [exact R|]. split; [discriminate|].
    cbn [number decimal]. replace (c =? 45) with false by lia. replace (c =? 43) with false by lia. rewrite A, U. split; reflexivity.
Qed.

Lemma div_even_near : forall a b, 0 <= a -> 0 < b -> 0 <= div_even a b /\ Z.abs (2 * (a - div_even a b * b)) <= b.
Proof.
  intros a b Ha Hb. unfold div_even. pose proof (Z.div_mod a b ltac:(lia)) as E. pose proof (Z.mod_pos_bound a b Hb). pose proof (Z.div_pos a b Ha Hb).
  set (q := a / b) in *. set (r := a mod b) in *. assert (Q1 : a - q * b = r) by lia. assert (Q2 : a - (q + 1) * b = r - b) by lia.
  destruct (Z.compare_spec (2 * r) b); [destruct (Z.even q)| |]; rewrite ?Q1, ?Q2; lia.
Qed.

Lemma hundredths_near : forall s m e, 0 <= hundredths m e /\ near (S754_finite s m e) (if s then - hundredths m e else hundredths m e).
Proof.
  intros s m e. unfold hundredths, near. destruct (Z.leb_spec 0 e).
  - assert (0 < 2 ^ e) by (apply Z.pow_pos_nonneg; lia). split; [nia|]. destruct s; [|ring]. change (Z.neg m) with (- Z.pos m). ring.
  - assert (0 < 2 ^ (- e)) by (apply Z.pow_pos_nonneg; lia). destruct (div_even_near (100 * Z.pos m) (2 ^ (- e)) ltac:(lia) ltac:(lia)) as (A & C).
    split; [exact A|]. set (d := div_even (100 * Z.pos m) (2 ^ (- e))) in *. set (p := 2 ^ (- e)) in *.
    destruct s; [|exact C]. change (Z.neg m) with (- Z.pos m).
    replace (2 * (100 * - Z.pos m - - d * p)) with (- (2 * (100 * Z.pos m - d * p))) by ring. rewrite Z.abs_opp. exact C.
Qed.

(** What %.2f writes is a word, a number, and the nearest hundredth. *)
Theorem fmt2_reads : forall x, finite x -> exists n, reg_word (fmt2 x) /\ fmt2 x <> [] /\ number (fmt2 x) = None /\ decimal (fmt2 x) = Some n /\ near x n.
Proof.
  intros x F. destruct x as [s|s| |s m e]; try contradiction.
  - destruct (signed2 s 0 ltac:(lia)) as (A & C & D & E). exists (if s then - 0 else 0). cbn [fmt2 near]. repeat (split; [assumption|]). destruct s; reflexivity.
  - destruct (hundredths_near s m e) as (A & N). destruct (signed2 s (hundredths m e) A) as (A1 & C & D & E).
    exists (if s then - hundredths m e else hundredths m e). cbn [fmt2]. auto.
Qed.

Lemma near_unique : forall x n n', near x n -> near x n' -> Z.abs (n - n') <= 1.
Proof.
  intros x n n' H H'. destruct x as [s|s| |s m e]; try contradiction; unfold near in *; [lia|].
  destruct (Z.leb_spec 0 e); [lia|]. assert (0 < 2 ^ (- e)) by (apply Z.pow_pos_nonneg; lia). set (p := 2 ^ (- e)) in *. set (v := if s then Z.neg m else Z.pos m) in *.
  assert (2 * Z.abs (n - n') * p <= 2 * p); [|nia].
  replace (2 * Z.abs (n - n') * p) with (Z.abs (2 * (n * p - n' * p))) by (replace (2 * (n * p - n' * p)) with ((n - n') * (2 * p)) by ring; rewrite Z.abs_mul, (Z.abs_eq (2 * p)) by lia; ring).
  lia.
Qed.
