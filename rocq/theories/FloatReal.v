(** The real value of a float64 and the error of the operations.  Flocq's
    theorems on IEEE 754 arithmetic are carried over to the standard library's
    SpecFloat, in which the model is written. *)
From Coq Require Import ZArith Lia Bool Reals Lra.
From Coq.Floats Require Import SpecFloat.
From Flocq Require Import Core.Core IEEE754.BinarySingleNaN.
From Verif Require Import Base Float64 TextSpec TextPlaceSpec.
Open Scope R_scope.

(** A float64 that is a number, in the form IEEE 754 gives it. *)
Definition good (x : f64) : Prop := valid_binary 53 1024 x = true /\ finite x.

Lemma Hp : Prec_gt_0 53. Proof. reflexivity. Qed.
Lemma Hm : Prec_lt_emax 53 1024. Proof. reflexivity. Qed.
Notation fexp64 := (SpecFloat.fexp 53 1024).
Notation rnd := (round radix2 fexp64 (round_mode mode_NE)).
Notation float64 := (binary_float 53 1024).

Lemma finite_sf : forall x, finite x <-> is_finite_SF x = true.
Proof. intros [s|s| |s m e]; cbn; split; auto; try discriminate; contradiction. Qed.

Lemma good_b : forall x, good x -> exists b : float64, B2SF b = x /\ is_finite b = true.
Proof.
  intros x (V & F). exists (SF2B x V). split; [apply B2SF_SF2B|]. rewrite is_finite_SF2B. apply finite_sf. exact F.
Qed.
Lemma b_good : forall b : float64, is_finite b = true -> good (B2SF b).
Proof. intros b F. split; [apply valid_binary_B2SF|]. apply finite_sf. rewrite is_finite_SF_B2SF. exact F. Qed.
Lemma val_b : forall b : float64, val (B2SF b) = B2R b.
Proof. intros b. unfold val. apply SF2R_B2SF. Qed.

(** ** SpecFloat's operations are Flocq's *)
Lemma nearest_same : forall s m l, round_nearest_even m l = choice_mode mode_NE s m l.
Proof. intros s m l. destruct l as [|c]; [reflexivity|]. destruct c; try reflexivity. cbn. unfold Round.cond_incr. destruct (Z.even m); reflexivity. Qed.
Lemma aux_same : forall s m e l, SpecFloat.binary_round_aux 53 1024 s m e l = binary_round_aux 53 1024 mode_NE s m e l.
Proof.
  intros. unfold SpecFloat.binary_round_aux, binary_round_aux. destruct (shr_fexp 53 1024 m e l) as [mr e']. cbv zeta. now rewrite (nearest_same s).
Qed.
Lemma round_same : forall s m e, SpecFloat.binary_round 53 1024 s m e = binary_round 53 1024 mode_NE s m e.
Proof. intros. unfold SpecFloat.binary_round, binary_round, shl_align_fexp. destruct (shl_align _ _ _). apply aux_same. Qed.
Lemma normalize_same : forall m e z, SpecFloat.binary_normalize 53 1024 m e z = B2SF (binary_normalize 53 1024 Hp Hm mode_NE m e z).
Proof. intros m e z. destruct m; [reflexivity| |]; cbn; rewrite B2SF_SF2B; apply round_same. Qed.
Lemma add_same : forall x y : float64, fadd (B2SF x) (B2SF y) = B2SF (Bplus (prec_gt_0_ := Hp) (prec_lt_emax_ := Hm) mode_NE x y).
Proof.
  intros x y. destruct x as [sx|sx| |sx mx ex Bx]; destruct y as [sy|sy| |sy my ey By]; try reflexivity; try (cbn; destruct (Bool.eqb _ _); reflexivity).
  apply normalize_same.
Qed.
Lemma sub_same : forall x y : float64, fsub (B2SF x) (B2SF y) = B2SF (Bminus (prec_gt_0_ := Hp) (prec_lt_emax_ := Hm) mode_NE x y).
Proof.
  intros x y. destruct x as [sx|sx| |sx mx ex Bx]; destruct y as [sy|sy| |sy my ey By]; try reflexivity; try (cbn; destruct (Bool.eqb _ _); reflexivity).
  cbn. unfold Zminus. rewrite <- cond_Zopp_negb. apply normalize_same.
Qed.
Lemma mul_same : forall x y : float64, fmul (B2SF x) (B2SF y) = B2SF (Bmult (prec_gt_0_ := Hp) (prec_lt_emax_ := Hm) mode_NE x y).
Proof.
  intros x y. destruct x as [sx|sx| |sx mx ex Bx]; destruct y as [sy|sy| |sy my ey By]; try reflexivity.
  cbn. rewrite B2SF_SF2B. apply aux_same.
Qed.
Lemma div_same : forall x y : float64, fdiv (B2SF x) (B2SF y) = B2SF (Bdiv (prec_gt_0_ := Hp) (prec_lt_emax_ := Hm) mode_NE x y).
Proof.
  intros x y. destruct x as [sx|sx| |sx mx ex Bx]; destruct y as [sy|sy| |sy my ey By]; try reflexivity.
  unfold fdiv, SFdiv, Bdiv. cbn [B2SF]. rewrite B2SF_SF2B. destruct (SFdiv_core_binary _ _ _ _ _ _) as [[mz ez] lz]. apply aux_same.
Qed.

(** ** The rounding error *)
Lemma fexp_valid : Valid_exp fexp64. Proof. apply fexp_correct. exact Hp. Qed.
#[local] Existing Instance fexp_valid.
#[local] Existing Instance Hp.
#[local] Existing Instance Hm.

Lemma rnd_err : forall z k, (-1000 <= k <= 1000)%Z -> Rabs z <= bpow radix2 k ->
  Rabs (rnd z - z) <= bpow radix2 (k - 53) /\ Rabs (rnd z) < bpow radix2 1024.
Proof.
  intros z k Hk Hz.
  assert (E : Rabs (rnd z - z) <= bpow radix2 (k - 53)).
  { apply Rle_trans with (/2 * ulp radix2 fexp64 z).
    - apply error_le_half_ulp. exact fexp_valid.
    - apply Rle_trans with (/2 * ulp radix2 fexp64 (bpow radix2 k)).
      + apply Rmult_le_compat_l; [lra|]. rewrite <- (ulp_abs _ _ z). apply ulp_le_pos; [exact fexp_valid| |apply Rabs_pos|exact Hz].
        intros e1 e2 H. unfold SpecFloat.fexp. lia.
      + rewrite ulp_bpow. unfold SpecFloat.fexp, SpecFloat.emin. rewrite Z.max_l by lia.
        replace (k + 1 - 53)%Z with (k - 53 + 1)%Z by lia. rewrite bpow_plus, bpow_1. cbn [radix_val radix2]. lra. }
  split; [exact E|].
  replace (rnd z) with ((rnd z - z) + z) by ring. eapply Rle_lt_trans; [apply Rabs_triang|].
  apply Rle_lt_trans with (bpow radix2 k + bpow radix2 k).
  - apply Rplus_le_compat; [|exact Hz]. eapply Rle_trans; [exact E|]. apply bpow_le. lia.
  - replace (bpow radix2 k + bpow radix2 k) with (bpow radix2 (k + 1)) by (rewrite bpow_plus, bpow_1; cbn [radix_val radix2]; lra).
    apply bpow_lt. lia.
Qed.

Lemma below : forall z, Rabs z < bpow radix2 1024 -> Rlt_bool (Rabs z) (bpow radix2 1024) = true.
Proof. intros z H. apply Rlt_bool_true. exact H. Qed.

Theorem fadd_err : forall x y k, good x -> good y -> (-1000 <= k <= 1000)%Z -> Rabs (val x + val y) <= bpow radix2 k ->
  good (fadd x y) /\ Rabs (val (fadd x y) - (val x + val y)) <= bpow radix2 (k - 53).
Proof.
  intros x y k Gx Gy Hk Hb. destruct (good_b x Gx) as (a & <- & Fa). destruct (good_b y Gy) as (c & <- & Fc). rewrite add_same, !val_b in *.
  destruct (rnd_err _ k Hk Hb) as (E & L). pose proof (Bplus_correct 53 1024 Hp Hm mode_NE a c Fa Fc) as C.
  rewrite (below _ L) in C. destruct C as (C1 & C2 & _). split; [apply b_good; exact C2|]. rewrite C1. exact E.
Qed.
Theorem fsub_err : forall x y k, good x -> good y -> (-1000 <= k <= 1000)%Z -> Rabs (val x - val y) <= bpow radix2 k ->
  good (fsub x y) /\ Rabs (val (fsub x y) - (val x - val y)) <= bpow radix2 (k - 53).
Proof.
  intros x y k Gx Gy Hk Hb. destruct (good_b x Gx) as (a & <- & Fa). destruct (good_b y Gy) as (c & <- & Fc). rewrite sub_same, !val_b in *.
  destruct (rnd_err _ k Hk Hb) as (E & L). pose proof (Bminus_correct 53 1024 Hp Hm mode_NE a c Fa Fc) as C.
  rewrite (below _ L) in C. destruct C as (C1 & C2 & _). split; [apply b_good; exact C2|]. rewrite C1. exact E.
Qed.
Theorem fmul_err : forall x y k, good x -> good y -> (-1000 <= k <= 1000)%Z -> Rabs (val x * val y) <= bpow radix2 k ->
  good (fmul x y) /\ Rabs (val (fmul x y) - val x * val y) <= bpow radix2 (k - 53).
Proof.
  intros x y k Gx Gy Hk Hb. destruct (good_b x Gx) as (a & <- & Fa). destruct (good_b y Gy) as (c & <- & Fc). rewrite mul_same, !val_b in *.
  destruct (rnd_err _ k Hk Hb) as (E & L). pose proof (Bmult_correct 53 1024 Hp Hm mode_NE a c) as C.
  rewrite (below _ L) in C. destruct C as (C1 & C2 & _). rewrite Fa, Fc in C2. split; [apply b_good; exact C2|]. rewrite C1. exact E.
Qed.
Theorem fdiv_err : forall x y k, good x -> good y -> val y <> 0 -> (-1000 <= k <= 1000)%Z -> Rabs (val x / val y) <= bpow radix2 k ->
  good (fdiv x y) /\ Rabs (val (fdiv x y) - val x / val y) <= bpow radix2 (k - 53).
Proof.
  intros x y k Gx Gy Ny Hk Hb. destruct (good_b x Gx) as (a & <- & Fa). destruct (good_b y Gy) as (c & <- & Fc). rewrite div_same, !val_b in *.
  destruct (rnd_err _ k Hk Hb) as (E & L). pose proof (Bdiv_correct 53 1024 Hp Hm mode_NE a c Ny) as C.
  rewrite (below _ L) in C. destruct C as (C1 & C2 & _). rewrite Fa in C2. split; [apply b_good; exact C2|]. rewrite C1. exact E.
Qed.
(** Whole numbers below 2^53 are exact. *)
Theorem fofz_exact : forall n, (Z.abs n <= 2 ^ 53)%Z -> good (fofz n) /\ val (fofz n) = IZR n.
Proof.
  intros n Hn. unfold fofz. rewrite normalize_same.
  assert (R0 : rnd (F2R (Float radix2 n 0)) = IZR n).
  { unfold F2R. cbn [Fnum Fexp bpow]. rewrite Rmult_1_r. apply round_generic; [apply valid_rnd_round_mode|].
    destruct (Z.eq_dec (Z.abs n) (2 ^ 53)) as [E|E].
    - assert (G : generic_format radix2 fexp64 (IZR (2 ^ 53))).
      { change (2 ^ 53)%Z with (Zpower radix2 53). rewrite IZR_Zpower by lia. apply generic_format_bpow. vm_compute. discriminate. }
      destruct (Z.abs_eq_cases n (2 ^ 53)) as [->| ->]; [rewrite E; symmetry; apply Z.abs_eq; lia|exact G|]. rewrite opp_IZR. apply generic_format_opp. exact G.
    - replace (IZR n) with (F2R (Float radix2 n 0)) by (unfold F2R; cbn [Fnum Fexp bpow]; ring). apply generic_format_F2R. intros N0. unfold cexp, SpecFloat.fexp, SpecFloat.emin.
      assert ((mag radix2 (F2R (Float radix2 n 0)) <= 53)%Z); [|lia].
      apply mag_le_bpow; [apply F2R_neq_0; exact N0|]. unfold F2R. cbn [Fnum Fexp]. change (bpow radix2 0) with 1. rewrite Rmult_1_r, <- abs_IZR.
      rewrite <- IZR_Zpower by lia. apply IZR_lt. change (Zpower radix2 53) with (2 ^ 53)%Z. lia. }
  pose proof (binary_normalize_correct 53 1024 Hp Hm mode_NE n 0 false) as C. cbv zeta in C. rewrite R0 in C.
  assert (L : Rabs (IZR n) < bpow radix2 1024).
  { rewrite <- abs_IZR. apply Rle_lt_trans with (bpow radix2 53); [|apply bpow_lt; lia]. rewrite <- IZR_Zpower by lia. apply IZR_le. exact Hn. }
  rewrite (below _ L) in C. destruct C as (C1 & C2 & _). split; [apply b_good; exact C2|]. rewrite val_b. exact C1.
Qed.

(** Hundredths near to a float64. *)
Lemma near_val : forall x n, near x n -> Rabs (IZR n / 100 - val x) <= 1 / 200.
Proof.
  intros x n H. destruct x as [s|s| |s m e]; cbn [near] in H; try contradiction.
  - subst n. unfold val. cbn [SF2R]. rewrite Rabs_pos_eq; lra.
  - unfold val, SF2R, F2R. cbn [Fnum Fexp]. set (v := cond_Zopp s (Z.pos m)). replace (if s then Z.neg m else Z.pos m) with v in H by (destruct s; reflexivity).
    cbv zeta in H. clearbody v. destruct (Z.leb_spec 0 e) as [Le|Lt].
    + rewrite H, !mult_IZR. change 2%Z with (radix_val radix2). rewrite (IZR_Zpower radix2 e Le).
      replace (100 * IZR v * bpow radix2 e / 100 - IZR v * bpow radix2 e) with 0 by field. rewrite Rabs_R0. lra.
    + apply IZR_le in H. rewrite abs_IZR, mult_IZR, minus_IZR, !mult_IZR in H. change 2%Z with (radix_val radix2) in H at 2 3. rewrite !(IZR_Zpower radix2 (- e)) in H by lia.
      assert (P : 0 < bpow radix2 (- e)) by apply bpow_gt_0. rewrite <- (Z.opp_involutive e) at 1. rewrite (bpow_opp radix2 (- e)).
      set (b := bpow radix2 (- e)) in *. clearbody b.
      replace (IZR n / 100 - IZR v * / b) with (- (2 * (100 * IZR v - IZR n * b)) / (200 * b)) by (field; lra).
      unfold Rdiv. rewrite Rabs_mult, Rabs_Ropp, (Rabs_pos_eq (/ (200 * b))) by (apply Rlt_le, Rinv_0_lt_compat; lra).
      apply Rle_trans with (b * / (200 * b)); [apply Rmult_le_compat_r; [apply Rlt_le, Rinv_0_lt_compat; lra|exact H]|]. right. field. lra.
Qed.
