(** Rounded products and quotients of small whole numbers are to the nearest. *)
From Coq Require Import String List ZArith Lia Bool Reals Lra.
From Coq.Floats Require Import SpecFloat.
From Flocq Require Import Core.Core IEEE754.BinarySingleNaN.
From Verif Require Import Base Float64 Ttf TextSpec TextPlaceSpec FloatReal Subset FontMaker.
Open Scope R_scope.

Lemma ftoz_trunc : forall x, good x -> ftoz x = Ztrunc (val x).
Proof.
  intros x (_ & F). destruct x as [s|s| |s m e]; cbn [finite] in F; try contradiction.
  - unfold val. cbn [SF2R ftoz]. symmetry. apply (Ztrunc_IZR 0).
  - unfold val, SF2R, ftoz, F2R. cbn [Fnum Fexp].
    assert (P : Ztrunc (IZR (Z.pos m) * bpow radix2 e) = (if (0 <=? e)%Z then Z.pos m * 2 ^ e else Z.pos m / 2 ^ (- e))%Z).
    { destruct (Z.leb_spec 0 e) as [Le|Lt].
      - change 2%Z with (radix_val radix2). rewrite <- (IZR_Zpower radix2 e Le), <- mult_IZR. apply Ztrunc_IZR.
      - assert (Pe : (0 < 2 ^ (- e))%Z) by (apply Z.pow_pos_nonneg; lia).
        replace (IZR (Z.pos m) * bpow radix2 e) with (IZR (Z.pos m) / IZR (2 ^ (- e))).
        2:{ change 2%Z with (radix_val radix2). rewrite (IZR_Zpower radix2 (- e)) by lia. rewrite bpow_opp. unfold Rdiv. rewrite Rinv_inv. reflexivity. }
        rewrite Ztrunc_floor; [apply Zfloor_div; lia|]. apply Rmult_le_pos; [apply IZR_le; lia|]. apply Rlt_le, Rinv_0_lt_compat. apply (IZR_lt 0). exact Pe. }
    cbv zeta. destruct s; cbn [cond_Zopp].
    + change (Z.neg m) with (- Z.pos m)%Z. rewrite opp_IZR, Ropp_mult_distr_l_reverse, Ztrunc_opp, P. reflexivity.
    + rewrite P. reflexivity.
Qed.
Lemma flt_zero : forall x, good x -> flt x (fofz 0) = Rlt_bool (val x) 0.
Proof.
  intros x (_ & F). change (fofz 0) with (S754_zero false). destruct x as [s|s| |s m e]; cbn [finite] in F; try contradiction.
  - unfold val. cbn [SF2R]. rewrite Rlt_bool_false by lra. reflexivity.
  - unfold flt, val, SF2R. cbn [SFcompare]. pose proof (bpow_gt_0 radix2 e). destruct s.
    + rewrite Rlt_bool_true; [reflexivity|]. apply (F2R_lt_0 radix2 (Float radix2 (cond_Zopp true (Z.pos m)) e)). reflexivity.
    + rewrite Rlt_bool_false; [reflexivity|]. apply (F2R_ge_0 radix2 (Float radix2 (cond_Zopp false (Z.pos m)) e)). cbn. lia.
Qed.
Lemma half_ok : good half /\ val half = / 2.
Proof.
  assert (E : half = S754_finite false 4503599627370496 (-53)) by (vm_compute; reflexivity). rewrite E. split; [split; [vm_compute; reflexivity|exact Logic.I]|].
  unfold val, SF2R, F2R. cbn [Fnum Fexp cond_Zopp]. change (bpow radix2 (-53)) with (/ IZR 9007199254740992). lra.
Qed.

(** A rounded value near to p/u is to the nearest. *)
Lemma round_near : forall x p u, good x -> (0 < u <= 65535)%Z -> Rabs (val x) <= bpow radix2 26 -> Rabs (val x - IZR p / IZR u) <= bpow radix2 (-25) ->
  (2 * Z.abs (round x * u - p) <= u)%Z.
Proof.
  intros x p u G U Hx E. destruct half_ok as (Gh & Vh). unfold round. rewrite (flt_zero x G).
  assert (Ur : 0 < IZR u) by (apply (IZR_lt 0); lia). assert (U5 : IZR u <= 65535) by (apply IZR_le; lia).
  change (bpow radix2 26) with 67108864 in Hx. change (bpow radix2 (-25)) with (/ 33554432) in E.
  assert (Fin : forall W d, Rabs d <= / 16777216 -> - (/ 2) - d <= IZR W - IZR p / IZR u <= / 2 + d -> (2 * Z.abs (W * u - p) <= u)%Z).
  { intros W d Hd (H1 & H2). apply Rabs_le_inv in Hd.
    assert (A1 : 2 * (IZR W * IZR u - IZR p) <= IZR u + 2 * d * IZR u).
    { replace (2 * (IZR W * IZR u - IZR p)) with (2 * (IZR W - IZR p / IZR u) * IZR u) by (field; lra). nra. }
    assert (A2 : 2 * (IZR p - IZR W * IZR u) <= IZR u + 2 * d * IZR u).
    { replace (2 * (IZR p - IZR W * IZR u)) with (2 * (- (IZR W - IZR p / IZR u)) * IZR u) by (field; lra). nra. }
    assert (A3 : 2 * d * IZR u < 1) by nra.
    assert (B1 : (2 * (W * u - p) < u + 1)%Z) by (apply lt_IZR; rewrite mult_IZR, minus_IZR, mult_IZR, plus_IZR; lra).
    assert (B2 : (2 * (p - W * u) < u + 1)%Z) by (apply lt_IZR; rewrite mult_IZR, minus_IZR, mult_IZR, plus_IZR; lra). lia. }
  apply Rabs_le_inv in Hx. apply Rabs_le_inv in E. destruct (Rlt_bool_spec (val x) 0) as [N|N].
  - destruct (fsub_err x half 27 G Gh ltac:(lia)) as (Gy & Ey). { change (bpow radix2 27) with 134217728. rewrite Vh. apply Rabs_le. lra. }
    change (bpow radix2 (27 - 53)) with (/ 67108864) in Ey. rewrite Vh in Ey. apply Rabs_le_inv in Ey. rewrite (ftoz_trunc _ Gy).
    assert (Ny : val (fsub x half) <= 0) by lra. rewrite Ztrunc_ceil by exact Ny.
    pose proof (Zceil_ub (val (fsub x half))) as C1. pose proof (Zceil_lb (val (fsub x half))) as C2. apply (Fin _ (/ 16777216)); [rewrite Rabs_pos_eq; lra|]. lra.
  - destruct (fadd_err x half 27 G Gh ltac:(lia)) as (Gy & Ey). { change (bpow radix2 27) with 134217728. rewrite Vh. apply Rabs_le. lra. }
    change (bpow radix2 (27 - 53)) with (/ 67108864) in Ey. rewrite Vh in Ey. apply Rabs_le_inv in Ey. rewrite (ftoz_trunc _ Gy).
    assert (Ny : 0 <= val (fadd x half)) by lra. rewrite Ztrunc_floor by exact Ny.
    pose proof (Zfloor_lb (val (fadd x half))) as C1. pose proof (Zfloor_ub (val (fadd x half))) as C2. apply (Fin _ (/ 16777216)); [rewrite Rabs_pos_eq; lra|]. lra.
Qed.

Lemma quot_bound : forall v u, (Z.abs v <= 65535)%Z -> (0 < u)%Z -> Rabs (IZR (1000 * v) / IZR u) <= 65535000.
Proof.
  intros v u Hv Hu. assert (Ur : 1 <= IZR u) by (apply (IZR_le 1); lia). unfold Rdiv. rewrite Rabs_mult, <- abs_IZR, (Rabs_pos_eq (/ IZR u)) by (apply Rlt_le, Rinv_0_lt_compat; lra).
  assert (A : IZR (Z.abs (1000 * v)) <= 65535000) by (apply IZR_le; lia). assert (A0 : 0 <= IZR (Z.abs (1000 * v))) by (apply (IZR_le 0); lia).
  assert (I1 : / IZR u <= 1) by (rewrite <- Rinv_1; apply Rinv_le_contravar; lra). assert (I0 : 0 < / IZR u) by (apply Rinv_0_lt_compat; lra). nra.
Qed.
Theorem mul_round_near : forall t v, (0 < unitsPerEm t <= 65535)%Z -> (Z.abs v <= 65535)%Z -> (2 * Z.abs (mul_round (em_scale t) v * unitsPerEm t - 1000 * v) <= unitsPerEm t)%Z.
Proof.
  intros t v U V. set (u := unitsPerEm t) in *. unfold mul_round, em_scale. fold u.
  destruct (fofz_exact 1000 ltac:(lia)) as (G1 & V1). destruct (fofz_exact u ltac:(lia)) as (G2 & V2). destruct (fofz_exact v ltac:(lia)) as (G3 & V3).
  assert (Ur : 1 <= IZR u) by (apply (IZR_le 1); lia). assert (I1 : / IZR u <= 1) by (rewrite <- Rinv_1; apply Rinv_le_contravar; lra). assert (I0 : 0 < / IZR u) by (apply Rinv_0_lt_compat; lra).
  destruct (fdiv_err (fofz 1000) (fofz u) 10 G1 G2 ltac:(rewrite V2; lra) ltac:(lia)) as (G4 & E4).
  { rewrite V1, V2. change (bpow radix2 10) with 1024. unfold Rdiv. apply Rabs_le. nra. }
  change (bpow radix2 (10 - 53)) with (/ 8796093022208) in E4. rewrite V1, V2 in E4. apply Rabs_le_inv in E4. set (k := fdiv (fofz 1000) (fofz u)) in *. clearbody k.
  pose proof (quot_bound v u V ltac:(lia)) as Q. rewrite mult_IZR in Q.
  assert (Vr : - 65535 <= IZR v <= 65535) by (split; apply IZR_le; lia).
  assert (Ek : Rabs (val k * IZR v - 1000 * IZR v / IZR u) <= / 134217728).
  { replace (val k * IZR v - 1000 * IZR v / IZR u) with ((val k - 1000 / IZR u) * IZR v) by (unfold Rdiv; ring). apply Rabs_le. set (dk := val k - 1000 / IZR u) in *. clearbody dk. split; nra. }
  apply Rabs_le_inv in Ek. apply Rabs_le_inv in Q.
  destruct (fmul_err k (fofz v) 26 G4 G3 ltac:(lia)) as (G5 & E5).
  { rewrite V3. change (bpow radix2 26) with 67108864. apply Rabs_le. lra. }
  change (bpow radix2 (26 - 53)) with (/ 134217728) in E5. rewrite V3 in E5. apply Rabs_le_inv in E5.
  apply round_near; [exact G5|exact U| |].
  - change (bpow radix2 26) with 67108864. apply Rabs_le. lra.
  - change (bpow radix2 (-25)) with (/ 33554432). rewrite mult_IZR. apply Rabs_le. lra.
Qed.
Theorem design_units_near : forall v u, (0 < u <= 65535)%Z -> (Z.abs v <= 65535)%Z -> (2 * Z.abs (design_units v u * u - 1000 * v) <= u)%Z.
Proof.
  intros v u U V. unfold design_units.
  destruct (fofz_exact 1000 ltac:(lia)) as (G1 & V1). destruct (fofz_exact u ltac:(lia)) as (G2 & V2). destruct (fofz_exact v ltac:(lia)) as (G3 & V3).
  assert (Ur : 1 <= IZR u) by (apply (IZR_le 1); lia). assert (I1 : / IZR u <= 1) by (rewrite <- Rinv_1; apply Rinv_le_contravar; lra). assert (I0 : 0 < / IZR u) by (apply Rinv_0_lt_compat; lra).
  assert (Vr : - 65535 <= IZR v <= 65535) by (split; apply IZR_le; lia).
  destruct (fmul_err (fofz v) (fofz 1000) 26 G3 G1 ltac:(lia)) as (G4 & E4).
  { rewrite V1, V3. change (bpow radix2 26) with 67108864. apply Rabs_le. lra. }
  change (bpow radix2 (26 - 53)) with (/ 134217728) in E4. rewrite V1, V3 in E4. apply Rabs_le_inv in E4. set (k := fmul (fofz v) (fofz 1000)) in *. clearbody k.
  pose proof (quot_bound v u V ltac:(lia)) as Q. rewrite mult_IZR in Q.
  assert (Ek : Rabs (val k / IZR u - 1000 * IZR v / IZR u) <= / 134217728).
  { replace (val k / IZR u - 1000 * IZR v / IZR u) with ((val k - IZR v * 1000) * / IZR u) by (unfold Rdiv; ring). apply Rabs_le. set (dk := val k - IZR v * 1000) in *. clearbody dk. split; nra. }
  apply Rabs_le_inv in Ek. apply Rabs_le_inv in Q.
  destruct (fdiv_err k (fofz u) 26 G4 G2 ltac:(rewrite V2; lra) ltac:(lia)) as (G5 & E5).
  { rewrite V2. change (bpow radix2 26) with 67108864. apply Rabs_le. lra. }
  change (bpow radix2 (26 - 53)) with (/ 134217728) in E5. rewrite V2 in E5. apply Rabs_le_inv in E5.
  apply round_near; [exact G5|exact U| |].
  - change (bpow radix2 26) with 67108864. apply Rabs_le. lra.
  - change (bpow radix2 (-25)) with (/ 33554432). rewrite mult_IZR. apply Rabs_le. lra.
Qed.
