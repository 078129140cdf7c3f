(** The arithmetic of places, with the error of float64. *)
From Coq Require Import String List ZArith Lia Bool Reals Lra.
From Coq.Floats Require Import SpecFloat.
From Flocq Require Import Core.Core IEEE754.BinarySingleNaN.
From Verif Require Import Base BaseProofs Float64 Ttf TtfSpec TtfProofs TtfTables Subset Text TextSpec TextPlaceSpec FloatReal TextNumbers TextFinal TextCases.
Open Scope R_scope.

(** [x] is [r] up to [e]. *)
Definition appr (x : f64) (r e : R) : Prop := good x /\ Rabs (val x - r) <= e.

Lemma appr_val : forall x, good x -> appr x (val x) 0.
Proof. intros x G. split; [exact G|]. rewrite Rminus_diag_eq by reflexivity. rewrite Rabs_R0. lra. Qed.
Lemma appr_weaken : forall x r e e', appr x r e -> e <= e' -> appr x r e'.
Proof. intros x r e e' (G & A) H. split; [exact G|lra]. Qed.
Lemma appr_fofz : forall n, (Z.abs n <= 2 ^ 53)%Z -> appr (fofz n) (IZR n) 0.
Proof. intros n H. destruct (fofz_exact n H) as (G & <-). apply appr_val. exact G. Qed.

Ltac rabs := repeat match goal with
  | H : Rabs _ <= _ |- _ => apply Rabs_le_inv in H
  end; try apply Rabs_le.

Lemma appr_add : forall x y a b ea eb k, appr x a ea -> appr y b eb -> (-1000 <= k <= 1000)%Z -> Rabs (a + b) + ea + eb <= bpow radix2 k ->
  appr (fadd x y) (a + b) (ea + eb + bpow radix2 (k - 53)).
Proof.
  intros x y a b ea eb k (Gx & Ax) (Gy & Ay) Hk Hb. assert (T : Rabs (val x + val y - (a + b)) <= ea + eb).
  { replace (val x + val y - (a + b)) with ((val x - a) + (val y - b)) by ring. eapply Rle_trans; [apply Rabs_triang|]. lra. }
  destruct (fadd_err x y k Gx Gy Hk) as (G & E).
  - replace (val x + val y) with ((val x + val y - (a + b)) + (a + b)) by ring. eapply Rle_trans; [apply Rabs_triang|]. lra.
  - split; [exact G|]. replace (val (fadd x y) - (a + b)) with ((val (fadd x y) - (val x + val y)) + (val x + val y - (a + b))) by ring.
    eapply Rle_trans; [apply Rabs_triang|]. lra.
Qed.
Lemma appr_sub : forall x y a b ea eb k, appr x a ea -> appr y b eb -> (-1000 <= k <= 1000)%Z -> Rabs (a - b) + ea + eb <= bpow radix2 k ->
  appr (fsub x y) (a - b) (ea + eb + bpow radix2 (k - 53)).
Proof.
  intros x y a b ea eb k (Gx & Ax) (Gy & Ay) Hk Hb. assert (T : Rabs (val x - val y - (a - b)) <= ea + eb).
  { replace (val x - val y - (a - b)) with ((val x - a) + - (val y - b)) by ring. eapply Rle_trans; [apply Rabs_triang|]. rewrite Rabs_Ropp. lra. }
  destruct (fsub_err x y k Gx Gy Hk) as (G & E).
  - replace (val x - val y) with ((val x - val y - (a - b)) + (a - b)) by ring. eapply Rle_trans; [apply Rabs_triang|]. lra.
  - split; [exact G|]. replace (val (fsub x y) - (a - b)) with ((val (fsub x y) - (val x - val y)) + (val x - val y - (a - b))) by ring.
    eapply Rle_trans; [apply Rabs_triang|]. lra.
Qed.
Lemma appr_mul : forall x y a b ea eb k, appr x a ea -> appr y b eb -> (-1000 <= k <= 1000)%Z ->
  Rabs (a * b) + (Rabs a * eb + Rabs b * ea + ea * eb) <= bpow radix2 k ->
  appr (fmul x y) (a * b) (Rabs a * eb + Rabs b * ea + ea * eb + bpow radix2 (k - 53)).
Proof.
  intros x y a b ea eb k (Gx & Ax) (Gy & Ay) Hk Hb. assert (T : Rabs (val x * val y - a * b) <= Rabs a * eb + Rabs b * ea + ea * eb).
  { replace (val x * val y - a * b) with (a * (val y - b) + (b * (val x - a) + (val x - a) * (val y - b))) by ring.
    eapply Rle_trans; [apply Rabs_triang|]. rewrite Rabs_mult.
    assert (Rabs a * Rabs (val y - b) <= Rabs a * eb) by (apply Rmult_le_compat_l; [apply Rabs_pos|exact Ay]).
    assert (Rabs (b * (val x - a) + (val x - a) * (val y - b)) <= Rabs b * ea + ea * eb); [|lra].
    eapply Rle_trans; [apply Rabs_triang|]. rewrite !Rabs_mult. apply Rplus_le_compat.
    - apply Rmult_le_compat_l; [apply Rabs_pos|exact Ax].
    - apply Rmult_le_compat; try apply Rabs_pos; assumption. }
  destruct (fmul_err x y k Gx Gy Hk) as (G & E).
  - replace (val x * val y) with ((val x * val y - a * b) + a * b) by ring. eapply Rle_trans; [apply Rabs_triang|]. lra.
  - split; [exact G|]. replace (val (fmul x y) - a * b) with ((val (fmul x y) - val x * val y) + (val x * val y - a * b)) by ring.
    eapply Rle_trans; [apply Rabs_triang|]. lra.
Qed.
(** Divisors are whole numbers. *)
Lemma appr_div : forall x a ea n k, appr x a ea -> (1 <= n <= 2 ^ 53)%Z -> (-1000 <= k <= 1000)%Z -> Rabs (a / IZR n) + ea <= bpow radix2 k ->
  appr (fdiv x (fofz n)) (a / IZR n) (ea + bpow radix2 (k - 53)).
Proof.
  intros x a ea n k (Gx & Ax) Hn Hk Hb. destruct (fofz_exact n) as (Gn & En); [lia|].
  assert (N1 : 1 <= IZR n) by (apply IZR_le; lia).
  assert (T : Rabs (val x / IZR n - a / IZR n) <= ea).
  { replace (val x / IZR n - a / IZR n) with ((val x - a) * / IZR n) by (field; lra). rewrite Rabs_mult, (Rabs_pos_eq (/ IZR n)) by (apply Rlt_le, Rinv_0_lt_compat; lra).
    rewrite <- (Rmult_1_r ea). apply Rmult_le_compat; [apply Rabs_pos|apply Rlt_le, Rinv_0_lt_compat; lra|exact Ax|]. rewrite <- Rinv_1. apply Rinv_le; lra. }
  destruct (fdiv_err x (fofz n) k Gx Gn) as (G & E); [rewrite En; lra|exact Hk| |].
  - rewrite En. replace (val x / IZR n) with ((val x / IZR n - a / IZR n) + a / IZR n) by ring. eapply Rle_trans; [apply Rabs_triang|]. lra.
  - rewrite En in E. split; [exact G|]. replace (val (fdiv x (fofz n)) - a / IZR n) with ((val (fdiv x (fofz n)) - val x / IZR n) + (val x / IZR n - a / IZR n)) by ring.
    eapply Rle_trans; [apply Rabs_triang|]. lra.
Qed.

(** ** Powers of two *)
Lemma P10 : bpow radix2 10 = 1024. Proof. reflexivity. Qed.
Lemma P25 : bpow radix2 25 = 33554432. Proof. reflexivity. Qed.
Lemma P30 : bpow radix2 30 = 1073741824. Proof. reflexivity. Qed.
Lemma P40 : bpow radix2 40 = 1099511627776. Proof. reflexivity. Qed.
Lemma N43 : bpow radix2 (10 - 53) = / 8796093022208. Proof. reflexivity. Qed.
Lemma N28 : bpow radix2 (25 - 53) = / 268435456. Proof. reflexivity. Qed.
Lemma N23 : bpow radix2 (30 - 53) = / 8388608. Proof. reflexivity. Qed.
Lemma N13 : bpow radix2 (40 - 53) = / 8192. Proof. reflexivity. Qed.

Lemma half_appr : appr half (1 / 2) 0.
Proof.
  split; [split; [vm_compute; reflexivity|exact Logic.I]|]. replace (val half) with (1 / 2); [rewrite Rminus_diag_eq by reflexivity; rewrite Rabs_R0; lra|].
  unfold val. replace half with (S754_finite false 4503599627370496 (-53)) by (vm_compute; reflexivity). unfold SF2R, F2R. cbn [cond_Zopp Fnum Fexp].
  change (bpow radix2 (-53)) with (/ 9007199254740992). lra.
Qed.

(** Sums and differences of numbers that are not large. *)
Lemma near_add : forall x y a b ea eb, appr x a ea -> appr y b eb -> Rabs a <= 500000000 -> Rabs b <= 500000000 -> ea <= 1000 -> eb <= 1000 ->
  appr (fadd x y) (a + b) (ea + eb + / 8388608).
Proof.
  intros x y a b ea eb X Y Ha Hb H1 H2. rewrite <- N23. apply appr_add; [assumption..|lia|]. rewrite P30. pose proof (Rabs_triang a b). lra.
Qed.
Lemma near_sub : forall x y a b ea eb, appr x a ea -> appr y b eb -> Rabs a <= 500000000 -> Rabs b <= 500000000 -> ea <= 1000 -> eb <= 1000 ->
  appr (fsub x y) (a - b) (ea + eb + / 8388608).
Proof.
  intros x y a b ea eb X Y Ha Hb H1 H2. rewrite <- N23. apply appr_sub; [assumption..|lia|]. rewrite P30.
  pose proof (Rabs_triang a (- b)) as T. rewrite Rabs_Ropp in T. unfold Rminus. lra.
Qed.
Lemma near_half : forall x a ea, appr x a ea -> Rabs a <= 1000000000 -> 0 <= ea <= 1000 -> appr (fmul x half) (a / 2) (ea / 2 + / 8388608).
Proof.
  intros x a ea X Ha He. assert (Hh : Rabs (1 / 2) = 1 / 2) by (apply Rabs_pos_eq; lra).
  assert (Q : appr (fmul x half) (a * (1 / 2)) (Rabs a * 0 + Rabs (1 / 2) * ea + ea * 0 + bpow radix2 (30 - 53))).
  { apply appr_mul; [exact X|apply half_appr|lia|]. rewrite Rabs_mult, Hh, P30. lra. }
  rewrite Hh, N23 in Q. replace (a / 2) with (a * (1 / 2)) by field. eapply appr_weaken; [exact Q|]. lra.
Qed.

Lemma abs_le_z : forall v n, (- n <= v <= n)%Z -> Rabs (IZR v) <= IZR n.
Proof. intros v n H. rewrite <- abs_IZR. apply IZR_le. lia. Qed.
Lemma div_le : forall a n m, Rabs a <= m -> (1 <= n)%Z -> Rabs (a / IZR n) <= m.
Proof.
  intros a n m Ha Hn. assert (N1 : 1 <= IZR n) by (apply IZR_le; lia). unfold Rdiv. rewrite Rabs_mult, (Rabs_pos_eq (/ IZR n)) by (apply Rlt_le, Rinv_0_lt_compat; lra).
  rewrite <- (Rmult_1_r m). apply Rmult_le_compat; [apply Rabs_pos|apply Rlt_le, Rinv_0_lt_compat; lra|exact Ha|]. rewrite <- Rinv_1. apply Rinv_le; lra.
Qed.

(** 64-75 convertTypoUnit *)
Lemma typo_appr : forall v u size, (-32768 <= v <= 32768)%Z -> (1 <= u <= 65535)%Z -> (0 <= size <= 10000)%Z ->
  appr (typo_unit v u size) (units v u size) (3 / 10000) /\ Rabs (units v u size) <= 330000000.
Proof.
  intros v u size Hv Hu Hs. assert (Av : Rabs (IZR v) <= 32768) by (apply (abs_le_z v 32768); lia).
  assert (As : Rabs (IZR size) <= 10000) by (apply (abs_le_z size 10000); lia).
  assert (A1 : appr (fmul (fofz v) (fofz 1000)) (IZR v * 1000) (/ 268435456)).
  { rewrite <- N28. eapply appr_weaken; [apply (appr_mul _ _ _ _ 0 0 25); [apply appr_fofz; lia|apply (appr_fofz 1000); lia|lia|]|].
    - rewrite Rabs_mult, (Rabs_pos_eq 1000), P25 by lra. lra.
    - rewrite (Rabs_pos_eq 1000) by lra. lra. }
  assert (M1 : Rabs (IZR v * 1000) <= 32768000) by (rewrite Rabs_mult, (Rabs_pos_eq 1000) by lra; lra).
  assert (M2 : Rabs (IZR v * 1000 / IZR u) <= 32768000) by (apply div_le; [exact M1|lia]).
  assert (A2 : appr (fdiv (fmul (fofz v) (fofz 1000)) (fofz u)) (IZR v * 1000 / IZR u) (/ 134217728)).
  { eapply appr_weaken; [apply (appr_div _ _ _ u 25 A1); [lia|lia|]|].
    - rewrite P25. lra.
    - rewrite N28. lra. }
  assert (A3 : appr (fmul (fdiv (fmul (fofz v) (fofz 1000)) (fofz u)) (fofz size)) (IZR v * 1000 / IZR u * IZR size) (2 / 10000)).
  { eapply appr_weaken; [apply (appr_mul _ _ _ _ _ 0 40 A2); [apply appr_fofz; lia|lia|]|].
    - rewrite Rabs_mult, P40. assert (Rabs (IZR v * 1000 / IZR u) * Rabs (IZR size) <= 32768000 * 10000) by (apply Rmult_le_compat; try apply Rabs_pos; assumption). lra.
    - rewrite N13. lra. }
  assert (M3 : Rabs (units v u size) <= 330000000).
  { unfold units. apply div_le; [|lia]. rewrite Rabs_mult. apply Rle_trans with (32768 * 10000); [|lra]. apply Rmult_le_compat; try apply Rabs_pos; assumption. }
  split; [|exact M3].
  assert (N0 : IZR u <> 0) by (apply not_0_IZR; lia).
  assert (Eq : IZR v * 1000 / IZR u * IZR size / 1000 = units v u size) by (unfold units; field; exact N0).
  rewrite <- Eq. eapply appr_weaken; [apply (appr_div _ _ _ 1000 30 A3); [lia|lia|]|].
  - rewrite Eq, P30. lra.
  - rewrite N23. lra.
Qed.

(** ** The places of a text *)
Lemma paper_appr : forall x, on_paper x -> appr x (val x) 0 /\ Rabs (val x) <= 1000000.
Proof. intros x (V & F & M). split; [|exact M]. apply appr_val. split; [exact V|]. destruct x; exact F || contradiction. Qed.
Lemma appr_finite : forall x r e, appr x r e -> finite x.
Proof. intros x r e ((_ & F) & _). exact F. Qed.
Lemma cents_near : forall x r n, appr x r (1 / 1000) -> near x n -> cents_of n r.
Proof.
  intros x r n (_ & A) N. apply near_val in N. unfold cents_of. replace (IZR n / 100 - r) with ((IZR n / 100 - val x) + (val x - r)) by ring.
  eapply Rle_trans; [apply Rabs_triang|]. lra.
Qed.

Lemma hasbit_pow : forall a k, (0 <= k)%Z -> hasbit a (2 ^ k) = Z.testbit a k.
Proof.
  intros a k Hk. unfold hasbit. destruct (Z.testbit a k) eqn:E.
  - apply Z.eqb_eq. apply Z.bits_inj'. intros n Hn. rewrite Z.land_spec, Z.pow2_bits_eqb by lia.
    destruct (Z.eqb_spec k n); [subst; rewrite E; reflexivity|apply andb_false_r].
  - apply Z.eqb_neq. intros H. assert (X : Z.testbit (Z.land a (2 ^ k)) k = true) by (rewrite H, Z.pow2_bits_eqb by lia; apply Z.eqb_refl).
    rewrite Z.land_spec, E in X. discriminate.
Qed.

Lemma tri3 : forall a b m n, Rabs a <= m -> Rabs b <= n -> Rabs (a + b) <= m + n.
Proof. intros a b m n Ha Hb. eapply Rle_trans; [apply Rabs_triang|]. lra. Qed.
Lemma tri3m : forall a b m n, Rabs a <= m -> Rabs b <= n -> Rabs (a - b) <= m + n.
Proof. intros a b m n Ha Hb. unfold Rminus. apply tri3; [exact Ha|]. rewrite Rabs_Ropp. exact Hb. Qed.
Lemma half_le : forall a m, Rabs a <= m -> Rabs (a / 2) <= m.
Proof. intros a m H. unfold Rdiv. rewrite Rabs_mult, (Rabs_pos_eq (/ 2)) by lra. pose proof (Rabs_pos a). lra. Qed.

Ltac magi := first [eassumption | apply tri3m; [magi|magi] | apply tri3; [magi|magi] | apply half_le; magi].
Ltac mag := eapply Rle_trans; [magi|lra].

Record cell_ok (c : ctext) : Prop := {
  co_x : on_paper (ct_x c); co_y : on_paper (ct_y c); co_w : on_paper (ct_w c); co_h : on_paper (ct_h c);
  co_line : on_paper (ct_line c); co_height : on_paper (ct_height c); co_size : (0 <= ct_size c <= 10000)%Z }.

Lemma cal_x_appr : forall c tw, cell_ok c -> on_paper tw ->
  appr (cal_x c (ct_w c) tw)
    (if Z.testbit (ct_align c) 1 then val (ct_x c) + val (ct_w c) - val tw
     else if Z.testbit (ct_align c) 4 then val (ct_x c) + val (ct_w c) / 2 - val tw / 2 else val (ct_x c)) (1 / 1000).
Proof.
  intros c tw C T. destruct (paper_appr _ (co_x c C)) as (Ax & Mx). destruct (paper_appr _ (co_w c C)) as (Aw & Mw). destruct (paper_appr _ T) as (At & Mt).
  unfold cal_x, aRight, aCenter. change 2%Z with (2 ^ 1)%Z. change 16%Z with (2 ^ 4)%Z. rewrite !hasbit_pow by lia.
  destruct (Z.testbit (ct_align c) 1); [|destruct (Z.testbit (ct_align c) 4)].
  - eapply appr_weaken; [apply near_sub; [apply near_add; [exact Ax|exact Aw|lra..]|exact At|mag|lra..]|lra].
  - eapply appr_weaken; [apply near_sub; [apply near_add; [exact Ax|apply near_half; [exact Aw|lra|lra]|lra|mag|lra|lra]|apply near_half; [exact At|lra|lra]|mag|mag|lra|lra]|lra].
  - eapply appr_weaken; [exact Ax|lra].
Qed.

Lemma cal_y_appr : forall t c, cell_ok c -> (1 <= unitsPerEm t <= 65535)%Z -> (-32768 <= typoAscender t <= 32767)%Z -> (-32768 <= typoDescender t <= 32767)%Z ->
  let asc := units (typoAscender t) (unitsPerEm t) (ct_size c) in let desc := units (typoDescender t) (unitsPerEm t) (ct_size c) in
  let top := val (ct_height c) - val (ct_y c) in
  appr (cal_y t c (ct_h c))
    (if Z.testbit (ct_align c) 0 then top - val (ct_h c) - desc
     else if Z.testbit (ct_align c) 5 then top - val (ct_h c) / 2 - (asc + desc) / 2 else top - asc) (1 / 1000).
Proof.
  intros t c C Hu Ha Hd asc desc top. destruct (paper_appr _ (co_y c C)) as (Ay & My). destruct (paper_appr _ (co_h c C)) as (Ah & Mh). destruct (paper_appr _ (co_height c C)) as (At & Mt).
  destruct (typo_appr (typoAscender t) (unitsPerEm t) (ct_size c)) as (Aa & Ma); [lia|lia|apply (co_size c C)|].
  destruct (typo_appr (typoDescender t) (unitsPerEm t) (ct_size c)) as (Ad & Md); [lia|lia|apply (co_size c C)|].
  fold asc in Aa, Ma. fold desc in Ad, Md.
  assert (Atop : appr (fsub (ct_height c) (ct_y c)) top (0 + 0 + / 8388608)) by (apply near_sub; [exact At|exact Ay|lra..]).
  assert (Mtop : Rabs top <= 2000000) by (unfold top; mag).
  clearbody asc desc top. unfold cal_y, aBottom, aMiddle, typo_asc, typo_desc. change (hasbit (ct_align c) 1) with (hasbit (ct_align c) (2 ^ 0)). change 32%Z with (2 ^ 5)%Z. rewrite !hasbit_pow by lia.
  destruct (Z.testbit (ct_align c) 0); [|destruct (Z.testbit (ct_align c) 5)].
  - eapply appr_weaken; [apply near_sub; [apply near_sub; [exact Atop|exact Ah|lra..]|exact Ad|mag|lra..]|lra].
  - eapply appr_weaken; [apply near_sub; [apply near_sub; [exact Atop|apply near_half; [exact Ah|lra|lra]|lra|mag|lra|lra]
      |apply near_half; [replace (asc + desc) with (desc + asc) by ring; apply near_add; [exact Ad|exact Aa|lra..]|mag|lra]|mag| |lra|lra]|lra].
    unfold Rdiv. rewrite Rabs_mult, (Rabs_pos_eq (/ 2)) by lra. pose proof (tri3 asc desc _ _ Ma Md). lra.
  - eapply appr_weaken; [apply near_sub; [exact Atop|exact Aa|lra..]|lra].
Qed.
