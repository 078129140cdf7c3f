(** Hexadecimal strings: a reader (ISO 32000-1, 7.3.4.3) and what %04X writes. *)
From Coq Require Import String List ZArith Lia Bool.
From Verif Require Import Base BaseProofs.
Open Scope Z_scope.
Open Scope list_scope.

Definition hexval (c : Z) : option Z :=
  if (48 <=? c) && (c <=? 57) then Some (c - 48)
  else if (65 <=? c) && (c <=? 70) then Some (c - 55)
  else if (97 <=? c) && (c <=? 102) then Some (c - 87)
  else None.
(** The bytes of a hexadecimal string; a missing last digit is 0. *)
Fixpoint unhex (s : bytes) : option bytes :=
  match s with
  | [] => Some []
  | [a] => match hexval a with Some x => Some [16 * x] | None => None end
  | a :: b :: t => match hexval a, hexval b, unhex t with Some x, Some y, Some r => Some (16 * x + y :: r) | _, _, _ => None end
  end.
(** Two-byte codes, high byte first. *)
Fixpoint codes (b : bytes) : option (list Z) :=
  match b with
  | [] => Some []
  | x :: y :: t => match codes t with Some r => Some (256 * x + y :: r) | None => None end
  | _ => None
  end.

Lemma hexval_digit : forall d, 0 <= d < 16 -> hexval (hexdigit d) = Some d.
Proof.
  intros d H. unfold hexval, hexdigit. destruct (Z.ltb_spec d 10).
  - destruct (Z.leb_spec 48 (48 + d)); [|lia]. destruct (Z.leb_spec (48 + d) 57); [|lia]. cbn [andb]. f_equal. lia.
  - destruct (Z.leb_spec 48 (55 + d)); [|lia]. destruct (Z.leb_spec (55 + d) 57); [lia|]. cbn [andb].
    destruct (Z.leb_spec 65 (55 + d)); [|lia]. destruct (Z.leb_spec (55 + d) 70); [|lia]. cbn [andb]. f_equal. lia.
Qed.

Lemma hexdigits_step : forall f n acc, 16 <= n -> hexdigits (S f) n acc = hexdigits f (n / 16) (hexdigit (n mod 16) :: acc).
Proof. intros. cbn [hexdigits]. destruct (Z.ltb_spec n 16); [lia|reflexivity]. Qed.
Lemma hexdigits_last : forall f n acc, n < 16 -> hexdigits (S f) n acc = hexdigit n :: acc.
Proof. intros. cbn [hexdigits]. destruct (Z.ltb_spec n 16); [reflexivity|lia]. Qed.

Lemma hex4_form : forall n, 0 <= n < 65536 ->
  hex4 n = [hexdigit (n / 4096); hexdigit (n / 256 mod 16); hexdigit (n / 16 mod 16); hexdigit (n mod 16)].
Proof.
  intros n H. unfold hex4, utox.
  assert (L : forall k, 0 <= k -> 2 ^ k <= n -> k <= Z.log2 n) by (intros k Hk Hn; apply Z.log2_le_pow2; [|auto]; pose proof (Z.pow_pos_nonneg 2 k); lia).
  destruct (Z.lt_ge_cases n 16).
  { rewrite hexdigits_last by lia. replace (n / 4096) with 0 by lia. replace (n / 256 mod 16) with 0 by lia. replace (n / 16 mod 16) with 0 by lia.
    replace (n mod 16) with n by lia. reflexivity. }
  pose proof (L 4 ltac:(lia) ltac:(lia)). remember (Z.to_nat (Z.log2 n)) as k eqn:K.
  destruct (Z.lt_ge_cases n 256).
  { destruct k as [|k]; [lia|]. rewrite hexdigits_step, hexdigits_last by lia.
    replace (n / 4096) with 0 by lia. replace (n / 256 mod 16) with 0 by lia. replace (n / 16 mod 16) with (n / 16) by lia. reflexivity. }
  pose proof (L 8 ltac:(lia) ltac:(lia)).
  destruct (Z.lt_ge_cases n 4096).
  { destruct k as [|[|k]]; [lia|lia|]. rewrite !hexdigits_step, hexdigits_last by lia.
    replace (n / 4096) with 0 by lia. replace (n / 256 mod 16) with (n / 16 / 16) by lia. reflexivity. }
  pose proof (L 12 ltac:(lia) ltac:(lia)).
  destruct k as [|[|[|k]]]; [lia|lia|lia|]. rewrite !hexdigits_step, hexdigits_last by lia.
  replace (n / 4096) with (n / 16 / 16 / 16) by lia. replace (n / 256 mod 16) with (n / 16 / 16 mod 16) by lia. reflexivity.
Qed.

Lemma hex4_len : forall n, 0 <= n < 65536 -> List.length (hex4 n) = 4%nat.
Proof. intros. rewrite hex4_form by auto. reflexivity. Qed.
Lemma unhex_hex4 : forall n t, 0 <= n < 65536 ->
  unhex (hex4 n ++ t) = match unhex t with Some r => Some (n / 256 :: n mod 256 :: r) | None => None end.
Proof.
  intros n t H. rewrite hex4_form by auto. cbn [app unhex]. rewrite !hexval_digit by lia.
  destruct (unhex t); [|reflexivity]. do 2 f_equal; [lia|]. f_equal. lia.
Qed.
Lemma codes_hex4 : forall l, Forall (fun n => 0 <= n < 65536) l ->
  exists b, unhex (flat_map hex4 l) = Some b /\ codes b = Some l.
Proof.
  induction l as [|n l IH]; intros H; [exists []; auto|]. inversion H; subst. destruct (IH H3) as (b & E1 & E2).
  cbn [flat_map]. rewrite unhex_hex4, E1 by auto. eexists. split; [reflexivity|]. cbn [codes]. rewrite E2. do 2 f_equal. lia.
Qed.
Lemma hex4_chars : forall n, 0 <= n < 65536 -> Forall (fun c => 48 <= c <= 57 \/ 65 <= c <= 70) (hex4 n).
Proof.
  intros n H. rewrite hex4_form by auto. assert (D : forall d, 0 <= d < 16 -> 48 <= hexdigit d <= 57 \/ 65 <= hexdigit d <= 70) by (intros d Hd; unfold hexdigit; destruct (Z.ltb_spec d 10); lia).
  repeat (apply Forall_cons; [apply D; lia|]). apply Forall_nil.
Qed.
