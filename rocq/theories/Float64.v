(** float64 arithmetic (IEEE 754 binary64, round to nearest even) from the
    standard library's SpecFloat, and fmt's %0.2f. *)
From Coq Require Import String List ZArith Lia Bool.
From Coq.Floats Require Import SpecFloat.
From Verif Require Import Base.
Open Scope Z_scope.
Open Scope list_scope.

Definition f64 := spec_float.
Definition fadd : f64 -> f64 -> f64 := SFadd 53 1024.
Definition fsub : f64 -> f64 -> f64 := SFsub 53 1024.
Definition fmul : f64 -> f64 -> f64 := SFmul 53 1024.
Definition fdiv : f64 -> f64 -> f64 := SFdiv 53 1024.
(** float64(n) for an integer *)
Definition fofz (n : Z) : f64 := binary_normalize 53 1024 n 0 false.
(** A decimal constant p/q with p and q exact: the compiler's constant is the
    nearest float64, which is what one rounded division gives. *)
Definition fconst (p q : Z) : f64 := fdiv (fofz p) (fofz q).
(** a > b, a < b; false when one is not a number *)
Definition fgt (a b : f64) : bool := match SFcompare a b with Some Gt => true | _ => false end.
Definition flt (a b : f64) : bool := match SFcompare a b with Some Lt => true | _ => false end.

(** int(x): towards zero (a value outside int64 gives an unspecified int in Go,
    here it is kept exact). *)
Definition ftoz (x : f64) : Z :=
  match x with
  | S754_finite s m e => let v := if 0 <=? e then Z.pos m * 2 ^ e else Z.pos m / 2 ^ (- e) in if s then - v else v
  | _ => 0
  end.

(** a/b to the nearest whole number, halves to even (a >= 0, b > 0) *)
Definition div_even (a b : Z) : Z :=
  let q := a / b in
  match 2 * (a mod b) ?= b with Lt => q | Gt => q + 1 | Eq => if Z.even q then q else q + 1 end.

(** |x| in hundredths, to the nearest, halves to even, from the exact binary
    value: strconv's 'f' format with two decimals. *)
Definition hundredths (m : positive) (e : Z) : Z :=
  if 0 <=? e then 100 * Z.pos m * 2 ^ e else div_even (100 * Z.pos m) (2 ^ (- e)).

Definition fixed2 (n : Z) : bytes := utoa (n / 100) ++ B"." ++ pad0 2 (utoa (n mod 100)).

(** fmt.Sprintf("%0.2f", x) and "%.2f" *)
Definition fmt2 (x : f64) : bytes :=
  match x with
  | S754_nan => B"NaN"
  | S754_infinity s => if s then B"-Inf" else B"+Inf"
  | S754_zero s => (if s then B"-" else []) ++ fixed2 0
  | S754_finite s m e => (if s then B"-" else []) ++ fixed2 (hundredths m e)
  end.

Example fmt2_cases : map fmt2 [fconst 84189 100; fsub (fofz 0) (fconst 1 1000); fconst 5 1000; fconst 1125 1000; fofz 12345; fconst 1 3]
  = [B"841.89"; B"-0.00"; B"0.01"; B"1.12"; B"12345.00"; B"0.33"].
Proof. vm_compute. reflexivity. Qed.
