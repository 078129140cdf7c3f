(** Where things are on the page, in real numbers: part of the specification.
    The origin of the page is its lower left corner, the places given to pdft
    are counted from the upper left corner. *)
From Coq Require Import ZArith Reals String List.
From Coq.Floats Require Import SpecFloat.
From Flocq Require Import Core.Core IEEE754.BinarySingleNaN.
From Verif Require Import Base Float64 TtfSpec.
Open Scope R_scope.

(** The number a float64 is. *)
Definition val (x : f64) : R := SF2R radix2 x.
(** A float64 that is a number, in the form IEEE 754 gives it, of at most a
    million points. *)
Definition on_paper (x : f64) : Prop :=
  valid_binary 53 1024 x = true /\ (match x with S754_zero _ | S754_finite _ _ _ => True | _ => False end) /\ Rabs (val x) <= 1000000.

(** [n] hundredths are [r], up to six thousandths (half a hundredth for the two
    decimals, the rest for rounding on the way). *)
Definition cents_of (n : Z) (r : R) : Prop := Rabs (IZR n / 100 - r) <= 6 / 1000.

(** ** Lines of a font *)
Definition typo_lines (d : bytes) (a b : Z) : Prop :=
  exists o l, has_table d (B"OS/2") o l /\ s16 d (o + 68) = Some a /\ s16 d (o + 70) = Some b.
Definition underline_at (d : bytes) (p h : Z) : Prop :=
  exists o l, has_table d (B"post") o l /\ s16 d (o + 8) = Some p /\ s16 d (o + 10) = Some h.
(** [v] font units at a size *)
Definition units (v u size : Z) : R := IZR v * IZR size / IZR u.

(** ** A line of text in a cell

    The cell begins at [x] from the left and has width [w]; the line is [tw] wide
    and begins at [s].  Bit 1 of [align]: right, bit 4: centre, neither: left. *)
Definition across (align : Z) (x w tw : R) (s : Z) : Prop :=
  if Z.testbit align 1 then cents_of s (x + w - tw)
  else if Z.testbit align 4 then cents_of s (x + w / 2 - tw / 2)
  else cents_of s x.
(** The upper edge of the cell is at [top], it is [h] high; the base line is at
    [b], the font reaches [asc] above it and [-desc] below.  Bit 0 of [align]:
    bottom, bit 5: middle, neither: top. *)
Definition along (align : Z) (top h asc desc : R) (b : Z) : Prop :=
  if Z.testbit align 0 then cents_of b (top - h - desc)
  else if Z.testbit align 5 then cents_of b (top - h / 2 - (asc + desc) / 2)
  else cents_of b (top - asc).
