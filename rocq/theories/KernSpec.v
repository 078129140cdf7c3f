(** What the kern table of a font says, after the OpenType specification (kern,
    version 0); no reference to how GoPdf reads it. *)
From Coq Require Import String List ZArith Lia Bool.
From Verif Require Import Base TtfSpec.
Open Scope Z_scope.
Open Scope list_scope.

(** A subtable starts with version, length and coverage, two bytes each.  One of
    format 0 goes on with the number of pairs, three numbers for searching, and the
    pairs: left glyph, right glyph, value. *)
Definition pair_at (d : bytes) (p i l r v : Z) : Prop :=
  u16 d (p + 14 + 6 * i) = Some l /\ u16 d (p + 14 + 6 * i + 2) = Some r /\ s16 d (p + 14 + 6 * i + 4) = Some v.
Record sub := mkSub { sub_pos : Z; sub_coverage : Z; sub_count : Z }.
(** Subtables of format 0 that follow each other from [p] on. *)
Inductive subtables (d : bytes) : Z -> list sub -> Prop :=
| subs_none : forall p, subtables d p []
| subs_more : forall p c n l, u16 d (p + 4) = Some c -> u16 d (p + 6) = Some n -> p + 14 + 6 * n <= blen d -> subtables d (p + 14 + 6 * n) l -> subtables d p (mkSub p c n :: l).
(** The table: version, number of subtables, the subtables. *)
Definition kern_table (d : bytes) (l : list sub) : Prop :=
  exists k len, has_table d (B"kern") k len /\ u16 d k <> None /\ u16 d (k + 2) = Some (Z.of_nat (List.length l)) /\ subtables d (k + 4) l.
Definition no_kern_table (d : bytes) : Prop := forall i, dir_tag d i <> Some (B"kern").

(** The value of two glyphs in a subtable: that of the last pair of these glyphs
    (the specification has none twice), 0 without a pair. *)
Definition sub_value (d : bytes) (s : sub) (l r v : Z) : Prop :=
  (exists i, 0 <= i < sub_count s /\ pair_at d (sub_pos s) i l r v /\ forall j v', i < j < sub_count s -> ~ pair_at d (sub_pos s) j l r v') \/
  ((forall i v', 0 <= i < sub_count s -> ~ pair_at d (sub_pos s) i l r v') /\ v = 0).
(** Bits 4 to 7 of the coverage are reserved and 0; the format is in bits 8 to 15. *)
Definition reserved_clear (s : sub) : Prop := (sub_coverage s / 16) mod 16 = 0.
Definition format (s : sub) : Z := sub_coverage s / 256.
