(** Wrapped texts in the saved file (C72).  Specification. *)
From Coq Require Import String List ZArith Lia Bool Reals.
From Coq.Floats Require Import SpecFloat.
From Verif Require Import Base Utf8 Float64 Ttf TtfSpec Subset Text TextPlaceSpec TextFinal Wrap WrapProofs Api SaveDrawSpec.
Open Scope Z_scope.
Open Scope list_scope.

(** [lines] are the texts and their places below the upper edge that C31 says
    for the tokens: groups of tokens, as many in a line as fit into [w]. *)
Definition wrapped (f : sfont) (size : Z) (w y : f64) (align : Z) (toks : list bytes) (lines : list (bytes * f64)) : Prop :=
  exists groups off, List.concat groups = filter nonempty toks /\ map fst lines = map (fun g => trim_space (List.concat g)) groups /\
    Forall (fun g => (2 <= List.length g)%nat -> exists v, width_of f size (List.concat g) = Ok v /\ fgt v w = false) groups /\
    (forall p a b q, groups = p ++ a :: b :: q -> exists x v, hd_error b = Some x /\ width_of f size (List.concat a ++ x) = Ok v /\ fgt v w = true) /\
    map snd lines = map (fun z => fsub z off) (steps (List.length groups) y (fadd (fofz size) (fmul (fofz size) (fconst 2 10)))) /\
    (hasbit align aMiddle = false -> off = fofz 0).
(** What C57 asks of a line. *)
Definition settable (d : bytes) (f : font) (size : Z) (line : bytes * f64) : Prop :=
  has_widths d (fst line) /\ on_paper (snd line) /\ rise_fin (sfont_of f) size (fst line) /\ forall v, measure (sfont_of f) size (fst line) = Ok v -> on_paper v.
