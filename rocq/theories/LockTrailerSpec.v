(** The trailer of a saved file: specification of C85. *)
From Coq Require Import String List ZArith Bool.
From Verif Require Import Base OutputSpec PdfSyntax Api.
Open Scope Z_scope.
Open Scope list_scope.

(** ISO 32000-1, 7.5.5: behind the rows of the cross-reference section stands the
    dictionary of the trailer; [d] are its entries (only one [d] fits,
    [entries_unique] in LockTrailer.v). *)
Definition trailer_entries (F : bytes) (d : list (bytes * pv)) : Prop :=
  exists xoff N base s r, startxref_is F xoff /\ xref_section F xoff N base /\ skipn (Z.to_nat (base + 20 * N)) F = B"trailer" ++ [10] ++ s /\ reads s (PDict d) r.
(** A call of SetProtection that was answered without error. *)
Definition protects (x : call * option err) : Prop := match x with (KProtect _ _ _ _, None) => True | _ => False end.
