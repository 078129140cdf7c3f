(** Specification vocabulary for reading a file back (C05, C17). *)
From Coq Require Import String List ZArith Lia Bool.
From Verif Require Import Base Output Props PdfData PagesSpec.
Open Scope Z_scope.
Open Scope list_scope.

Definition free_of (p s : bytes) : Prop := forall a b, s <> a ++ p ++ b.

(** None of the words by which the reader finds its way occurs in the object. *)
Definition plain_object (o : obj) : Prop :=
  free_of (B"xref") (odata o) /\ free_of (B"trailer") (odata o) /\ free_of (B"endobj") (odata o).

(** [o] is the last object of the list with its number. *)
Definition latest (os : list obj) (o : obj) : Prop :=
  exists pre post, os = pre ++ o :: post /\ ~ In (oid o) (map oid post).

(** The object with white space trimmed and a line break on either side. *)
Definition stored (o : obj) : obj := mkObj (oid o) ([10] ++ trim_space (odata o) ++ [10]).

(** ** What makes opening crash (C17) *)

(** [s] begins at [n] in the file for the first time. *)
Definition first_at (p raw : bytes) (n : Z) : Prop :=
  exists a b, raw = a ++ p ++ b /\ blen a = n /\ forall a' b', raw = a' ++ p ++ b' -> n <= blen a'.

(** The numbers the reader follows: from the catalog to the page tree and down.
    A reference that cannot be read counts as 0. *)
Inductive followed (p : pdf) : Z -> Prop :=
| fol_pages : forall c ps v i, version (objs p) (root p) c -> entries c ps -> value ps (B"Pages") v ->
    readObjID v = Ok i -> followed p i
| fol_kid : forall n o ps v ids i, followed p n -> version (objs p) n o -> entries o ps -> has_key ps (B"Pages") ->
    value ps (B"Kids") v -> readObjIDs v = Ok ids -> In i ids -> followed p i.

Inductive crash (raw : bytes) (xs : list (Z * bytes)) (p : pdf) : Prop :=
(** "startxref" comes before the end of "trailer" *)
| cr_trailer : forall t s, first_at (B"trailer") raw t -> first_at (B"startxref") raw s -> s < t + 7 -> crash raw xs p
(** a row in use points behind the end of the file *)
| cr_row : forall n, In (n, B"n") xs -> ~ (0 <= n <= blen raw) -> crash raw xs p
(** the catalog or an object of the page tree is not there *)
| cr_root : ~ In (root p) (map oid (objs p)) -> crash raw xs p
| cr_node : forall n, followed p n -> ~ In n (map oid (objs p)) -> crash raw xs p
(** a list of kids with a number left over *)
| cr_kids : forall n o ps v, followed p n -> version (objs p) n o -> entries o ps -> value ps (B"Kids") v ->
    readObjIDs v = Panic -> crash raw xs p
(** a page without a MediaBox *)
| cr_box : forall n o ps, followed p n -> version (objs p) n o -> entries o ps -> has_key ps (B"Page") ->
    ~ has_key ps (B"MediaBox") -> crash raw xs p.
