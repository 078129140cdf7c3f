(** What a file of the writer GoPdf holds between its offsets, for opening it
    with pdft: specification side of C84. *)
From Coq Require Import String List ZArith Lia Bool.
From Coq.Floats Require Import SpecFloat.
From Verif Require Import Base Output OutputSpec PdfSyntax Float64 GoPdf GoPdfSpec GoPdfDocSpec ParseSpec.
Open Scope Z_scope.
Open Scope list_scope.

(** Object [id] reaches from the offset of its row to that of the next row, the
    last one to the table. *)
Definition reaches (F : bytes) (id off next : Z) : Prop :=
  exists N base, table F N base /\ 0 < id < N /\ row_at F base id off 0 110 /\
    ((id + 1 < N /\ row_at F base (id + 1) next 0 110) \/ (id + 1 = N /\ startxref_is F next)).

(** [b] is what stands between the lines "id 0 obj" and "endobj" of object [id]. *)
Definition body_of (F : bytes) (id : Z) (b : bytes) : Prop :=
  exists off next d, reaches F id off next /\ numeral d id /\ 0 <= off <= next /\
    firstn (Z.to_nat (next - off)) (skipn (Z.to_nat off) F) = d ++ B" 0 obj" ++ [10] ++ b ++ B"endobj" ++ [10; 10].

(** No object holds one of the words by which pdft finds its way. *)
Definition no_words (F : bytes) : Prop := forall id b, body_of F id b ->
  free_of (B"endobj") b /\ free_of (B"xref") b /\ free_of (B"trailer") b.

(** What SetInfo gets: strings are bytes, and the date is printed in the form
    20060102150405-07'00'. *)
Definition date_char (c : Z) : Prop := 48 <= c <= 57 \/ c = 39 \/ c = 43 \/ c = 45.
Definition real_text (s : bytes) : Prop := Forall (fun c => 0 <= c < 256) s.
Definition real_info (i : ginfo) : Prop :=
  real_text (i_title i) /\ real_text (i_author i) /\ real_text (i_subject i) /\ real_text (i_creator i) /\ real_text (i_producer i) /\
  match i_date i with None => True | Some d => Forall date_char d end.
Definition real_infos (t : trace) : Prop := forall i, info_of t = Some i -> real_info i.

(** [os] are the objects 1 to n of the file, in this order. *)
Definition all_objects (F : bytes) (os : list obj) : Prop :=
  exists base, table F (1 + Z.of_nat (List.length os)) base /\
  forall k o, nth_error os k = Some o -> oid o = 1 + Z.of_nat k /\ exists b, body_of F (oid o) b /\ odata o = [10] ++ b.

(** A page got a size of its own. *)
Definition own_size (p : f64 * f64 * trace) : bool := negb (zero (fst (fst p)) && zero (snd (fst p))).

(** strconv.ParseFloat reads "0" and what "%0.2f" prints. *)
Definition accepts (float : bytes -> res f64) : Prop := (exists z, float (B"0") = Ok z) /\ forall x, exists y, float (fmt2 x) = Ok y.

(** The sizes kept for pages k, k + 1, ...: what ParseFloat makes of "0", "0" and
    the numbers printed. *)
Inductive sizes_are (float : bytes -> res f64) : Z -> list (f64 * f64 * trace) -> list (Z * list f64) -> Prop :=
| sizes_end : forall k, sizes_are float k [] []
| sizes_page : forall k p ps z x y l, float (B"0") = Ok z -> float (fmt2 (fst (fst p))) = Ok x -> float (fmt2 (snd (fst p))) = Ok y ->
    sizes_are float (k + 1) ps l -> sizes_are float k (p :: ps) ((k, [z; z; x; y]) :: l).
