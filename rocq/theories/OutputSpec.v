(** What a PDF reader does with the end of a file: specification side of
    C01-C03.  Nothing here refers to the writer. *)
From Coq Require Import String List ZArith Lia Bool.
From Verif Require Import Base.
Open Scope Z_scope.
Open Scope list_scope.

(** The file has text [s] at byte offset [off]. *)
Definition text_at (F : bytes) (off : Z) (s : bytes) : Prop :=
  0 <= off /\ firstn (List.length s) (skipn (Z.to_nat off) F) = s.

(** [numeral s v]: [s] is an unsigned decimal numeral of value [v]. *)
Definition numeral (s : bytes) (v : Z) : Prop :=
  s <> [] /\ Forall (fun c => 48 <= c <= 57) s /\ fold_left (fun a c => 10 * a + (c - 48)) s 0 = v.

(** ISO 32000-1, 7.5.5: the last lines of the file hold the byte offset of the
    cross-reference section. *)
Definition startxref_is (F : bytes) (xoff : Z) : Prop :=
  exists pre d, F = pre ++ B"startxref" ++ [10] ++ d ++ [10] ++ B"%%EOF" ++ [10] /\ numeral d xoff.

(** ISO 32000-1, 7.5.4: a section with one subsection "0 N"; its rows start at [base]. *)
Definition xref_section (F : bytes) (xoff : Z) (N : Z) (base : Z) : Prop :=
  exists d, numeral d N /\
    text_at F xoff ([10] ++ B"xref" ++ [10] ++ B"0 " ++ d ++ [13; 10]) /\
    base = xoff + blen ([10] ++ B"xref" ++ [10] ++ B"0 " ++ d ++ [13; 10]).

(** Row [j] of a section: exactly 20 bytes "nnnnnnnnnn ggggg x \n". *)
Definition row_at (F : bytes) (base j : Z) (n g : Z) (flag : Z) : Prop :=
  exists dn dg, numeral dn n /\ List.length dn = 10%nat /\ numeral dg g /\ List.length dg = 5%nat /\
    text_at F (base + 20 * j) (dn ++ [32] ++ dg ++ [32; flag; 32; 10]).

(** An object definition "id 0 obj body endobj" at an offset; the offset may
    point at the line break in front of the number. *)
Definition object_at (F : bytes) (off id : Z) (body : bytes) : Prop :=
  exists d, numeral d id /\
    text_at F off ([10] ++ d ++ B" 0 obj" ++ [10] ++ body ++ [10] ++ B"endobj" ++ [10]).

(** The chain of free rows starting at row [j] visits [l] and then ends with
    a row whose next number is 0. *)
Inductive free_chain (F : bytes) (base : Z) : Z -> list Z -> Prop :=
| fc_end : forall j g, row_at F base j 0 g 102 -> free_chain F base j []
| fc_step : forall j k g l, row_at F base j k g 102 -> k <> 0 ->
    free_chain F base k l -> free_chain F base j (k :: l).

(** Strictly increasing list of numbers. *)
Inductive increasing : Z -> list Z -> Prop :=
| inc_nil : forall a, increasing a []
| inc_cons : forall a b l, a < b -> increasing b l -> increasing a (b :: l).
