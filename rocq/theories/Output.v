(** The file writer: pdft.go 677-767. *)
From Coq Require Import String List ZArith Lia Bool.
From Verif Require Import Base.
Open Scope Z_scope.
Open Scope list_scope.

(** pdf_obj_data.go:11-15  PDFObjData *)
Record obj := mkObj { oid : Z; odata : bytes }.

(** One object as written by toStream, pdft.go:702-704:
    "\n%d 0 obj\n", TrimSpace(data), "\nendobj\n". *)
Definition obj_header (id : Z) : bytes := [10] ++ itoa id ++ B" 0 obj" ++ [10].
Definition obj_text (o : obj) : bytes :=
  obj_header (oid o) ++ trim_space (odata o) ++ [10] ++ B"endobj" ++ [10].

(** pdft.go:696-697 *)
Definition pdf_header : bytes := B"%PDF-1.7" ++ [10; 10].

(** The loop of pdft.go:698-705.  [xrefs] is the Go map objID -> offset, as an
    association list whose first entry for a key is the current one. *)
Fixpoint write_objs (objs : list obj) (buff : bytes) (xrefs : list (Z * Z)) : bytes * list (Z * Z) :=
  match objs with
  | [] => (buff, xrefs)
  | o :: objs' => write_objs objs' (buff ++ obj_text o) ((oid o, blen buff) :: xrefs)
  end.

Fixpoint map_get {A} (m : list (Z * A)) (k : Z) : option A :=
  match m with
  | [] => None
  | (k', v) :: m' => if k =? k' then Some v else map_get m' k
  end.

(** pdft.go:712-716 xrefrow *)
Record xrefrow := mkRow { xr_off : Z; xr_gen : bytes; xr_flag : bytes }.

Fixpoint set_nth {A} (n : nat) (f : A -> A) (l : list A) : list A :=
  match l, n with
  | [], _ => []
  | x :: l', O => f x :: l'
  | x :: l', S n' => x :: set_nth n' f l'
  end.

(** The loop of pdft.go:728-739; [j] runs over the given list of row numbers,
    the state is (xrefrows, lastIndexOfF). *)
Fixpoint xref_loop (linelens : list (Z * Z)) (js : list nat) (rows : list xrefrow) (lastF : nat)
  : list xrefrow * nat :=
  match js with
  | [] => (rows, lastF)
  | j :: js' =>
    match map_get linelens (Z.of_nat j) with
    | Some off => xref_loop linelens js' (rows ++ [mkRow off (B"00000") (B"n")]) lastF
    | None =>
      let rows1 := rows ++ [mkRow 0 (B"65535") (B"f")] in
      let offset := (List.length rows1 - 1)%nat in
      let rows2 := set_nth lastF (fun r => mkRow (Z.of_nat offset) (xr_gen r) (xr_flag r)) rows1 in
      xref_loop linelens js' rows2 offset
    end
  end.

(** pdft.go:724-739 *)
Definition xref_rows (linelens : list (Z * Z)) (size : Z) : list xrefrow :=
  fst (xref_loop linelens (seq 1 (Z.to_nat size)) [mkRow 0 (B"65535") (B"f")] 0%nat).

(** pdft.go:761-767 formatXrefline: pad on the left with zeros to ten places. *)
Definition formatXrefline (n : Z) : bytes :=
  let s := itoa n in repeat 48 (10 - List.length s) ++ s.

(** pdft.go:741-743 *)
Definition row_text (r : xrefrow) : bytes :=
  formatXrefline (xr_off r) ++ [32] ++ xr_gen r ++ [32] ++ xr_flag r ++ [32; 10].

(** pdft.go:718-759 xref; [enc] is the object number of the encryption
    dictionary when a protection is set. *)
Definition xref_head (size : Z) : bytes := [10] ++ B"xref" ++ [10] ++ B"0 " ++ itoa (size + 1) ++ [13; 10].

Definition trailer_text (size root : Z) (enc : option Z) (xoff : Z) : bytes :=
  B"trailer" ++ [10] ++ B"<<" ++ [10]
  ++ B"/Size " ++ itoa (size + 1) ++ [10]
  ++ B"/Root " ++ itoa root ++ B" 0 R" ++ [10]
  ++ (match enc with
      | Some e => B"/Encrypt " ++ itoa e ++ B" 0 R" ++ [10] ++ B"/ID [()()]" ++ [10]
      | None => []
      end)
  ++ B">>" ++ [10]
  ++ B"startxref" ++ [10] ++ itoa xoff ++ [10] ++ B"%%EOF" ++ [10].

Definition xref_text (linelens : list (Z * Z)) (xoff size root : Z) (enc : option Z) : bytes :=
  xref_head size
  ++ concat (map row_text (xref_rows linelens size))
  ++ trailer_text size root enc xoff.

(** pdft.go:696-709: writing of the already completed object list. *)
Definition write_file (objs : list obj) (lastID root : Z) (enc : option Z) : bytes :=
  let '(buff, xrefs) := write_objs objs pdf_header [] in
  buff ++ xref_text xrefs (blen buff) lastID root enc.

(** pdft.go:677-710 toStream; [enObj] is the body of the encryption dictionary
    when SetProtection was called. *)
Definition toStream (objs : list obj) (lastID root : Z) (enObj : option bytes) : bytes :=
  match enObj with
  | None => write_file objs lastID root None
  | Some d => write_file (objs ++ [mkObj (lastID + 1) d]) (lastID + 1) root (Some (lastID + 1))
  end.
