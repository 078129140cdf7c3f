(** Reading a document: pdf_parse.go, xref_data.go, regex.go and parse of
    pdf_obj_data.go. *)
From Coq Require Import String List ZArith Lia Bool.
From Coq.Floats Require Import SpecFloat.
From Verif Require Import Base Output Props PdfData Float64.
Open Scope Z_scope.
Open Scope list_scope.

(** pdf_data.go:14-21 PDFData: objects and catalog, the cross-reference rows
    that were read (xref_data.go:10-14; G5Digit is never used) and pageSizes.
    pagesObj is never used. *)
Record doc := mkDoc { d_pdf : pdf; d_xrefs : list (Z * bytes); d_sizes : list (Z * list f64) }.

(** ** Regular expressions, regex.go:5-10 *)

(** The number of characters of a class at the start. *)
Fixpoint run_len (f : Z -> bool) (s : bytes) : nat :=
  match s with c :: s' => if f c then S (run_len f s') else O | [] => O end.
Definition is_blank (c : Z) : bool := (c =? 9) || (c =? 32).

(** line 6: ten digits, blanks, five digits, one blank, one of "f", comma, "n".
    Blanks and digits are disjoint, so there is no choice in matching. *)
Definition m_xrefline (s : bytes) : option nat :=
  if (10 <=? run_len is_digit s)%nat then
    let s1 := skipn 10 s in
    let k := run_len is_blank s1 in
    let s2 := skipn k s1 in
    if (1 <=? k)%nat && (5 <=? run_len is_digit s2)%nat then
      match skipn 5 s2 with
      | c :: d :: _ => if is_blank c && ((d =? 102) || (d =? 44) || (d =? 110)) then Some (17 + k)%nat else None
      | _ => None
      end
    else None
  else None.

(** line 7: digits, one white space, "0", one white space, "obj" *)
Definition m_startobj (s : bytes) : option nat :=
  let k := run_len is_digit s in
  match skipn k s with
  | c :: z :: d :: s' =>
    if (1 <=? k)%nat && is_ws4 c && (z =? 48) && is_ws4 d && prefixb (B"obj") s' then Some (6 + k)%nat else None
  | _ => None
  end.

(** FindAllIndex(s, 1) *)
Definition find_first (m : bytes -> option nat) (s : bytes) : option (nat * nat) := hd_error (find_all m s).

(** s[i:j] of a string for offsets of a match *)
Definition sub (s : bytes) (i j : nat) : bytes := firstn (j - i) (skipn i s).

(** ** Cross-reference rows *)

(** xref_data.go:16-39 parse *)
Definition xref_parse (line : bytes) : res (Z * bytes) :=
  match split1 32 (trim_space line) with
  | a :: b :: c :: _ =>
    do n <- atoi (trim_space a);
    do _ <- atoi (trim_space b);
    let k := trim_space c in
    if beqb k (B"n") || beqb k (B"f") then Ok (n, k) else Err EOther
  | _ => Err EOther
  end.

(** pdf_parse.go:150-171 parseXref: the rows read so far, and how it ended; rows
    are appended to those that are there. *)
Fixpoint xref_rows_of (raw : bytes) (start : nat) (ms : list (nat * nat)) (acc : list (Z * bytes)) : list (Z * bytes) * res unit :=
  match ms with
  | [] => (acc, Ok tt)
  | (i, j) :: ms' =>
    if (i <? start)%nat then xref_rows_of raw start ms' acc
    else match xref_parse (sub raw i j) with
         | Ok x => xref_rows_of raw start ms' (acc ++ [x])
         | Err e => (acc, Err e)
         | Panic => (acc, Panic)
         | Diverge => (acc, Diverge)
         end
  end.
Definition parseXref (raw : bytes) (xs : list (Z * bytes)) : list (Z * bytes) * res unit :=
  match find_first (m_lit (B"xref")) raw with
  | None => (xs, Err EOther)
  | Some (_, e) => xref_rows_of raw e (find_all m_xrefline raw) xs
  end.

(** pdf_parse.go:117-148 parseTrailer: the number of the catalog *)
Definition parseTrailer (raw : bytes) : res Z :=
  match find_first (m_lit (B"trailer")) raw with
  | None => Err EOther
  | Some (_, t) =>
    match find_first (m_lit (B"startxref")) raw with
    | None => Err EOther
    | Some (s, _) =>
      do tmp <- slice raw (Z.of_nat t) (Z.of_nat s);
      do props <- readProperties tmp;
      match getPropByKey (B"Root") props with
      | None => Err EOther
      | Some p => readObjID (pval p)
      end
    end
  end.

(** pdf_data.go:617-627 objIDFromStartObjLine *)
Definition objIDFromStartObjLine (line : bytes) : res Z :=
  match fields line with
  | a :: _ :: _ :: _ => atoi (trim_space a)
  | _ => Err EOther
  end.

(** pdf_obj_data.go:17-45 parse *)
Definition obj_parse (raw : bytes) (off : Z) : res obj :=
  do tmp <- from raw off;
  match find_first (m_lit (B"endobj")) tmp with
  | None => Err EOther
  | Some (e, _) =>
    let tmp := firstn e tmp in
    match find_first m_startobj tmp with
    | None => Err EOther
    | Some (i, j) =>
      do id <- objIDFromStartObjLine (sub tmp i j);
      Ok (mkObj id (skipn j tmp))
    end
  end.

(** pdf_parse.go:173-187 parseObjOnlyKeywordN *)
Fixpoint parseObjs (raw : bytes) (xs : list (Z * bytes)) (p : pdf) : pdf * res unit :=
  match xs with
  | [] => (p, Ok tt)
  | (n, k) :: xs' =>
    if beqb k (B"n") then
      match obj_parse raw n with
      | Ok o => parseObjs raw xs' (put p o)
      | Err e => (p, Err e)
      | Panic => (p, Panic)
      | Diverge => (p, Diverge)
      end
    else parseObjs raw xs' p
  end.

(** pdf_parse.go:95-115 setPagesObj, which only checks *)
Definition setPagesObj (p : pdf) : res unit :=
  do o <- getObj (root p) (objs p);
  do ps <- readProperties (odata o);
  match getPropByKey (B"Pages") ps with
  | None => Err EOther
  | Some pr => do _ <- readObjID (pval pr); Ok tt
  end.

(** ** Page sizes *)

(** strings.TrimPrefix and TrimSuffix with one character *)
Definition trim_prefix1 (c : Z) (s : bytes) : bytes :=
  match s with a :: s' => if a =? c then s' else s | [] => [] end.
Definition trim_suffix1 (c : Z) (s : bytes) : bytes := rev (trim_prefix1 c (rev s)).

(** pdf_parse.go:75-93 parseFloatSlice; [float] is strconv.ParseFloat *)
Fixpoint parse_all (float : bytes -> res f64) (ts : list bytes) : res (list f64) :=
  match ts with [] => Ok [] | t :: ts => do x <- float t; do l <- parse_all float ts; Ok (x :: l) end.
Definition parseFloatSlice (float : bytes -> res f64) (s : bytes) : res (list f64) :=
  parse_all float (fields (trim_suffix1 93 (trim_prefix1 91 (trim_space s)))).

(** pdf_parse.go:48-73 parsePageSize: readProperty may give nil, and valType of
    nil panics *)
Fixpoint page_sizes (float : bytes -> res f64) (os : list obj) (n : Z) (ids : list Z) (acc : list (Z * list f64))
  : list (Z * list f64) * res unit :=
  match ids with
  | [] => (acc, Ok tt)
  | id :: ids' =>
    match (do o <- getObj id os; readProperty (odata o) (B"MediaBox")) with
    | Ok None => (acc, Panic)
    | Ok (Some p) =>
      match propertyType (pval p) with
      | PArray =>
        match parseFloatSlice float (pval p) with
        | Ok l => page_sizes float os (n + 1) ids' (acc ++ [(n, l)])
        | Err e => (acc, Err e)
        | Panic => (acc, Panic)
        | Diverge => (acc, Diverge)
        end
      | _ => page_sizes float os (n + 1) ids' acc
      end
    | Err e => (acc, Err e)
    | Panic => (acc, Panic)
    | Diverge => (acc, Diverge)
    end
  end.

(** ** pdf_parse.go:13-46 PDFParse on a document that may hold another one: rows
    and objects are added, the rows that were there are read again from the new
    file *)
Definition PDFParse (float : bytes -> res f64) (fuel : nat) (raw : bytes) (d : doc) : doc * res unit :=
  let '(xs, r1) := parseXref raw (d_xrefs d) in
  let d1 := mkDoc (d_pdf d) xs (d_sizes d) in
  match r1 with
  | Ok _ =>
    match parseTrailer raw with
    | Ok rt =>
      let '(p, r2) := parseObjs raw xs (mkPdf rt (objs (d_pdf d))) in
      let d2 := mkDoc p xs (d_sizes d) in
      match r2 with
      | Ok _ =>
        match setPagesObj p with
        | Ok _ =>
          match getPageObjIDs fuel p with
          | Ok ids => let '(s, r3) := page_sizes float (objs p) 0 ids [] in (mkDoc p xs s, r3)
          | Err e => (mkDoc p xs [], Err e)
          | Panic => (mkDoc p xs [], Panic)
          | Diverge => (mkDoc p xs [], Diverge)
          end
        | Err e => (d2, Err e)
        | Panic => (d2, Panic)
        | Diverge => (d2, Diverge)
        end
      | e => (d2, e)
      end
    | Err e => (d1, Err e)
    | Panic => (d1, Panic)
    | Diverge => (d1, Diverge)
    end
  | e => (d1, e)
  end.

(** ** A document *)
Definition sample_page : list obj :=
  [mkObj 1 (B"<</Type/Catalog/Pages 2 0 R>>"); mkObj 2 (B"<</Type/Pages/Count 1/Kids[3 0 R]>>");
   mkObj 3 (B"<</Type/Page/Parent 2 0 R/MediaBox[0 0 612 792]/Resources<</Font<</F1 5 0 R>>>>/Contents 4 0 R>>");
   mkObj 4 (B"<</Length 4>>" ++ [10] ++ B"stream" ++ [10] ++ B"q Q " ++ B"endstream"); mkObj 5 (B"<</Type/Font>>")].
(** ParseFloat on whole numbers *)
Definition whole (s : bytes) : res f64 := do n <- atoi s; Ok (fofz n).
Example parse_case : let d := mkDoc (mkPdf 0 []) [] [] in
  PDFParse whole 5 (toStream sample_page 5 1 None) d
  = (mkDoc (mkPdf 1 (map (fun o => mkObj (oid o) ([10] ++ odata o ++ [10])) sample_page))
       ((0, B"f") :: map (fun n => (n, B"n")) [10; 56; 108; 221; 272]) [(0, map fofz [0; 0; 612; 792])], Ok tt).
Proof. vm_compute. reflexivity. Qed.
