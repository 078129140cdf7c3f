(** The object table and the page tree: pdf_data.go 14-160, and the page
    functions of pdft.go 118-214. *)
From Coq Require Import String List ZArith Lia Bool.
From Verif Require Import Base Output Props.
Open Scope Z_scope.
Open Scope list_scope.

(** pdf_data.go:14-26 PDFData.  objIDs always holds the numbers of objs in the
    same order (put, pdf_data.go:33-36, is the only writer of both), so it is
    not kept separately; xrefs and pagesObj are only written, never read, after
    parsing and are left out here. pageSizes is modelled in Pdft.v. *)
Record pdf := mkPdf { root : Z; objs : list obj }.

(** pdf_data.go:33-36 put *)
Definition put (p : pdf) (o : obj) : pdf := mkPdf (root p) (objs p ++ [o]).

(** pdf_data.go:152-160 maxID *)
Definition maxID (os : list obj) : Z :=
  fold_left (fun m o => if m <? oid o then oid o else m) os 0.

(** pdf_data.go:38-43 putNewObject *)
Definition putNewObject (p : pdf) (data : bytes) : Z * pdf :=
  let newID := maxID (objs p) + 1 in (newID, put p (mkObj newID data)).

(** Does the object read and have the key "Annots"?  pdf_data.go:70 *)
Definition has_annots (o : obj) : bool :=
  match readProperties (odata o) with
  | Ok ps => match getPropByKey (B"Annots") ps with Some _ => true | None => false end
  | _ => false
  end.

(** Indices of the objects with a number; pdf_data.go:59-64 *)
Fixpoint indices (id : Z) (n : nat) (os : list obj) : list nat :=
  match os with
  | [] => []
  | o :: os' => if oid o =? id then n :: indices id (S n) os' else indices id (S n) os'
  end.

(** pdf_data.go:57-77 getObjByID: the pointer returned is represented by the
    index into objs; None is nil. *)
Definition getIdx (id : Z) (os : list obj) : option nat :=
  match indices id 0 os with
  | [] => None
  | [i] => Some i
  | i0 :: is => Some (fold_left (fun r i => match nth_error os i with
                                           | Some o => if has_annots o then i else r
                                           | None => r
                                           end) (i0 :: is) i0)
  end.

(** Following the pointer: nil is a run-time panic. *)
Definition getObj (id : Z) (os : list obj) : res obj :=
  match getIdx id os with
  | None => Panic
  | Some i => match nth_error os i with Some o => Ok o | None => Panic end
  end.

(** Assigning to the data field through the pointer. *)
Definition setData (id : Z) (data : bytes) (os : list obj) : res (list obj) :=
  match getIdx id os with
  | None => Panic
  | Some i => Ok (set_nth i (fun o => mkObj (oid o) data) os)
  end.

(** asDictionary through a *PDFObjPropertyData that may be nil, lines 44-46 of
    pdf_obj_property_data.go *)
Definition asDictionary (p : option prop) : res Z :=
  match p with None => Panic | Some p => readObjID (pval p) end.

(** pdf_data.go:141-143 isPage for readable entries *)
Definition isPage (ps : list prop) : bool :=
  match getPropByKey (B"Page") ps with Some _ => true | None => false end.

(** The visit function of pdf_data.go:135-147.  The property cache
    (lines 112-122) does not change results and is left out.  [fuel] bounds the
    depth; Go's recursion is unbounded. *)
Fixpoint visit (fuel : nat) (os : list obj) (id : Z) : res (list Z) :=
  match fuel with
  | O => Diverge
  | S f =>
    do o <- getObj id os;
    match readProperties (odata o) with
    | Ok ps =>
      let page := Ok (if isPage ps then [id] else []) in
      match getPropByKey (B"Pages") ps, getPropByKey (B"Kids") ps with
      | Some _, Some kid =>
        match readObjIDs (pval kid) with
        | Ok ids =>
          (fix go (l : list Z) : res (list Z) :=
             match l with
             | [] => Ok []
             | k :: l' => do a <- visit f os k; do b <- go l'; Ok (a ++ b)
             end) ids
        | Err _ => page
        | Panic => Panic
        | Diverge => Diverge
        end
      | _, _ => page
      end
    | Err _ => Ok []
    | Panic => Panic
    | Diverge => Diverge
    end
  end.

(** pdf_data.go:108-150 getPageObjIDs.  Errors of the first two calls are
    ignored by the code: an unreadable catalog leaves a nil map (panic), an
    unreadable reference leaves the number 0. *)
Definition getPageObjIDs (fuel : nat) (p : pdf) : res (list Z) :=
  do o <- getObj (root p) (objs p);
  match readProperties (odata o) with
  | Ok ps =>
    match getPropByKey (B"Pages") ps with
    | None => Panic
    | Some pr =>
      match readObjID (pval pr) with
      | Ok pid => visit fuel (objs p) pid
      | Err _ => visit fuel (objs p) 0
      | Panic => Panic
      | Diverge => Diverge
      end
    end
  | _ => Panic
  end.

(** pdft.go:186-205 setPages *)
Definition setPages (p : pdf) (ids : list Z) : res pdf :=
  do ro <- getObj (root p) (objs p);
  do rps <- readProperties (odata ro);
  do pid <- asDictionary (getPropByKey (B"Pages") rps);
  do po <- getObj pid (objs p);
  do ps <- readProperties (odata po);
  match getPropByKey (B"Count") ps with
  | None => Panic
  | Some _ =>
    let ps1 := setPropByKey (B"Count") (itoa (Z.of_nat (List.length ids))) ps in
    match getPropByKey (B"Kids") ps1 with
    | None => Panic
    | Some _ =>
      let ps2 := setPropByKey (B"Kids") (refArrText ids) ps1 in
      do os <- setData pid (setProperties ps2) (objs p);
      Ok (mkPdf (root p) os)
    end
  end.

(** l[i:] for a slice *)
Definition from {A} (l : list A) (i : Z) : res (list A) :=
  if (0 <=? i) && (i <=? Z.of_nat (List.length l)) then Ok (skipn (Z.to_nat i) l) else Panic.

(** copy(l[d:], l[s:]) on one slice (memmove semantics) *)
Definition copy_within {A} (l : list A) (d s : Z) : res (list A) :=
  do dst <- from l d;
  do src <- from l s;
  let m := Nat.min (List.length dst) (List.length src) in
  Ok (firstn (Z.to_nat d) l ++ firstn m src ++ skipn m dst).

(** l[i] = v *)
Definition set_at {A} (l : list A) (i : Z) (v : A) : res (list A) :=
  if (0 <=? i) && (i <? Z.of_nat (List.length l)) then Ok (set_nth (Z.to_nat i) (fun _ => v) l) else Panic.

(** What a call leaves behind: [Ok (p', None)] success with document p',
    [Ok (p', Some e)] error e with document p', [Panic], [Diverge]. *)
Definition outcome := res (pdf * option err).

(** A part that has not changed the document p when it fails. *)
Definition settle (p : pdf) (r : res pdf) : outcome :=
  match r with
  | Ok p' => Ok (p', None)
  | Err e => Ok (p, Some e)
  | Panic => Panic
  | Diverge => Diverge
  end.

(** pdft.go:159-171 RemovePage *)
Definition removePage (fuel : nat) (p : pdf) (k : Z) : outcome :=
  do ids <- getPageObjIDs fuel p;
  let n := Z.of_nat (List.length ids) in
  if (0 <? k) && (n <? k) then Ok (p, Some ENoPageRemove)
  else
    do ids1 <- copy_within ids (k - 1) k;
    if 1 <=? Z.of_nat (List.length ids1)
    then settle p (setPages p (firstn (List.length ids1 - 1) ids1)) else Panic.

(** pdft.go:174-184 RemoveOtherPages *)
Definition removeOtherPages (fuel : nat) (p : pdf) (k : Z) : outcome :=
  do ids <- getPageObjIDs fuel p;
  let n := Z.of_nat (List.length ids) in
  if (0 <? k) && (n <? k) then Ok (p, Some ENoPageKeep)
  else do id <- at_ ids k; settle p (setPages p [id]).

(** pdft.go:131-141 of DuplicatePageAfter: the entries of the page and the
    object its Contents entry refers to. *)
Definition pageContents (p : pdf) (pageId : Z) : res (list prop * obj) :=
  do pageObj <- getObj pageId (objs p);
  do props <- readProperties (odata pageObj);
  match getPropByKey (B"Contents") props with
  | None => Err ENoContents
  | Some pageContent =>
    do contentID <- readObjID (pval pageContent);
    do contentObj <- getObj contentID (objs p);
    Ok (props, contentObj)
  end.

(** pdft.go:118-156 DuplicatePageAfter *)
Definition duplicatePageAfter (fuel : nat) (p : pdf) (k pos : Z) : outcome :=
  do ids <- getPageObjIDs fuel p;
  let n := Z.of_nat (List.length ids) in
  if (0 <? k) && (n <? k) then Ok (p, Some ENoPageCopy)
  else
    do pageId <- at_ ids (k - 1);
    match pageContents p pageId with
    | Err e => Ok (p, Some e)
    | Panic => Panic
    | Diverge => Diverge
    | Ok (props, contentObj) =>
      let '(newContentID, p1) := putNewObject p (odata contentObj) in
      let props1 := setPropByKey (B"Contents") (refText newContentID) props in
      let '(newPageID, p2) := putNewObject p1 (setProperties props1) in
      let pos' := if pos <? 0 then n + pos else pos in
      do ids1 <- copy_within (ids ++ [0]) (pos' + 1) pos';
      do ids2 <- set_at ids1 (pos' + 1) newPageID;
      settle p2 (setPages p2 ids2)
    end.

(** pdft.go:208-214 GetNumberOfPage (getPageObjIDs never returns an error) *)
Definition getNumberOfPage (fuel : nat) (p : pdf) : res Z :=
  do ids <- getPageObjIDs fuel p; Ok (Z.of_nat (List.length ids)).
