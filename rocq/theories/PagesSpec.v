(** Specification vocabulary for the page tree (C07-C11, C18): which object a
    number stands for, what a page tree is, which documents are considered. *)
From Coq Require Import String List ZArith Lia Bool.
From Verif Require Import Base Output Props PropsSpec PdfData.
Open Scope Z_scope.
Open Scope list_scope.

Definition entries (o : obj) (ps : list prop) : Prop := readProperties (odata o) = Ok ps.

(** The first entry with key k has value v; k is (not) a key. *)
Definition value (ps : list prop) (k v : bytes) : Prop :=
  exists a b, ps = a ++ mkProp k v :: b /\ forall q, In q a -> pkey q <> k.
Definition has_key (ps : list prop) (k : bytes) : Prop := exists v, In (mkProp k v) ps.

Definition annotated (o : obj) : Prop := exists ps, entries o ps /\ has_key ps (B"Annots").

(** The object that number [id] stands for: the last one with annotations, or,
    when none has any, the first one. *)
Definition version (os : list obj) (id : Z) (o : obj) : Prop :=
  exists a b, os = a ++ o :: b /\ oid o = id /\
    ((annotated o /\ forall q, In q b -> oid q = id -> ~ annotated q) \/
     ((forall q, In q os -> oid q = id -> ~ annotated q) /\ forall q, In q a -> oid q <> id)).

(** Page trees of any depth and width. *)
Inductive tree := Leaf (id : Z) | Node (id : Z) (kids : list tree).
Definition tid (t : tree) : Z := match t with Leaf i => i | Node i _ => i end.

(** Pages from left to right. *)
Fixpoint leaves (t : tree) : list Z :=
  match t with Leaf i => [i] | Node _ ts => flat_map leaves ts end.

Fixpoint depth (t : tree) : nat :=
  match t with Leaf _ => 1 | Node _ ts => S (fold_right (fun t m => Nat.max (depth t) m) 0%nat ts) end.

(** A page: the library takes the name /Page as key (see Props.v). *)
Definition page_entries (ps : list prop) : Prop :=
  has_key ps (B"Page") /\ ~ (has_key ps (B"Pages") /\ has_key ps (B"Kids")).

(** An inner node of the page tree, with the value of Kids. *)
Definition pages_entries (ps : list prop) (kids : bytes) : Prop :=
  has_key ps (B"Pages") /\ ~ has_key ps (B"Page") /\ value ps (B"Kids") kids.

(** The object numbers in the value of Kids; a list that cannot be read counts
    as empty. *)
Definition kid_numbers (v : bytes) (ids : list Z) : Prop :=
  readObjIDs v = Ok ids \/ (ids = [] /\ exists e, readObjIDs v = Err e).

Inductive holds (os : list obj) : tree -> Prop :=
| h_leaf : forall id o ps, version os id o -> entries o ps -> page_entries ps -> holds os (Leaf id)
| h_node : forall id o ps v ts, version os id o -> entries o ps -> pages_entries ps v ->
    kid_numbers v (map tid ts) -> Forall (holds os) ts -> holds os (Node id ts).

(** The catalog of the document refers to the page tree t. *)
Definition catalog (p : pdf) (id : Z) : Prop :=
  exists c ps v, version (objs p) (root p) c /\ entries c ps /\ value ps (B"Pages") v /\ readObjID v = Ok id.

Definition page_tree (p : pdf) (t : tree) : Prop := catalog p (tid t) /\ holds (objs p) t.

(** A dictionary that survives rewriting (see C06). *)
Definition rewritable (raw : bytes) : Prop :=
  exists head, before_stream raw head /\ is_ascii head /\ no_lone_angle head.

(** A document whose page tree root can be edited: it is an inner node with a
    Count, and it is not the catalog. *)
Definition editable (p : pdf) (rid : Z) (ts : list tree) : Prop :=
  page_tree p (Node rid ts) /\ root p <> rid /\
  (exists r ps, version (objs p) rid r /\ entries r ps /\ rewritable (odata r) /\ has_key ps (B"Count")) /\
  Forall is_int (leaves (Node rid ts)).

(** The page list the API shows, whatever the recursion depth available beyond
    some bound. *)
Definition page_list (p : pdf) (ids : list Z) : Prop :=
  exists f0, forall f, (f0 <= f)%nat -> getPageObjIDs f p = Ok ids.

(** /Count of the page tree root. *)
Definition page_count (p : pdf) (rid n : Z) : Prop :=
  exists r ps, version (objs p) rid r /\ entries r ps /\ value ps (B"Count") (itoa n).

(** Only the object standing for [rid] changes, and of it only the entries
    Count and Kids; [new] is added at the end. *)
Definition edits (p p' : pdf) (rid : Z) (new : list obj) : Prop :=
  root p' = root p /\ exists a r r' b ps ps', objs p = a ++ r :: b /\ objs p' = (a ++ r' :: b) ++ new /\
    version (objs p) rid r /\ version (objs p') rid r' /\ entries r ps /\ entries r' ps' /\
    (forall k v, k <> B"Count" -> k <> B"Kids" -> (value ps' k v <-> value ps k v)).

(** A page that can be duplicated: its dictionary survives rewriting and its
    Contents entry is a reference to an object that is there. *)
Definition copyable (os : list obj) (id : Z) : Prop :=
  exists o ps v c co, version os id o /\ entries o ps /\ rewritable (odata o) /\
    value ps (B"Contents") v /\ readObjID v = Ok c /\ version os c co.

(** Room for two more object numbers in an int. *)
Definition numbers_left (p : pdf) (n : Z) : Prop := forall o, In o (objs p) -> oid o + n < 2 ^ 63.

(** What a page shows: the bytes of its content object (which is not the page
    tree root) and its entries with the value of Contents blanked. *)
Definition blank (ps : list prop) : list prop :=
  map (fun q => if beqb (pkey q) (B"Contents") then mkProp (pkey q) [] else q) ps.

Definition shows (p : pdf) (rid id : Z) (view : bytes * list prop) : Prop :=
  exists o ps v c co, version (objs p) id o /\ entries o ps /\ value ps (B"Contents") v /\
    readObjID v = Ok c /\ c <> rid /\ version (objs p) c co /\ view = (odata co, blank ps).

(** Page operations on plain lists; page numbers count from 1. *)
Inductive op := Rm (k : Z) | Dup (k pos : Z).

Definition place (n pos : Z) : nat := Z.to_nat ((if pos <? 0 then n + pos else pos) + 1).

Definition list_op {A} (o : op) (l : list A) : list A :=
  match o with
  | Rm k => firstn (Z.to_nat (k - 1)) l ++ skipn (Z.to_nat k) l
  | Dup k pos =>
    let j := place (Z.of_nat (List.length l)) pos in
    firstn j l ++ firstn 1 (skipn (Z.to_nat (k - 1)) l) ++ skipn j l
  end.
Definition list_ops {A} (os : list op) (l : list A) : list A := fold_left (fun l o => list_op o l) os l.

(** The calls are in range for a document with n pages. *)
Fixpoint in_range (n : Z) (os : list op) : Prop :=
  match os with
  | [] => True
  | Rm k :: os' => 1 <= k <= n /\ in_range (n - 1) os'
  | Dup k pos :: os' => 1 <= k <= n /\ - n <= pos <= n - 1 /\ in_range (n + 1) os'
  end.

(** Making the calls, each of which must succeed. *)
Definition call (f : nat) (p : pdf) (o : op) : outcome :=
  match o with Rm k => removePage f p k | Dup k pos => duplicatePageAfter f p k pos end.
Fixpoint calls (f : nat) (p : pdf) (os : list op) (p' : pdf) : Prop :=
  match os with
  | [] => p' = p
  | o :: os' => exists p1, call f p o = Ok (p1, None) /\ calls f p1 os' p'
  end.
