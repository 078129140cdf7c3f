(** Specification vocabulary for page contents (C12-C14, C16). *)
From Coq Require Import String List ZArith Lia Bool.
From Verif Require Import Base Output Props PropsSpec PdfData PagesSpec.
Open Scope Z_scope.
Open Scope list_scope.

(** In the table a ++ o :: b, the object o is the one its number stands for. *)
Definition stands (a : list obj) (o : obj) (b : list obj) : Prop :=
  (annotated o /\ forall q, In q b -> oid q = oid o -> ~ annotated q) \/
  ((forall q, In q (a ++ o :: b) -> oid q = oid o -> ~ annotated q) /\ forall q, In q a -> oid q <> oid o).

(** The only entry with key k has value v. *)
Definition only (ps : list prop) (k v : bytes) : Prop :=
  exists a b, ps = a ++ mkProp k v :: b /\ forall q, In q (a ++ b) -> pkey q <> k.

(** The length a stream dictionary declares: a number, or a reference to an
    object that holds the number. *)
Inductive declared (os : list obj) (ps : list prop) (n : Z) : Prop :=
| dec_direct : forall v, value ps (B"Length") v -> atoi (trim_space v) = Ok n -> declared os ps n
| dec_ref : forall v id o, value ps (B"Length") v -> readObjID v = Ok id -> version os id o ->
    atoi (trim_space (odata o)) = Ok n -> declared os ps n.

(** The first byte is not white space, nor the first byte of a white-space
    character in UTF-8. *)
Definition plain_start (s : bytes) : Prop :=
  match s with
  | [] => True
  | c :: _ => ~ (9 <= c <= 13) /\ c <> 32 /\ c <> 194 /\ ~ (225 <= c <= 227)
  end.

Definition line_end (e : bytes) : Prop := e = [10] \/ e = [13; 10].

(** The object text [d] is a stream with entries ps and (encoded) bytes raw:
    dictionary, "stream", line end, the declared number of bytes, "endstream"
    after that, and white space. *)
Definition stream_text (os : list obj) (d : bytes) (ps : list prop) (raw : bytes) : Prop :=
  exists head eol t u, d = head ++ B"stream" ++ eol ++ raw ++ t ++ B"endstream" ++ u /\ before_stream d head /\
    line_end eol /\ forallb is_space1 u = true /\ readProperties d = Ok ps /\ declared os ps (blen raw).

(** The bytes the stream stands for: no filter, or Flate.  (The dictionary
    reader turns the name /FlateDecode after /Filter into a key.) *)
Inductive decodes (inflate : bytes -> res bytes) (ps : list prop) (raw : bytes) : bytes -> Prop :=
| dec_plain : ~ has_key ps (B"Filter") -> ~ has_key ps (B"FlateDecode") -> decodes inflate ps raw raw
| dec_flate : forall s, has_key ps (B"Filter") -> has_key ps (B"FlateDecode") -> inflate raw = Ok s ->
    decodes inflate ps raw s.

(** Object number and decoded bytes of the content stream of page [pid]; None
    for a page without Contents. *)
Inductive source (inflate : bytes -> res bytes) (os : list obj) (pid : Z) : option (Z * bytes) -> Prop :=
| src_none : forall o ps, version os pid o -> entries o ps -> ~ has_key ps (B"Contents") ->
    source inflate os pid None
| src_some : forall o ps v cid co cps raw s, version os pid o -> entries o ps -> only ps (B"Contents") v ->
    readObjID v = Ok cid -> version os cid co -> stream_text os (odata co) cps raw -> plain_start raw ->
    decodes inflate cps raw s -> source inflate os pid (Some (cid, s)).

(** What is inserted: page number and drawing operators, in call order. *)
Definition inserts := list (Z * bytes).
Definition inserted (ins : inserts) (k : Z) : Prop := exists s, In (k, s) ins.
Fixpoint drawn (ins : inserts) (k : Z) : bytes :=
  match ins with
  | [] => []
  | (j, s) :: ins' => if j =? k then s ++ drawn ins' k else drawn ins' k
  end.

(** Page k (counted from 1) has an insert, and content object cid with bytes s. *)
Definition writes (srcs : list (option (Z * bytes))) (ins : inserts) (k cid : Z) (s : bytes) : Prop :=
  1 <= k /\ nth_error srcs (Z.to_nat (k - 1)) = Some (Some (cid, s)) /\ inserted ins k.

(** An unfiltered stream with exact length. *)
Definition plain_stream (d body : bytes) : Prop :=
  exists head, d = head ++ B"stream" ++ [10] ++ body ++ B"endstream" /\ before_stream d head /\
    readProperties d = Ok [mkProp (B"Length") (itoa (blen body))].

(** The effect of saving on the objects that were there: the content object of
    a page with inserts becomes a stream of the old bytes, a newline and the
    page's inserts; everything else stays. *)
Definition content_effect (p p' : pdf) (srcs : list (option (Z * bytes))) (ins : inserts) : Prop :=
  root p' = root p /\ List.length (objs p') = List.length (objs p) /\
  forall a o b, objs p = a ++ o :: b -> exists o', nth_error (objs p') (List.length a) = Some o' /\ oid o' = oid o /\
    (forall k s, stands a o b -> writes srcs ins k (oid o) s ->
       (forall k' s', k < k' -> ~ writes srcs ins k' (oid o) s') ->
       plain_stream (odata o') (s ++ [10] ++ drawn ins k)) /\
    (~ stands a o b \/ (forall k s, ~ writes srcs ins k (oid o) s) -> o' = o).
