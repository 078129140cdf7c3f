(** What a reader finds in a file of the writer GoPdf, and what a program asked
    for: specification side of C61-C68. *)
From Coq Require Import String List ZArith Lia Bool.
From Coq.Floats Require Import SpecFloat.
From Verif Require Import Base OutputSpec PdfSyntax Float64 TextSpec GoPdf.
Open Scope Z_scope.
Open Scope list_scope.

(** ** Files *)

(** ISO 32000-1, 7.5.4: a section with one subsection "0 N"; its rows start at [base]. *)
Definition sect (F : bytes) (xoff N base : Z) : Prop :=
  exists d, numeral d N /\ text_at F xoff (B"xref" ++ [10] ++ B"0 " ++ d ++ [10]) /\
    base = xoff + blen (B"xref" ++ [10] ++ B"0 " ++ d ++ [10]).

(** The cross-reference section that the end of the file points to. *)
Definition table (F : bytes) (N base : Z) : Prop := exists xoff, startxref_is F xoff /\ sect F xoff N base.

(** [s] is the file from the end of the line "id 0 obj" on, found by the table. *)
Definition object_text (F : bytes) (id : Z) (s : bytes) : Prop :=
  exists N base off d, table F N base /\ 0 < id < N /\ row_at F base id off 0 110 /\ numeral d id /\
    0 <= off /\ skipn (Z.to_nat off) F = d ++ B" 0 obj" ++ [10] ++ s.

Definition closes (r : bytes) : Prop := exists t, skip r = B"endobj" ++ [10] ++ t.
Definition object_is (F : bytes) (id : Z) (v : pv) : Prop := exists s r, object_text F id s /\ reads s v r /\ closes r.
Definition stream_is (F : bytes) (id : Z) (d : list (bytes * pv)) (b : bytes) : Prop :=
  exists s, object_text F id s /\ stream_object s d b.

(** The trailer: a dictionary behind the rows, and behind it the end of the file. *)
Definition trailer_is (F : bytes) (v : pv) : Prop :=
  exists N base s r t, table F N base /\ 0 <= base /\ 0 <= N /\ skipn (Z.to_nat (base + 20 * N)) F = B"trailer" ++ [10] ++ s /\
    reads s v r /\ skip r = B"startxref" ++ t.

(** ** Programs *)

(** The calls of a program one after the other: the state before the call, the
    call, and the error it returned. *)
Definition trace := list (gp * gcall * option err).
Inductive runs (w : gworld) (g0 : gp) : trace -> gp -> Prop :=
| runs_start : runs w g0 [] g0
| runs_call : forall t g c g' e, runs w g0 t g -> gstep w g c = Ok (g', e) -> runs w g0 (t ++ [(g, c, e)]) g'.

(** A new document with a configuration, the calls, and the bytes of the first
    GetBytesPdf after them. *)
Definition document (w : gworld) (rnd : bytes) (cfg : gconfig) (t : trace) (F : bytes) : Prop :=
  exists g0 g g', g_start rnd cfg gp0 = Ok g0 /\ runs w g0 t g /\ g_bytes w g = Ok (g', F).

(** What was called for each page; what was called before the first is not here. *)
Fixpoint on_last {A} (f : A -> A) (l : list A) : list A :=
  match l with [] => [] | [x] => [f x] | x :: l => x :: on_last f l end.
Definition page_step (ps : list (f64 * f64 * trace)) (x : gp * gcall * option err) : list (f64 * f64 * trace) :=
  match snd (fst x) with
  | AddPage o => ps ++ [(o, [])]
  | _ => on_last (fun p => (fst p, snd p ++ [x])) ps
  end.
Definition pages_of (t : trace) : list (f64 * f64 * trace) := fold_left page_step t [].

(** A call that draws. *)
Definition draws_something (x : gp * gcall * option err) : Prop :=
  snd x = None /\
  match snd (fst x) with
  | Text _ | Cell _ _ | CellOpt _ _ _ _ _ | ImageBy _ _ _ _ _ _ | LineWidth _ | LineType _ | Line _ _ _ _ | RectLower _ _ _ _ _
  | RectUpper _ _ _ _ _ | Oval _ _ _ _ | Curve _ _ _ _ _ _ _ _ _ | GrayFill _ | GrayStroke _ | StrokeColor _ | FillColor _ => True
  | _ => False
  end.

(** ** Pages *)

Definition zero (x : f64) : bool := match x with S754_zero _ => true | _ => false end.
(** The size asked for: that of the option, or if it is zero that of the document. *)
Definition asked (cfg : gconfig) (o : f64 * f64) : f64 * f64 := if zero (fst o) && zero (snd o) then (cfg_w cfg, cfg_h cfg) else o.

Definition is_box (v : pv) (size : f64 * f64) : Prop :=
  exists x y a b, v = PArr [PInt 0; PInt 0; x; y] /\ num x = Some a /\ num y = Some b /\ near (fst size) a /\ near (snd size) b.

(** Object 2 is the root of the page tree, with a box for pages that have none
    and the kids [l]. *)
Definition root_is (F : bytes) (std : f64 * f64) (kids : list Z) : Prop :=
  exists box, object_is F 1 (PDict [(B"Type", PName (B"Catalog")); (B"Pages", PRef 2 0)]) /\
    object_is F 2 (PDict [(B"Type", PName (B"Pages")); (B"MediaBox", box); (B"Count", PInt (Z.of_nat (List.length kids)));
                          (B"Kids", PArr (map (fun k => PRef k 0) kids))]) /\ is_box box std.

(** Object [k] is a page of some size with one content stream, object [c]. *)
Definition page_is (F : bytes) (k : Z) (std size : f64 * f64) (c : Z) : Prop :=
  exists d, object_is F k (PDict d) /\ lookup (B"Type") d = Some (PName (B"Page")) /\ lookup (B"Parent") d = Some (PRef 2 0) /\
    lookup (B"Resources") d = Some (PRef 3 0) /\ lookup (B"Contents") d = Some (PRef c 0) /\
    match lookup (B"MediaBox") d with Some b => is_box b size | None => size = std end.
