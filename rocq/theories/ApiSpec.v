(** Vocabulary for statements about call histories.  What counts as registered,
    selected or placed is read off the list of calls and their answers. *)
From Coq Require Import String List ZArith Lia Bool.
From Coq.Floats Require Import SpecFloat.
From Verif Require Import Base Output Props PdfData Float64 Parse Api.
Open Scope Z_scope.
Open Scope list_scope.

Definition opens (e : entry) : bool := match fst e with KOpen _ => true | _ => false end.
Definition adds_font (e : entry) : bool := match e with (KAddFont _ _ _, None) => true | _ => false end.
Definition sets_font (e : entry) : bool := match e with (KSetFont _ _ _, None) => true | _ => false end.

Definition count (f : entry -> bool) (log : list entry) : nat := List.length (filter f log).

(** [name] was added with font file [file] after the last Open; it was the k-th
    font added in all (counting from 0). *)
Definition registered (log : list entry) (name : bytes) (k : nat) (file : option bytes) : Prop :=
  exists before beyond after,
    log = before ++ (KAddFont name file beyond, None) :: after /\
    forallb (fun e => negb (opens e)) after = true /\ k = count adds_font before.

(** The last SetFont that succeeded. *)
Definition selected (log : list entry) (name style : bytes) (size : Z) : Prop :=
  exists before after,
    log = before ++ (KSetFont name style size, None) :: after /\
    forallb (fun e => negb (sets_font e)) after = true.

(** The images of the InsertImgWithCache calls that succeeded, in order. *)
Definition cached (log : list entry) : list bytes :=
  flat_map (fun e => match e with (KImgCache _ img _ _ _ _ _, None) => [img] | _ => [] end) log.

(** Letter [c] (upper or lower case) occurs in a style text. *)
Definition letter (upper lower : Z) (style : bytes) : Prop := In upper style \/ In lower style.

(** The top of page object [id]: the fourth number of its MediaBox, which is an
    array in the page itself. *)
Definition media_height (float : bytes -> res f64) (os : list obj) (id : Z) (h : f64) : Prop :=
  exists o pr l, getObj id os = Ok o /\ readProperty (odata o) (B"MediaBox") = Ok (Some pr) /\
    propertyType (pval pr) = PArray /\ parseFloatSlice float (pval pr) = Ok l /\ nth_error l 3 = Some h.
