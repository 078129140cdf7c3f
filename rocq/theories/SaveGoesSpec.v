(** Words for when saving a document succeeds. *)
From Coq Require Import String List ZArith.
From Verif Require Import Base Output Props PdfData PagesSpec Crawl Inject InjectSpec.
Open Scope Z_scope.
Open Scope list_scope.

(** A font of a page: a name that is letters and a number, and a reference. *)
Definition readable_font (q : prop) : Prop := numbered_name (pkey q) /\ exists n, readObjID (pval q) = Ok n.

(** The blanks within a text. *)
Definition blanks (v : bytes) : nat := count_occ Z.eq_dec (trim_space v) 32.

(** Resources in a page that are told from a reference to them.  A reference is
    what has two blanks; where there are fonts the text is written anew before
    it is looked at. *)
Definition recognised (os : list obj) (L : Z) (rp : res_place) : Prop :=
  match rp with
  | ResIn _ (FontIn fps) => fps <> []
  | ResIn _ _ => forall ps v, dict os L ps -> value ps (B"Resources") v -> blanks v <> 2%nat
  | _ => True
  end.

(** Behind the first "stream" of a text, if there is one, comes an "endstream". *)
Definition ends_stream (d : bytes) : Prop :=
  forall a b, d = a ++ B"stream" ++ b -> (forall a' b', d = a' ++ B"stream" ++ b' -> (List.length a <= List.length a')%nat) ->
  exists x y, b = x ++ B"endstream" ++ y.
