(** Specification vocabulary for images (C21, C44). *)
From Coq Require Import String List ZArith Lia Bool.
From Verif Require Import Base Output Props PropsSpec PdfData PagesSpec InjectSpec.
Open Scope Z_scope.
Open Scope list_scope.

(** A name such as Im1 or X12: letters of the alphabet, then the number [n]. *)
Definition image_number (k : bytes) (n : Z) : Prop :=
  exists c, k = c ++ itoa n /\ 0 <= n < 2 ^ 63 /\ Forall (fun x => 97 <= x <= 122 \/ 65 <= x <= 90) c.

(** Images with such names, each an object of its own. *)
Definition numbered_images (xps : list prop) : Prop :=
  forall q, In q xps -> regular_name (pkey q) /\ (exists n, image_number (pkey q) n) /\ exists o, readObjID (pval q) = Ok o.

(** The last image has the greatest number. *)
Definition last_greatest (xps : list prop) : Prop :=
  forall a q q' m n, xps = a ++ [q] -> In q' xps -> image_number (pkey q') m -> image_number (pkey q) n -> m <= n.

(** Neither the catalog nor the root of the page tree has resources. *)
Definition bare_top (p : pdf) (rid : Z) : Prop :=
  forall id ps, id = root p \/ id = rid -> dict (objs p) id ps -> ~ has_key ps (B"Resources").

(** No page has an image dictionary that is an object of its own or belongs to a
    resource object. *)
Definition images_inside (ids : list Z) (info : Z -> res_place) : Prop :=
  forall L, In L ids -> match info L with ResIn _ (FontAt _ _) | ResAt _ _ (FontIn _) | ResAt _ _ (FontAt _ _) => False | _ => True end.

(** All resources are in one object, with an image dictionary in it. *)
Definition images_shared (ids : list Z) (info : Z -> res_place) (r : Z) (rps xps : list prop) : Prop :=
  forall L, In L ids -> info L = NoRes \/ info L = ResAt r rps (FontIn xps).

(** All resources are in objects without image dictionaries. *)
Definition images_none (ids : list Z) (info : Z -> res_place) : Prop :=
  forall L, In L ids -> match info L with NoRes | ResAt _ _ NoFont => True | _ => False end.

(** An object that is written anew from its entries. *)
Definition writable_object (os : list obj) (id : Z) (ps : list prop) : Prop :=
  (exists o, version os id o /\ rewritable (odata o)) /\ dict os id ps /\ Forall seen_value ps.

(** An object that an entry can be added to. *)
Definition extendable (os : list obj) (id : Z) (ps : list prop) : Prop :=
  writable_object os id ps /\ Forall (fun q => balanced 0 0 (pval q) = true) ps.

(** All resources are in the pages, none with an image dictionary. *)
Definition images_nowhere (ids : list Z) (info : Z -> res_place) : Prop :=
  forall L, In L ids -> match info L with NoRes | ResIn _ NoFont => True | _ => False end.

(** A dictionary whose text is well-formed between its brackets. *)
Definition well_bracketed (v : bytes) (ps : list prop) : Prop :=
  exists t, v = B"<<" ++ t ++ B">>" /\ trim_space t = t /\ norm t = t /\ balanced 0 0 t = true /\ Forall (fun q => balanced 0 0 (pval q) = true) ps.

(** Every image has its name in the dictionary. *)
Definition images_named (imgs : list Z) (names : list (bytes * Z)) (xps : list prop) : Prop :=
  Forall2 (fun i (n : bytes * Z) => font_named xps (fst n ++ itoa (snd n)) i) imgs names.

(** A page with its resources in it, that an entry can be added to. *)
Definition inline_extendable (os : list obj) (id : Z) (rps : list prop) : Prop :=
  exists ps v, writable_object os id ps /\ once ps (B"Resources") v /\ readProperties v = Ok rps /\ well_bracketed v rps.
