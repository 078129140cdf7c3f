(** What a saved document is, from the bytes of the file to what its pages use
    and show (C72).  Specification. *)
From Coq Require Import String List ZArith Lia Bool.
From Verif Require Import Base Output OutputSpec Props PropsSpec PdfData PagesSpec InjectSpec ImgSpec ContentSpec.
Open Scope Z_scope.
Open Scope list_scope.

(** The file [F] has the objects of [p]: the last lines give the place of the
    cross-reference section, its rows the places of the objects, and after the
    rows the trailer names the catalog. *)
Definition file_of (F : bytes) (p : pdf) : Prop :=
  NoDup (map oid (objs p)) /\
  exists xoff N base, startxref_is F xoff /\ xref_section F xoff N base /\
    (forall o, In o (objs p) -> 1 <= oid o -> oid o < N /\
       exists off, row_at F base (oid o) off 0 110 /\ object_at F off (oid o) (trim_space (odata o))) /\
    exists dn dr, numeral dn N /\ numeral dr (root p) /\
      text_at F (base + 20 * N) (B"trailer" ++ [10] ++ B"<<" ++ [10] ++ B"/Size " ++ dn ++ [10] ++ B"/Root " ++ dr ++ B" 0 R" ++ [10]).

(** The object that holds the resources of page [L], and the one that holds its
    fonts if they are apart. *)
Definition page_objects (L : Z) (rp : res_place) : list Z :=
  match rp with NoRes => [] | ResIn _ _ => [L] | ResAt r _ _ => [r] end ++ font_objects rp.
Definition page_object (ids : list Z) (fi : Z -> res_place) (j : Z) : Prop := exists L, In L ids /\ In j (page_objects L (fi L)).

(** The fonts (images) of a page, if there is a dictionary of them. *)
Definition offered (rp : res_place) : option (list prop) :=
  match rp with ResIn _ (FontIn ps) | ResIn _ (FontAt _ ps) | ResAt _ _ (FontIn ps) | ResAt _ _ (FontAt _ ps) => Some ps | _ => None end.

(** The pages that get images: those that have some, and where no page has any,
    those with resources. *)
Definition pictured (ids : list Z) (xi : Z -> res_place) (L : Z) : Prop :=
  xi L <> NoRes /\ (offered (xi L) <> None \/ forall L', In L' ids -> offered (xi L') = None).

(** The four kinds of documents images can be added to: *)
Inductive pictures (p : pdf) (rid : Z) (ts : list tree) (xi : Z -> res_place) : Prop :=
  (* all resources in one object, with images in it *)
| pic_shared r rps xps : images_shared (flat_map leaves ts) xi r rps xps -> numbered_images xps -> last_greatest xps -> writable_object (objs p) r rps -> pictures p rid ts xi
  (* resource objects without images; then the page tree is written anew *)
| pic_none : images_none (flat_map leaves ts) xi -> (forall L r rps, In L (flat_map leaves ts) -> xi L = ResAt r rps NoFont -> extendable (objs p) r rps) ->
    (forall j, In j (root p :: rid :: flat_map tree_ids ts) -> exists ps, extendable (objs p) j ps) -> pictures p rid ts xi
  (* images in the pages *)
| pic_inside : images_inside (flat_map leaves ts) xi -> (exists L rps xps, In L (flat_map leaves ts) /\ xi L = ResIn rps (FontIn xps)) ->
    (forall L rps xps, In L (flat_map leaves ts) -> xi L = ResIn rps (FontIn xps) ->
       numbered_images xps /\ last_greatest xps /\ writable_page (objs p) (flat_map leaves ts) xi L) -> pictures p rid ts xi
  (* resources in the pages, without images, and no pages further down *)
| pic_nowhere : images_nowhere (flat_map leaves ts) xi ->
    (forall L rps, In L (flat_map leaves ts) -> xi L = ResIn rps NoFont -> In (Leaf L) ts /\ inline_extendable (objs p) L rps) -> pictures p rid ts xi.

(** A document that fonts and images can be added to.  [fi] and [xi] tell where
    the pages have their fonts and images. *)
Record ready_document (p : pdf) (rid : Z) (ts : list tree) (fi xi : Z -> res_place) : Prop := {
  rd_fonts : tidy (B"Font") p rid ts fi;
  rd_images : tidy (B"XObject") p rid ts xi;
  rd_top : bare_top p rid;
  rd_tree : page_tree p (Node rid ts);
  rd_write : forall L, In L (flat_map leaves ts) -> offered (fi L) <> None -> writable_page (objs p) (flat_map leaves ts) fi L;
  (* no font has a name that makes its page look like a node of the page tree *)
  rd_names : forall L fps q a b, In L (flat_map leaves ts) -> offered (fi L) = Some fps -> In q fps -> pkey q <> a ++ B"Pages" ++ b;
  rd_pictures : pictures p rid ts xi
}.

(** The entries [ps] with other resources and perhaps an image dictionary. *)
Definition with_resources (ps ps' : list prop) : Prop :=
  (forall k v, k <> B"Resources" -> value ps k v -> value ps' k v) /\ forall k, has_key ps' k -> has_key ps k \/ k = B"XObject".

(** Content streams, by page. *)
Definition content_ids (srcs : list (option (Z * bytes))) : list Z :=
  flat_map (fun x => match x with Some (cid, _) => [cid] | None => [] end) srcs.

(** The content stream of page [pid] is the stream [body], without filters. *)
Definition page_shows (os : list obj) (pid cid : Z) (body : bytes) : Prop :=
  exists o ps v co, version os pid o /\ entries o ps /\ only ps (B"Contents") v /\ readObjID v = Ok cid /\
    version os cid co /\ plain_stream (odata co) body.
