(** What a save makes of a document (C72).  Specification. *)
From Coq Require Import String List ZArith Lia Bool.
From Coq.Floats Require Import SpecFloat.
From Verif Require Import Base Output OutputSpec Props PropsSpec PdfData PagesSpec InjectSpec ImgSpec ContentSpec FontChainSpec FontChain Parse Api ApiIds SaveSpec.
Open Scope Z_scope.
Open Scope list_scope.

(** [s] and [s'] are the states before and after the save, [p'] the document in
    the file.  The content streams of the pages were [srcs], and [ins] is what
    the calls since the document was opened have drawn.  [fi] and [xi] tell where
    the pages had their fonts and images. *)
Record saved_document (w : world) (s s' : state) (rid : Z) (ts : list tree) (fi xi : Z -> res_place)
    (srcs : list (option (Z * bytes))) (p' : pdf) (ins : inserts) : Prop := {
  (* the same pages in the same order *)
  sd_root : root p' = root (d_pdf (s_doc s));
  sd_tree : page_tree p' (Node rid ts);
  (* objects that are not written to are unchanged; where all resources were in
     objects without images, the page tree is written to *)
  sd_frame : forall j o, version (objs (d_pdf (s_doc s))) j o -> ~ page_object (flat_map leaves ts) fi j -> (forall k t, ~ writes srcs ins k j t) ->
    (images_none (flat_map leaves ts) xi -> ~ In j (root p' :: rid :: flat_map tree_ids ts)) -> version (objs p') j o;
  (* the catalog and the objects of the page tree keep their entries *)
  sd_nodes : forall j ps, In j (root p' :: rid :: flat_map tree_ids ts) -> dict (objs (d_pdf (s_doc s))) j ps -> exists ps', dict (objs p') j ps' /\ with_resources ps ps';
  (* the resources of the pages keep their other entries *)
  sd_rest : forall L ps v rps, In L (flat_map leaves ts) -> dict (objs (d_pdf (s_doc s))) L ps -> value ps (B"Resources") v -> points (objs (d_pdf (s_doc s))) v rps ->
    exists ps' v' rps', dict (objs p') L ps' /\ value ps' (B"Resources") v' /\ points (objs p') v' rps' /\
      forall k u, k <> B"Font" -> k <> B"XObject" -> value rps k u -> value rps' k u;
  (* a page that had fonts has them under their names, and each font that was
     added, complete and under the name the text uses *)
  sd_fonts : forall L fps, In L (flat_map leaves ts) -> page_fonts (objs (d_pdf (s_doc s))) L fps -> exists fps', page_fonts (objs p') L fps' /\
    (Forall (fun x => numbered_name (pkey x)) fps -> forall k n, font_named fps k n -> font_named fps' k n) /\
    forall name h f, In (name, h) (names_of s) -> nth_error (s_fonts s) h = Some f -> buildable f ->
      exists f', nth_error (s_fonts s') h = Some f' /\ font_named fps' (B"F" ++ itoa (fd_index f')) (fd_id f') /\ embeds w (objs p') f (fd_id f');
  (* likewise for images *)
  sd_images : forall L, In L (flat_map leaves ts) -> pictured (flat_map leaves ts) xi L -> exists xps', page_images (objs p') L xps' /\
    (forall xps k n, page_images (objs (d_pdf (s_doc s))) L xps -> font_named xps k n -> font_named xps' k n) /\
    forall h i, nth_error (s_imgs s) h = Some i ->
      exists i' n, nth_error (s_imgs s') h = Some i' /\ im_data i' = im_data i /\ font_named xps' (im_char i' ++ itoa (im_index i')) n /\
        the_object (objs p') n (mkObj n (im_data i));
  (* everything that was drawn is at the end of its page, in order *)
  sd_drawn : Forall2 (fun c i => content_of (s_fonts s') (s_imgs s') c = (fst i, Ok (snd i))) (s_cont s) ins;
  sd_contents : forall k L cid t, nth_error (flat_map leaves ts) (Z.to_nat (k - 1)) = Some L -> writes srcs ins k cid t ->
    (forall k' t', k < k' -> ~ writes srcs ins k' cid t') -> page_shows (objs p') L cid (t ++ [10] ++ drawn ins k)
}.
