(** Statements about the images of pages after images have been added. *)
From Coq Require Import String List ZArith Lia Bool Permutation.
From Verif Require Import Base Output Props PropsSpec PdfData PagesSpec Crawl Inject InjectSpec InjectCases ImgNames ImgSpec ImgCases ImgFinal.
Open Scope Z_scope.
Open Scope list_scope.

(** ** C21 *)

(** In every document every inserted image gets one name, no two the same. *)
Theorem C21_names_distinct : forall ord p p' imgs names, injectImgs ord p imgs = Ok (p', names) ->
  List.length names = List.length imgs /\ NoDup (map (fun n : bytes * Z => fst n ++ itoa (snd n)) names).
Proof. exact image_names. Qed.
Print Assumptions C21_names_distinct.

(** An image called Logo is gone after saving with the images listed after it,
    even if nothing was inserted. *)
Theorem C21_logo_refuted : exists ord p t p' L xps xps', fair ord /\ page_tree p t /\ In L (leaves t) /\ injectImgs ord p [] = Ok (p', []) /\
  page_images (objs p) L xps /\ font_named xps (B"Logo") 20 /\ font_named xps (B"Im2") 21 /\
  page_images (objs p') L xps' /\ ~ has_key xps' (B"Logo") /\ ~ has_key xps' (B"Im2").
Proof. exact logo_dropped. Qed.
Print Assumptions C21_logo_refuted.

(** An image dictionary that is an object of its own is left out. *)
Theorem C21_indirect_refuted : exists ord p t p' L xps xps', fair ord /\ page_tree p t /\ In L (leaves t) /\ injectImgs ord p [40] = Ok (p', [(B"I", 1)]) /\
  page_images (objs p) L xps /\ font_named xps (B"Im1") 20 /\ page_images (objs p') L xps' /\ ~ has_key xps' (B"Im1").
Proof. exact indirect_lost. Qed.
Print Assumptions C21_indirect_refuted.

(** The second of two images gets the name of an image the page has already,
    and is itself not named at all. *)
Theorem C21_taken_refuted : exists ord p t p' L xps xps', fair ord /\ page_tree p t /\ In L (leaves t) /\
  injectImgs ord p [40; 41] = Ok (p', [(B"Im", 4); (B"Im", 5)]) /\
  page_images (objs p) L xps /\ font_named xps (B"Im5") 20 /\ page_images (objs p') L xps' /\ font_named xps' (B"Im5") 20 /\
  forall k, ~ font_named xps' k 41.
Proof. exact old_shown. Qed.
Print Assumptions C21_taken_refuted.

(** Saving fails without resources, or with ones read as three words. *)
Theorem C21_bare_refuted : exists p t, page_tree p t /\ injectImgs ido p [] = Err EOther.
Proof. exact bare_fails. Qed.
Print Assumptions C21_bare_refuted.
Theorem C21_words_refuted : exists p t L rps, page_tree p t /\ In L (leaves t) /\
  (exists ps v, dict (objs p) L ps /\ value ps (B"Resources") v /\ points (objs p) v rps) /\ injectImgs ido p [] = Err EOther.
Proof. exact three_words. Qed.
Print Assumptions C21_words_refuted.

(** Full statement: in every document every page that has images still has
    them, and the new ones as well, under the names given to them.  Missing: names
    that are not letters and a number or whose last one is not the greatest, and
    image dictionaries in objects of their own or in several resource objects. *)
Theorem C21_inside_partial : forall ord p p' imgs names rid ts info, fair ord -> tidy (B"XObject") p rid ts info -> bare_top p rid ->
  injectImgs ord p imgs = Ok (p', names) -> Forall is_int imgs -> images_inside (flat_map leaves ts) info ->
  (forall L rps xps, In L (flat_map leaves ts) -> info L = ResIn rps (FontIn xps) -> numbered_images xps /\ last_greatest xps) ->
  forall L xps, In L (flat_map leaves ts) -> page_images (objs p) L xps -> writable_page (objs p) (flat_map leaves ts) info L ->
  exists xps', page_images (objs p') L xps' /\ (forall k n, font_named xps k n -> font_named xps' k n) /\ images_named imgs names xps'.
Proof. exact whole_inside. Qed.
Print Assumptions C21_inside_partial.
Example C21_inside : exists p' xps, injectImgs ido ins [40] = Ok (p', [(B"X", 8)]) /\ page_images (objs p') 3 xps /\
  font_named xps (B"Im1") 20 /\ font_named xps (B"X8") 40 /\ page_fonts (objs p') 3 [mkProp (B"F1") (B"30 0 R")].
Proof. exact ins_case. Qed.

Theorem C21_shared_partial : forall ord p p' imgs names rid ts info, fair ord -> tidy (B"XObject") p rid ts info -> bare_top p rid ->
  injectImgs ord p imgs = Ok (p', names) -> Forall is_int imgs ->
  forall r rps xps, images_shared (flat_map leaves ts) info r rps xps -> numbered_images xps -> last_greatest xps -> writable_object (objs p) r rps ->
  exists xps', (forall k n, font_named xps k n -> font_named xps' k n) /\ images_named imgs names xps' /\
    forall L, In L (flat_map leaves ts) -> info L <> NoRes -> page_images (objs p') L xps'.
Proof. exact whole_shared. Qed.
Print Assumptions C21_shared_partial.
Example C21_shared : exists p' xps, injectImgs ido shr [40; 41] = Ok (p', [(B"Im", 2); (B"Im", 3)]) /\ page_images (objs p') 3 xps /\ page_images (objs p') 4 xps /\
  font_named xps (B"Im1") 20 /\ font_named xps (B"Im2") 40 /\ font_named xps (B"Im3") 41 /\ page_fonts (objs p') 4 [mkProp (B"F1") (B"30 0 R")].
Proof. exact shr_case. Qed.

(** ** C44 *)

(** A page without images gets none when another one has some. *)
Theorem C44_other_refuted : exists ord p t p' L, fair ord /\ page_tree p t /\ In L (leaves t) /\ injectImgs ord p [40] = Ok (p', [(B"Im", 2)]) /\
  forall xps, ~ page_images (objs p') L xps.
Proof. exact other_page. Qed.
Print Assumptions C44_other_refuted.

(** Whether a page gets the image depends on the order in which a map is read. *)
Theorem C44_order_refuted : exists p t L xps, page_tree p t /\ In L (leaves t) /\ page_images (objs p) L xps /\
  (exists ord p' xps', fair ord /\ injectImgs ord p [40] = Ok (p', [(B"Im", 2)]) /\ page_images (objs p') L xps' /\ font_named xps' (B"Im2") 40) /\
  (exists ord p', fair ord /\ injectImgs ord p [40] = Ok (p', [(B"Im", 2)]) /\ forall xps', page_images (objs p') L xps' -> xps' = xps).
Proof. exact either_page. Qed.
Print Assumptions C44_order_refuted.

(** A page that is not directly below the root of the page tree gets no image,
    although it is the only page. *)
Theorem C44_nested_refuted : exists ord p t L, fair ord /\ page_tree p t /\ leaves t = [L] /\ injectImgs ord p [40] = Ok (p, [(B"I", 1)]) /\
  forall xps, ~ page_images (objs p) L xps.
Proof. exact below_none. Qed.
Print Assumptions C44_nested_refuted.

(** Full statement: in every document every inserted image can be used on every
    page, under the name given to it.  Covered here and by C21_inside_partial and
    C21_shared_partial: all resources in objects, without images. *)
Theorem C44_none_partial : forall ord p p' imgs names rid ts info, fair ord -> tidy (B"XObject") p rid ts info -> bare_top p rid ->
  injectImgs ord p imgs = Ok (p', names) -> Forall is_int imgs -> images_none (flat_map leaves ts) info ->
  forall L r rps ps, In L (flat_map leaves ts) -> info L = ResAt r rps NoFont -> extendable (objs p) L ps -> extendable (objs p) r rps ->
  exists xps', page_images (objs p') L xps' /\ images_named imgs names xps'.
Proof. exact whole_none. Qed.
Print Assumptions C44_none_partial.
Example C44_none : exists p' xps, injectImgs ido nim [40] = Ok (p', [(B"I", 1)]) /\ page_images (objs p') 3 xps /\
  font_named xps (B"I1") 40 /\ page_fonts (objs p') 3 [mkProp (B"F1") (B"30 0 R")].
Proof. exact nim_case. Qed.
(** The same for resources in the pages, without images, and a page directly below
    the root of the page tree; C44_nested_refuted shows that others get nothing. *)
Theorem C44_nowhere_partial : forall ord p p' imgs names rid ts info, fair ord -> tidy (B"XObject") p rid ts info -> bare_top p rid ->
  injectImgs ord p imgs = Ok (p', names) -> Forall is_int imgs -> images_nowhere (flat_map leaves ts) info ->
  forall L rps, In (Leaf L) ts -> info L = ResIn rps NoFont -> inline_extendable (objs p) L rps ->
  exists xps', page_images (objs p') L xps' /\ images_named imgs names xps'.
Proof. exact whole_nowhere. Qed.
Print Assumptions C44_nowhere_partial.
Example C44_nowhere : exists p' xps, injectImgs ido nwh [40] = Ok (p', [(B"I", 1)]) /\ page_images (objs p') 3 xps /\
  font_named xps (B"I1") 40 /\ page_fonts (objs p') 3 [mkProp (B"F1") (B"30 0 R")].
Proof. exact nwh_case. Qed.

(** ** C60 *)

(** With resources in one page and in an object for another, the second page
    loses its fonts when the document is saved, image or not. *)
Theorem C60_fonts_refuted : exists ord p t p' L fps, fair ord /\ page_tree p t /\ In L (leaves t) /\ injectImgs ord p [] = Ok (p', []) /\
  page_fonts (objs p) L fps /\ font_named fps (B"F1") 20 /\ forall fps', ~ page_fonts (objs p') L fps'.
Proof. exact lossy_fonts. Qed.
Print Assumptions C60_fonts_refuted.

(** Full statement: in every document every resource category of every page
    other than the images is unchanged.  Missing: all documents outside the four
    kinds below (see C60_fonts_refuted). *)
Theorem C60_inside_partial : forall ord p p' imgs names rid ts info, fair ord -> tidy (B"XObject") p rid ts info -> bare_top p rid ->
  injectImgs ord p imgs = Ok (p', names) -> Forall is_int imgs ->
  forall K info2, tidy K p rid ts info2 -> K <> B"XObject" -> images_inside (flat_map leaves ts) info ->
  (forall L rps xps, In L (flat_map leaves ts) -> info L = ResIn rps (FontIn xps) -> numbered_images xps /\ last_greatest xps) ->
  (exists L rps xps, In L (flat_map leaves ts) /\ info L = ResIn rps (FontIn xps)) ->
  forall L fps, In L (flat_map leaves ts) -> (forall rps xps, info L = ResIn rps (FontIn xps) -> writable_page (objs p) (flat_map leaves ts) info L) ->
  page_dict K (objs p) L fps -> page_dict K (objs p') L fps.
Proof. exact whole_inside_kept. Qed.
Print Assumptions C60_inside_partial.
Theorem C60_shared_partial : forall ord p p' imgs names rid ts info, fair ord -> tidy (B"XObject") p rid ts info -> bare_top p rid ->
  injectImgs ord p imgs = Ok (p', names) -> Forall is_int imgs ->
  forall K info2, tidy K p rid ts info2 -> K <> B"XObject" ->
  forall r rps xps, images_shared (flat_map leaves ts) info r rps xps -> numbered_images xps -> last_greatest xps -> writable_object (objs p) r rps ->
  forall L fps, In L (flat_map leaves ts) -> page_dict K (objs p) L fps -> page_dict K (objs p') L fps.
Proof. exact whole_shared_kept. Qed.
Print Assumptions C60_shared_partial.
Theorem C60_none_partial : forall ord p p' imgs names rid ts info, fair ord -> tidy (B"XObject") p rid ts info -> bare_top p rid ->
  injectImgs ord p imgs = Ok (p', names) ->
  forall K info2, tidy K p rid ts info2 -> images_none (flat_map leaves ts) info ->
  forall L r rps ps fps, In L (flat_map leaves ts) -> info L = ResAt r rps NoFont -> extendable (objs p) L ps -> extendable (objs p) r rps ->
  page_dict K (objs p) L fps -> page_dict K (objs p') L fps.
Proof. exact whole_none_kept. Qed.
Print Assumptions C60_none_partial.
Theorem C60_nowhere_partial : forall ord p p' imgs names rid ts info, fair ord -> tidy (B"XObject") p rid ts info -> bare_top p rid ->
  injectImgs ord p imgs = Ok (p', names) ->
  forall K info2, tidy K p rid ts info2 -> images_nowhere (flat_map leaves ts) info ->
  forall L fps, In L (flat_map leaves ts) -> (forall rps, In (Leaf L) ts -> info L = ResIn rps NoFont -> inline_extendable (objs p) L rps) ->
  page_dict K (objs p) L fps -> page_dict K (objs p') L fps.
Proof. exact whole_nowhere_kept. Qed.
Print Assumptions C60_nowhere_partial.
(** The fonts of the four example documents above are unchanged. *)
Example C60_kept : exists p' xps, injectImgs ido nim [40] = Ok (p', [(B"I", 1)]) /\ page_images (objs p') 3 xps /\
  font_named xps (B"I1") 40 /\ page_fonts (objs p') 3 [mkProp (B"F1") (B"30 0 R")].
Proof. exact nim_case. Qed.
