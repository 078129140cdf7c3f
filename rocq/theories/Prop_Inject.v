(** Statements about the fonts of pages after fonts have been added. *)
From Coq Require Import String List ZArith Lia Bool Permutation.
From Verif Require Import Base Output Props PropsSpec PdfData PagesSpec Crawl Inject InjectSpec InjectFinal InjectCases.
Open Scope Z_scope.
Open Scope list_scope.

(** ** C19 *)

(** In a tidy document every added font gets one index, no two the same, and no
    page has a font of that name already. *)
Theorem C19_names_fresh_partial : forall ord p p' fonts idx rid ts info, fair ord -> tidy (B"Font") p rid ts info ->
  injectFonts ord p fonts = Ok (p', idx) ->
  Permutation (map fst idx) (map fst fonts) /\ NoDup (map snd idx) /\
  forall L fps h i, In L (flat_map leaves ts) -> page_fonts (objs p) L fps -> In (h, i) idx -> ~ has_key fps (B"F" ++ itoa i).
Proof. exact names_fresh. Qed.
Print Assumptions C19_names_fresh_partial.

(** A page three levels below the catalog's node is not looked at. *)
Theorem C19_collision_refuted : exists ord p t fonts p' idx L fps h i, fair ord /\ page_tree p t /\ In L (leaves t) /\
  injectFonts ord p fonts = Ok (p', idx) /\ page_fonts (objs p) L fps /\ In (h, i) idx /\ has_key fps (B"F" ++ itoa i).
Proof. exact deep_collides. Qed.
Print Assumptions C19_collision_refuted.

(** ** C20 *)

(** In a tidy document, on a page whose dictionaries can be written anew and
    whose fonts are called F1, TT12 and the like, every name still stands for
    the object it stood for, and nothing but the added fonts is new. *)
Theorem C20_old_kept_partial : forall ord p p' fonts idx rid ts info, fair ord -> tidy (B"Font") p rid ts info ->
  injectFonts ord p fonts = Ok (p', idx) ->
  forall L fps, In L (flat_map leaves ts) -> writable_page (objs p) (flat_map leaves ts) info L -> page_fonts (objs p) L fps ->
  Forall (fun q => numbered_name (pkey q)) fps ->
  exists fps', page_fonts (objs p') L fps' /\ List.length fps' = (List.length fps + List.length fonts)%nat /\
    forall k n, is_int n -> font_named fps k n -> font_named fps' k n.
Proof. exact old_kept. Qed.
Print Assumptions C20_old_kept_partial.

(** C2_0 is renamed even when no font is added. *)
Theorem C20_renamed_refuted : exists ord p info p' L fps fps', fair ord /\ tidy (B"Font") p 2 [Leaf L] info /\ writable_page (objs p) [L] info L /\
  injectFonts ord p [] = Ok (p', []) /\ page_fonts (objs p) L fps /\ page_fonts (objs p') L fps' /\
  font_named fps (B"C2_0") 20 /\ ~ has_key fps' (B"C2_0").
Proof. exact under_renamed. Qed.
Print Assumptions C20_renamed_refuted.

(** With C2_0 and C20 on a page, C20 comes to stand for the font that was C2_0. *)
Theorem C20_swapped_refuted : exists ord p info p' L fps fps', fair ord /\ tidy (B"Font") p 2 [Leaf L] info /\ writable_page (objs p) [L] info L /\
  injectFonts ord p [] = Ok (p', []) /\ page_fonts (objs p) L fps /\ page_fonts (objs p') L fps' /\
  font_named fps (B"C20") 21 /\ font_named fps' (B"C20") 20 /\ NoDup (map pkey fps) /\ ~ NoDup (map pkey fps').
Proof. exact clash_swapped. Qed.
Print Assumptions C20_swapped_refuted.

(** A font name without a digit makes saving fail. *)
Theorem C20_unnumbered_refuted : exists p info L fps, tidy (B"Font") p 2 [Leaf L] info /\ writable_page (objs p) [L] info L /\ page_fonts (objs p) L fps /\
  font_named fps (B"Helv") 20 /\ injectFonts ido p [] = Err ENoFontIndex.
Proof. exact helv_fails. Qed.
Print Assumptions C20_unnumbered_refuted.

(** ** C43 *)

(** In a tidy document every added font can be used on every page that has
    fonts and whose dictionaries can be written anew. *)
Theorem C43_reachable_partial : forall ord p p' fonts idx rid ts info, fair ord -> tidy (B"Font") p rid ts info ->
  injectFonts ord p fonts = Ok (p', idx) -> Forall (fun x => is_int (snd x)) fonts ->
  forall L fps, In L (flat_map leaves ts) -> writable_page (objs p) (flat_map leaves ts) info L -> page_fonts (objs p) L fps ->
  exists fps', page_fonts (objs p') L fps' /\
    forall h i, In (h, i) idx -> exists id, In (h, id) fonts /\ font_named fps' (B"F" ++ itoa i) id.
Proof. exact new_reachable. Qed.
Print Assumptions C43_reachable_partial.

Theorem C43_deep_refuted : exists ord p t p' L fps, fair ord /\ page_tree p t /\ In L (leaves t) /\
  injectFonts ord p [(0, 40)] = Ok (p', [(0, 1)]) /\ page_fonts (objs p) L fps /\
  forall fps' k, page_fonts (objs p') L fps' -> ~ font_named fps' k 40.
Proof. exact deep_unreachable. Qed.
Print Assumptions C43_deep_refuted.

(** Fonts that pages inherit from an inner node are neither seen nor extended. *)
Theorem C43_inherited_refuted : exists ord p t L fps, fair ord /\ page_tree p t /\ In L (leaves t) /\ page_fonts (objs p) (tid t) fps /\
  injectFonts ord p [(0, 40)] = Ok (p, [(0, 1)]) /\ has_key fps (B"F" ++ itoa 1).
Proof. exact inherited_untouched. Qed.
Print Assumptions C43_inherited_refuted.

(** ** C46 *)

(** When all pages with fonts are as above and no two of them have one resource
    object, no dictionary gets a key twice, and
    none loses a key. *)
Theorem C46_keys_unique_partial : forall ord p p' fonts idx rid ts info, fair ord -> tidy (B"Font") p rid ts info ->
  injectFonts ord p fonts = Ok (p', idx) ->
  (forall L fps, In L (flat_map leaves ts) -> page_fonts (objs p) L fps ->
     writable_page (objs p) (flat_map leaves ts) info L /\ unshared (flat_map leaves ts) info L /\ Forall (fun q => numbered_name (pkey q)) fps) ->
  forall id ps, dict (objs p) id ps -> NoDup (map pkey ps) ->
  exists ps', dict (objs p') id ps' /\ NoDup (map pkey ps') /\ incl (map pkey ps) (map pkey ps').
Proof. exact keys_unique. Qed.
Print Assumptions C46_keys_unique_partial.

(** Two pages with one resource object. *)
Theorem C46_shared_refuted : exists ord p info p' idx id ps ps', fair ord /\ tidy (B"Font") p 2 [Leaf 3; Leaf 4] info /\ injectFonts ord p [(0, 40)] = Ok (p', idx) /\
  dict (objs p) id ps /\ NoDup (map pkey ps) /\ dict (objs p') id ps' /\ ~ NoDup (map pkey ps').
Proof. exact shared_doubled. Qed.
Print Assumptions C46_shared_refuted.

(** A document with a page of every kind, read in the reverse of the order. *)
Example C19_C20_C43_mixed : exists p' fps fps', injectFonts revo mixed [(0, 40); (1, 44)] = Ok (p', [(1, 8); (0, 9)]) /\
  page_fonts (objs mixed) 3 fps /\ page_fonts (objs p') 3 fps' /\ font_named fps (B"TT7") 21 /\
  font_named fps' (B"TT7") 21 /\ font_named fps' (B"F8") 44 /\ font_named fps' (B"F9") 40 /\ List.length fps' = 4%nat.
Proof. exact mixed_case. Qed.
Example C46_mixed : exists p' ps', injectFonts revo mixed [(0, 40); (1, 44)] = Ok (p', [(1, 8); (0, 9)]) /\
  dict (objs p') 11 ps' /\ NoDup (map pkey ps') /\ In (B"ProcSet") (map pkey ps') /\ In (B"Font") (map pkey ps').
Proof. exact mixed_unique. Qed.
(** Two pages with one resource object: both can use the new font. *)
Example C43_shared : exists p' info fps, injectFonts ido shared [(0, 40)] = Ok (p', [(0, 2)]) /\ tidy (B"Font") shared 2 [Leaf 3; Leaf 4] info /\
  writable_page (objs shared) [3; 4] info 4 /\ page_fonts (objs p') 4 fps /\ font_named fps (B"F1") 20 /\ font_named fps (B"F2") 40.
Proof. exact shared_case. Qed.
