(** What was drawn is in the saved file: the property C72, followed from the call
    that draws to the operators on the page. *)
From Coq Require Import String List ZArith Lia Bool Reals.
From Coq.Floats Require Import SpecFloat.
From Verif Require Import Base Output OutputSpec Props PropsSpec PdfData PagesSpec Crawl Inject InjectSpec ContentSpec ImgSpec Utf8 Float64 Ttf TtfSpec Subset Text TextSpec TextPlaceSpec TextFinal FontObjects FontChainSpec FontChain
  Parse Png Crypto Api ApiSpec ApiProofs ApiIds ApiCases SaveSpec SaveDoc SaveLockSpec SaveDrawSpec SaveDrawn SaveCheck SaveCases SaveDrawCases PlaceCases.
Open Scope Z_scope.
Open Scope list_scope.

(** Insert was called with the font of file [d] selected, other calls followed
    (not Open and not Save), and the document is saved, with or without
    passwords.  The file has a document as in C72_saved_document_partial; page
    [pg] has the text among the operators that were added to it; if it had fonts,
    the text is shown with the glyphs of [d], at the place of C57, in a font that
    the page has under the name used and that is completely embedded.
    Missing: pages without fonts, where the text has no font to be shown in (C43);
    other documents than [ready_document]; characters beyond U+FFFF, a second save. *)
Theorem C72_text_drawn_partial : forall w fuel ch cs1 s1 log1 t pg x y wd h al c s2 cs2 log2 s s' F rid ts fi xi srcs pw name st sz k d u a b up uh,
  history w fuel cs1 new_pdft = Ok (s1, log1) -> selected log1 name st sz -> registered log1 name k (Some d) ->
  call_of w fuel (KInsert t pg x y wd h al c) s1 = Ok (s2, None) ->
  history w fuel cs2 s2 = Ok (s, log2) -> forallb (fun c => negb (is_save c)) cs1 = true -> forallb (fun c => negb (is_save c) && negb (is_open c)) cs2 = true ->
  saveTo w fuel ch s = Ok (s', Ok F) -> fair (ch_ord ch) -> protected_by s pw ->
  ready_document (d_pdf (s_doc s)) rid ts fi xi ->
  Forall2 (source (w_inflate w) (objs (d_pdf (s_doc s)))) (flat_map leaves ts) srcs ->
  (forall c, In c (content_ids srcs) -> ~ In c (root (d_pdf (s_doc s)) :: rid :: flat_map tree_ids ts) /\ ~ page_object (flat_map leaves ts) fi c) ->
  (depth (Node rid ts) <= fuel)%nat -> 0 <= root (d_pdf (s_doc s)) -> blen F < 10 ^ 10 ->
  face_file d u a b up uh -> has_widths d t -> plain_name name ->
  on_paper x -> on_paper y -> on_paper wd -> on_paper h -> 0 <= sz <= 10000 ->
  (forall ph, pageHeight s1 pg = Ok ph -> on_paper ph) ->
  (forall f, nth_error (s_fonts s) k = Some f -> map_ok (fd_map f) /\ rise_fin (sfont_of f) sz t /\ forall v, measure (sfont_of f) sz t = Ok v -> on_paper v) ->
  exists p' ins f line ph ops, file_holds F p' pw /\ saved_document w s s' rid ts fi xi srcs p' ins /\
    nth_error (s_fonts s) k = Some f /\ fd_family f = name /\ pageHeight s1 pg = Ok ph /\
    forall pid cid old fps, own_page ts srcs pg pid cid old -> page_fonts (objs (d_pdf (s_doc s))) pid fps -> drawn_on (objs p') pid cid old ops /\
      exists fps', page_fonts (objs p') pid fps' /\ shows_text w (objs p') fps' f d u a b (mkText t c (getConvertedStyle st) sz pg x y wd h al line ph) ops.
Proof. exact text_from_calls. Qed.
Print Assumptions C72_text_drawn_partial.

(** The text AB at (10, 20) on a page 100 high; the font has lines at 1600 and
    -400 of 2000 units; an image and the passwords follow. *)
Example C72_text_case : exists s1 s2 s s' F p' f fps line ops,
  history plain_world 5 calls_first new_pdft = Ok (s1, quiet calls_first) /\ call_of plain_world 5 (put_text (B"AB")) s1 = Ok (s2, None) /\
  history plain_world 5 calls_then s2 = Ok (s, quiet calls_then) /\ saveTo plain_world 5 (plain_choices false) s = Ok (s', Ok F) /\
  locked_file F p' (B"user") (B"owner") /\ fd_family f = B"T" /\ page_fonts (objs p') 3 fps /\ drawn_on (objs p') 3 4 (B"q Q ") ops /\
  shows_text plain_world (objs p') fps f lined_font 2000 1600 (-400) (mkText (B"AB") None 0 12 1 (fofz 10) (fofz 20) (fofz 100) (fofz 20) 0 line (fofz 100)) ops.
Proof. exact text_case. Qed.

(** The same for InsertImg: the page shows the image, with the data made from the
    bytes that were handed over, in the rectangle of the call.
    Missing: as above. *)
Theorem C72_image_drawn_partial : forall w fuel ch cs1 s1 log1 beyond img pg x y wd h s2 cs2 log2 s s' F rid ts fi xi srcs pw,
  history w fuel cs1 new_pdft = Ok (s1, log1) -> call_of w fuel (KImg beyond img pg x y wd h) s1 = Ok (s2, None) -> history w fuel cs2 s2 = Ok (s, log2) ->
  saveTo w fuel ch s = Ok (s', Ok F) -> fair (ch_ord ch) -> protected_by s pw ->
  ready_document (d_pdf (s_doc s)) rid ts fi xi ->
  Forall2 (source (w_inflate w) (objs (d_pdf (s_doc s)))) (flat_map leaves ts) srcs ->
  (forall c, In c (content_ids srcs) -> ~ In c (root (d_pdf (s_doc s)) :: rid :: flat_map tree_ids ts) /\ ~ page_object (flat_map leaves ts) fi c) ->
  (depth (Node rid ts) <= fuel)%nat -> 0 <= root (d_pdf (s_doc s)) -> blen F < 10 ^ 10 ->
  on_paper x -> on_paper y -> on_paper wd -> on_paper h -> (forall ph, pageHeight s1 pg = Ok ph -> on_paper ph) ->
  exists p' ins data pc ph ops, file_holds F p' pw /\ saved_document w s s' rid ts fi xi srcs p' ins /\
    insertImgObj (w_config w) (w_inflate w) (w_compress w) beyond (d_pdf (s_doc s1)) img = Ok (pc, data) /\ pageHeight s1 pg = Ok ph /\
    forall pid cid old, own_page ts srcs pg pid cid old -> pictured (flat_map leaves ts) xi pid -> drawn_on (objs p') pid cid old ops /\
      exists xps', page_images (objs p') pid xps' /\ shows_image (objs p') xps' data (val x) (val y) (val wd) (val h) (val ph) ops.
Proof. exact image_from_calls. Qed.
Print Assumptions C72_image_drawn_partial.

Example C72_image_case : exists s2 s3 s s' F p' xps data ops,
  history plain_world 5 (calls_first ++ [put_text (B"AB")]) new_pdft = Ok (s2, quiet (calls_first ++ [put_text (B"AB")])) /\
  call_of plain_world 5 (put_img [1] 2) s2 = Ok (s3, None) /\ saveTo plain_world 5 (plain_choices false) s = Ok (s', Ok F) /\
  locked_file F p' (B"user") (B"owner") /\ page_images (objs p') 5 xps /\ drawn_on (objs p') 5 6 (B"n ") ops /\
  shows_image (objs p') xps data 10 20 100 20 200 ops.
Proof. exact image_case. Qed.
