(** What the other drawing calls drew is in the saved file (C72): InsertWrapText,
    InsertImgBase64 and InsertImgWithCache. *)
From Coq Require Import String List ZArith Lia Bool Reals.
From Coq.Floats Require Import SpecFloat.
From Verif Require Import Base Output OutputSpec Props PropsSpec PdfData PagesSpec Crawl Inject InjectSpec ContentSpec ImgSpec Utf8 Float64 Ttf TtfSpec Subset Text TextSpec TextPlaceSpec TextFinal Wrap FontObjects FontChainSpec FontChain
  Parse Png Md5Rc4 Crypto Api ApiSpec ApiProofs ApiIds ApiImages ApiCases SaveSpec SaveDoc SaveLockSpec SaveDrawSpec SaveDrawn SaveCheck SaveCases SaveWrapSpec SaveMore SaveDrawCases SaveMoreCases PlaceCases.
Open Scope Z_scope.
Open Scope list_scope.

(** InsertWrapText with a text breaker.  The lines are those of C31 for the tokens
    of the breaker; what they draw is on the page, one after the other; each line
    is shown as in C72_text_drawn_partial, at its own place.
    Missing: as there.  (Without a breaker the call is Insert.) *)
Theorem C72_wrapped_drawn_partial : forall w fuel ch cs1 s1 log1 t pg x y wd h al c br toks s2 cs2 log2 s s' F rid ts fi xi srcs pw name st sz k d u a b up uh,
  history w fuel cs1 new_pdft = Ok (s1, log1) -> selected log1 name st sz -> registered log1 name k (Some d) ->
  br t = Ok toks -> call_of w fuel (KWrap t pg x y wd h al c (Some br)) s1 = Ok (s2, None) ->
  history w fuel cs2 s2 = Ok (s, log2) -> forallb (fun c => negb (is_save c)) cs1 = true -> forallb (fun c => negb (is_save c) && negb (is_open c)) cs2 = true ->
  saveTo w fuel ch s = Ok (s', Ok F) -> fair (ch_ord ch) -> protected_by s pw ->
  ready_document (d_pdf (s_doc s)) rid ts fi xi ->
  Forall2 (source (w_inflate w) (objs (d_pdf (s_doc s)))) (flat_map leaves ts) srcs ->
  (forall c, In c (content_ids srcs) -> ~ In c (root (d_pdf (s_doc s)) :: rid :: flat_map tree_ids ts) /\ ~ page_object (flat_map leaves ts) fi c) ->
  (depth (Node rid ts) <= fuel)%nat -> 0 <= root (d_pdf (s_doc s)) -> blen F < 10 ^ 10 ->
  face_file d u a b up uh -> plain_name name ->
  on_paper x -> on_paper wd -> on_paper h -> 0 <= sz <= 10000 ->
  (forall ph, pageHeight s1 pg = Ok ph -> on_paper ph) ->
  (forall f, nth_error (s_fonts s) k = Some f -> map_ok (fd_map f)) ->
  exists p' ins f0 f line ph lines, file_holds F p' pw /\ saved_document w s s' rid ts fi xi srcs p' ins /\
    nth_error (s_fonts s1) k = Some f0 /\ nth_error (s_fonts s) k = Some f /\ fd_family f = name /\
    wrapped (sfont_of f0) sz wd y al toks lines /\ (lines = [] \/ pageHeight s1 pg = Ok ph) /\
    forall pid cid old fps, own_page ts srcs pg pid cid old -> page_fonts (objs (d_pdf (s_doc s))) pid fps -> exists opss, (lines <> [] -> drawn_on (objs p') pid cid old (List.concat opss)) /\
      Forall2 (fun l ops => settable d f sz l -> exists fps', page_fonts (objs p') pid fps' /\
        shows_text w (objs p') fps' f d u a b (mkText (fst l) c (getConvertedStyle st) sz pg x (snd l) wd h al line ph) ops) lines opss.
Proof. exact wrapped_from_calls. Qed.
Print Assumptions C72_wrapped_drawn_partial.

(** Two words that do not fit beside each other into 15 points. *)
Example C72_wrapped_case : exists s1 s2 s s' F p' f line opss,
  history plain_world 5 calls_first new_pdft = Ok (s1, quiet calls_first) /\ call_of plain_world 5 wrap_call s1 = Ok (s2, None) /\
  saveTo plain_world 5 (plain_choices false) s = Ok (s', Ok F) /\ file_of F p' /\ fd_family f = B"T" /\ drawn_on (objs p') 3 4 (B"q Q ") (List.concat opss) /\
  Forall2 (fun l ops => exists fps, page_fonts (objs p') 3 fps /\
    shows_text plain_world (objs p') fps f lined_font 2000 1600 (-400) (mkText (fst l) None 0 12 1 (fofz 10) (snd l) (fofz 15) (fofz 20) 0 line (fofz 100)) ops)
    [(B"AB", fofz 20); (B"AB", second_line)] opss.
Proof. exact wrapped_case. Qed.

(** InsertImgBase64: the image of the decoded bytes. *)
Theorem C72_image64_drawn_partial : forall w fuel ch cs1 s1 log1 beyond b64 pg x y wd h s2 cs2 log2 s s' F rid ts fi xi srcs pw,
  history w fuel cs1 new_pdft = Ok (s1, log1) -> call_of w fuel (KImg64 beyond b64 pg x y wd h) s1 = Ok (s2, None) -> history w fuel cs2 s2 = Ok (s, log2) ->
  saveTo w fuel ch s = Ok (s', Ok F) -> fair (ch_ord ch) -> protected_by s pw ->
  ready_document (d_pdf (s_doc s)) rid ts fi xi ->
  Forall2 (source (w_inflate w) (objs (d_pdf (s_doc s)))) (flat_map leaves ts) srcs ->
  (forall c, In c (content_ids srcs) -> ~ In c (root (d_pdf (s_doc s)) :: rid :: flat_map tree_ids ts) /\ ~ page_object (flat_map leaves ts) fi c) ->
  (depth (Node rid ts) <= fuel)%nat -> 0 <= root (d_pdf (s_doc s)) -> blen F < 10 ^ 10 ->
  on_paper x -> on_paper y -> on_paper wd -> on_paper h -> (forall ph, pageHeight s1 pg = Ok ph -> on_paper ph) ->
  exists p' ins img data pc ph ops, file_holds F p' pw /\ saved_document w s s' rid ts fi xi srcs p' ins /\ w_base64 w b64 = Ok img /\
    insertImgObj (w_config w) (w_inflate w) (w_compress w) beyond (d_pdf (s_doc s1)) img = Ok (pc, data) /\ pageHeight s1 pg = Ok ph /\
    forall pid cid old, own_page ts srcs pg pid cid old -> pictured (flat_map leaves ts) xi pid -> drawn_on (objs p') pid cid old ops /\
      exists xps', page_images (objs p') pid xps' /\ shows_image (objs p') xps' data (val x) (val y) (val wd) (val h) (val ph) ops.
Proof. exact image64_from_calls. Qed.
Print Assumptions C72_image64_drawn_partial.

Example C72_image64_case : exists s2 s3 s s' F p' xps data ops,
  call_of plain_world 5 call64 s2 = Ok (s3, None) /\ saveTo plain_world 5 (plain_choices false) s = Ok (s', Ok F) /\
  file_of F p' /\ page_images (objs p') 5 xps /\ drawn_on (objs p') 5 6 (B"n ") ops /\ made plain_world [1] data /\ shows_image (objs p') xps data 10 20 100 20 200 ops.
Proof. exact image64_case. Qed.

(** InsertImgWithCache: the image of the bytes [img], or of bytes [img'] with the
    same md5 sum that an earlier call handed over. *)
Theorem C72_cached_drawn_partial : forall w fuel ch cs1 s1 log1 beyond img pg x y wd h s2 cs2 log2 s s' F rid ts fi xi srcs pw,
  history w fuel cs1 new_pdft = Ok (s1, log1) -> call_of w fuel (KImgCache beyond img pg x y wd h) s1 = Ok (s2, None) -> history w fuel cs2 s2 = Ok (s, log2) ->
  saveTo w fuel ch s = Ok (s', Ok F) -> fair (ch_ord ch) -> protected_by s pw ->
  ready_document (d_pdf (s_doc s)) rid ts fi xi ->
  Forall2 (source (w_inflate w) (objs (d_pdf (s_doc s)))) (flat_map leaves ts) srcs ->
  (forall c, In c (content_ids srcs) -> ~ In c (root (d_pdf (s_doc s)) :: rid :: flat_map tree_ids ts) /\ ~ page_object (flat_map leaves ts) fi c) ->
  (depth (Node rid ts) <= fuel)%nat -> 0 <= root (d_pdf (s_doc s)) -> blen F < 10 ^ 10 ->
  on_paper x -> on_paper y -> on_paper wd -> on_paper h -> (forall ph, pageHeight s1 pg = Ok ph -> on_paper ph) ->
  exists p' ins img' data ph ops, file_holds F p' pw /\ saved_document w s s' rid ts fi xi srcs p' ins /\
    (img' = img \/ In img' (cached log1)) /\ md5 img' = md5 img /\ made w img' data /\ pageHeight s1 pg = Ok ph /\
    forall pid cid old, own_page ts srcs pg pid cid old -> pictured (flat_map leaves ts) xi pid -> drawn_on (objs p') pid cid old ops /\
      exists xps', page_images (objs p') pid xps' /\ shows_image (objs p') xps' data (val x) (val y) (val wd) (val h) (val ph) ops.
Proof. exact cached_from_calls. Qed.
Print Assumptions C72_cached_drawn_partial.

(** The second use of the same bytes. *)
Example C72_cached_case : exists s3 s4 s s' F p' xps data ops,
  call_of plain_world 5 (cache_call 10) s3 = Ok (s4, None) /\ call_of plain_world 5 (cache_call 30) s4 = Ok (s, None) /\ saveTo plain_world 5 (plain_choices false) s = Ok (s', Ok F) /\
  file_of F p' /\ page_images (objs p') 5 xps /\ drawn_on (objs p') 5 6 (B"n ") ops /\ made plain_world [2] data /\ shows_image (objs p') xps data 30 20 100 20 200 ops.
Proof. exact cached_case. Qed.
