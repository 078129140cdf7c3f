(** A saved document is complete: the property C72. *)
From Coq Require Import String List ZArith Lia Bool.
From Coq.Floats Require Import SpecFloat.
From Verif Require Import Base Output Props PropsSpec PdfData PagesSpec Crawl Inject InjectSpec ContentSpec ImgSpec TestFont FontChainSpec FontChain Parse Api ApiIds ApiCases Crypto SaveSpec SaveDoc SaveWhole SaveLockSpec SaveLock SaveCheck SaveCases SaveBareCases.
Open Scope Z_scope.
Open Scope list_scope.

(** From the calls to the bytes of the file.  A document was opened whose pages
    have their resources in the pages or in objects, and their images in the pages,
    in one object, or nowhere ([ready_document] in SaveSpec.v); fonts, texts, lines
    and images were added, and it is saved without password.  Then the file has a
    document [p'] with the same pages, in which pages that had fonts have these and
    the new ones, pages that had images (all pages, if none had) likewise,
    every font is complete, every image is there, everything else is unchanged, and the streams of the pages are the old ones followed by what was
    drawn, which uses the names the new fonts and images have
    ([saved_document] in SaveDoc.v, [file_of] in SaveSpec.v).
    Missing: documents with images in several objects, or with pages further down
    and resources but no images in them (see C44). *)
Theorem C72_saved_document_partial : forall w fuel ch cs log s s' F rid ts fi xi srcs,
  history w fuel cs new_pdft = Ok (s, log) -> saveTo w fuel ch s = Ok (s', Ok F) -> fair (ch_ord ch) -> s_prot s = None ->
  ready_document (d_pdf (s_doc s)) rid ts fi xi ->
  Forall2 (source (w_inflate w) (objs (d_pdf (s_doc s)))) (flat_map leaves ts) srcs ->
  (forall c, In c (content_ids srcs) -> ~ In c (root (d_pdf (s_doc s)) :: rid :: flat_map tree_ids ts) /\ ~ page_object (flat_map leaves ts) fi c) ->
  (depth (Node rid ts) <= fuel)%nat -> 0 <= root (d_pdf (s_doc s)) -> blen F < 10 ^ 10 ->
  exists p' ins, file_of F p' /\ saved_document w s s' rid ts fi xi srcs p' ins.
Proof. exact saved_after_calls. Qed.
Print Assumptions C72_saved_document_partial.

(** Two pages, a font and an image; a text is added to the first page and an
    image to the second. *)
Example C72_case : exists s s' F p' f fps xps d n, after shared_calls = Ok s /\ saveTo plain_world 5 (plain_choices false) s = Ok (s', Ok F) /\
  file_of F p' /\ page_tree p' (Node 2 [Leaf 3; Leaf 5]) /\ page_fonts (objs p') 3 fps /\ page_images (objs p') 5 xps /\
  font_named fps (B"F1") 8 /\ font_named fps (B"F2") 11 /\ nth_error (s_fonts s) 0 = Some f /\ fd_map f = [(65, 1); (66, 2)] /\ embeds plain_world (objs p') f 11 /\
  font_named xps (B"Im1") 9 /\ font_named xps (B"Im2") n /\ the_object (objs p') n (mkObj n d) /\
  page_shows (objs p') 3 4 (B"q Q " ++ [10] ++ text_ops) /\ page_shows (objs p') 5 6 (B"n " ++ [10] ++ image_ops).
Proof. exact shared_case. Qed.

(** The same for a document that had no images: then also the objects of the page
    tree are written anew, and keep their entries. *)
Example C72_bare_case : exists s s' F p' f fps xps ps d n, after bare_calls = Ok s /\ saveTo plain_world 5 (plain_choices false) s = Ok (s', Ok F) /\
  file_of F p' /\ page_tree p' (Node 2 [Leaf 3; Leaf 5]) /\ page_fonts (objs p') 3 fps /\ page_images (objs p') 5 xps /\
  font_named fps (B"F1") 9 /\ font_named fps (B"F2") 11 /\ nth_error (s_fonts s) 0 = Some f /\ fd_map f = [(65, 1); (66, 2)] /\ embeds plain_world (objs p') f 11 /\
  font_named xps (B"I1") n /\ the_object (objs p') n (mkObj n d) /\ dict (objs p') 3 ps /\ value ps (B"MediaBox") (B"[0 0 50 100]") /\
  page_shows (objs p') 3 4 (B"q Q " ++ [10] ++ text_ops) /\ page_shows (objs p') 5 6 (B"n " ++ [10] ++ bare_ops).
Proof. exact bare_case. Qed.

(** The same for documents with the resources in the pages, with images and without. *)
Example C72_inside_case : exists s s' F p' f fps xps d n, after inside_calls = Ok s /\ saveTo plain_world 5 (plain_choices false) s = Ok (s', Ok F) /\
  file_of F p' /\ page_tree p' (Node 2 [Leaf 3; Leaf 5]) /\ page_fonts (objs p') 3 fps /\ page_images (objs p') 5 xps /\
  font_named fps (B"F1") 7 /\ font_named fps (B"F2") 11 /\ nth_error (s_fonts s) 0 = Some f /\ fd_map f = [(65, 1); (66, 2)] /\ embeds plain_world (objs p') f 11 /\
  font_named xps (B"X7") 9 /\ font_named xps (B"X8") n /\ the_object (objs p') n (mkObj n d) /\
  page_shows (objs p') 3 4 (B"q Q " ++ [10] ++ text_ops) /\ page_shows (objs p') 5 6 (B"n " ++ [10] ++ inside_ops).
Proof. exact inside_case. Qed.
Example C72_nowhere_case : exists s s' F p' f fps xps d n, after nowhere_calls = Ok s /\ saveTo plain_world 5 (plain_choices false) s = Ok (s', Ok F) /\
  file_of F p' /\ page_tree p' (Node 2 [Leaf 3; Leaf 5]) /\ page_fonts (objs p') 3 fps /\ page_images (objs p') 5 xps /\
  font_named fps (B"F1") 7 /\ font_named fps (B"F2") 9 /\ nth_error (s_fonts s) 0 = Some f /\ fd_map f = [(65, 1); (66, 2)] /\ embeds plain_world (objs p') f 9 /\
  font_named xps (B"I1") n /\ the_object (objs p') n (mkObj n d) /\
  page_shows (objs p') 3 4 (B"q Q " ++ [10] ++ text_ops) /\ page_shows (objs p') 5 6 (B"n " ++ [10] ++ bare_ops).
Proof. exact nowhere_case. Qed.

(** With passwords: the file has the same document, enciphered, and the passwords
    give the key to it ([locked_file] in SaveLockSpec.v; a stream has lost the line
    ends at its ends, see C34). *)
Theorem C72_locked_partial : forall w fuel ch cs log s s' F rid ts fi xi srcs pr rnd perm user owner,
  history w fuel cs new_pdft = Ok (s, log) -> saveTo w fuel ch s = Ok (s', Ok F) -> fair (ch_ord ch) ->
  s_prot s = Some pr -> setProtection rnd perm user owner = Ok pr -> 0 <= perm < 256 ->
  ready_document (d_pdf (s_doc s)) rid ts fi xi ->
  Forall2 (source (w_inflate w) (objs (d_pdf (s_doc s)))) (flat_map leaves ts) srcs ->
  (forall c, In c (content_ids srcs) -> ~ In c (root (d_pdf (s_doc s)) :: rid :: flat_map tree_ids ts) /\ ~ page_object (flat_map leaves ts) fi c) ->
  (depth (Node rid ts) <= fuel)%nat -> 0 <= root (d_pdf (s_doc s)) -> blen F < 10 ^ 10 ->
  exists p' ins, locked_file F p' user owner /\ saved_document w s s' rid ts fi xi srcs p' ins.
Proof. exact locked_after_calls. Qed.
Print Assumptions C72_locked_partial.

Example C72_locked_case : exists s s' F p', after locked_calls = Ok s /\ saveTo plain_world 5 (plain_choices false) s = Ok (s', Ok F) /\
  locked_file F p' (B"user") (B"owner") /\ page_tree p' (Node 2 [Leaf 3; Leaf 5]) /\ page_shows (objs p') 5 6 (B"n " ++ [10] ++ image_ops).
Proof. exact locked_case. Qed.
