(** A save leaves alone what no call changed (C81). *)
From Coq Require Import String List ZArith Lia Bool.
From Coq.Floats Require Import SpecFloat.
From Verif Require Import Base Output OutputSpec Props PropsSpec PdfData PagesSpec Inject InjectSpec FontChainSpec Crawl ContentSpec ImgSpec Float64 Parse Crypto Api ApiCases SaveSpec SaveDoc SaveLockSpec SaveDrawSpec SaveBareCases KeepProofs.
Open Scope Z_scope.
Open Scope list_scope.

(** The catalog, the nodes of the page tree and the pages keep all entries but
    /Resources, and get at most /XObject.  An object that is neither a content
    stream nor one of those with the resources and fonts of a page is the same as
    before; if some page has its resources inside the page, or images, this is so
    for the catalog and the page tree as well.
    Missing: the same as in C72, and the two cases refuted below. *)
Theorem C81_kept_partial : forall w fuel ch cs log s s' F rid ts fi xi srcs pw,
  history w fuel cs new_pdft = Ok (s, log) -> saveTo w fuel ch s = Ok (s', Ok F) -> fair (ch_ord ch) -> protected_by s pw ->
  ready_document (d_pdf (s_doc s)) rid ts fi xi ->
  Forall2 (source (w_inflate w) (objs (d_pdf (s_doc s)))) (flat_map leaves ts) srcs ->
  (forall c, In c (content_ids srcs) -> ~ In c (root (d_pdf (s_doc s)) :: rid :: flat_map tree_ids ts) /\ ~ page_object (flat_map leaves ts) fi c) ->
  (depth (Node rid ts) <= fuel)%nat -> 0 <= root (d_pdf (s_doc s)) -> blen F < 10 ^ 10 ->
  exists p', file_holds F p' pw /\
    (forall j ps, In j (root (d_pdf (s_doc s)) :: rid :: flat_map tree_ids ts) -> dict (objs (d_pdf (s_doc s))) j ps -> exists ps', dict (objs p') j ps' /\ with_resources ps ps') /\
    (forall j o, version (objs (d_pdf (s_doc s))) j o -> ~ page_object (flat_map leaves ts) fi j -> ~ In j (content_ids srcs) ->
       ~ In j (root (d_pdf (s_doc s)) :: rid :: flat_map tree_ids ts) \/ (exists L, In L (flat_map leaves ts) /\ match xi L with NoRes | ResAt _ _ NoFont => False | _ => True end) ->
       version (objs p') j o).
Proof. exact kept_from_calls. Qed.
Print Assumptions C81_kept_partial.

(** A text and an image on two pages: the catalog and the old image are the same. *)
Example C81_kept_case : exists s s' F p' o1 o9 ps, after inside_calls = Ok s /\ saveTo plain_world 5 (plain_choices false) s = Ok (s', Ok F) /\ file_of F p' /\
  version (objs (d_pdf (s_doc s))) 1 o1 /\ version (objs p') 1 o1 /\
  odata o9 = [10] ++ B"<</Type/XObject/Subtype/Image>>" ++ [10] /\ version (objs p') 9 o9 /\
  dict (objs p') 3 ps /\ value ps (B"MediaBox") (B"[0 0 50 100]").
Proof. exact kept_case. Qed.

(** A file is opened and saved, and nothing is inserted.  The catalog has a new
    entry /XObject in the saved file. *)
Theorem C81_catalog_refuted : exists F F' s s2 o o2 ps ps2, reopened F F' s s2 /\
  the_object (objs (d_pdf (s_doc s))) (root (d_pdf (s_doc s))) o /\ entries o ps /\ ~ has_key ps (B"XObject") /\
  the_object (objs (d_pdf (s_doc s2))) (root (d_pdf (s_doc s2))) o2 /\ entries o2 ps2 /\ has_key ps2 (B"XObject").
Proof. exact catalog_changed. Qed.
Print Assumptions C81_catalog_refuted.

(** An object whose keys were different has a key twice. *)
Theorem C81_doubled_refuted : exists F F' s s2 j o o2 ps ps2, reopened F F' s s2 /\
  the_object (objs (d_pdf (s_doc s))) j o /\ entries o ps /\ NoDup (map pkey ps) /\
  the_object (objs (d_pdf (s_doc s2))) j o2 /\ entries o2 ps2 /\ ~ NoDup (map pkey ps2).
Proof. exact keys_doubled. Qed.
Print Assumptions C81_doubled_refuted.

(** The content stream of the first page grows each time. *)
Theorem C81_first_page_refuted : exists F F' F2 s s2 s3 j o o2 o3, reopened F F' s s2 /\ reopened F' F2 s2 s3 /\
  the_object (objs (d_pdf (s_doc s))) j o /\ the_object (objs (d_pdf (s_doc s2))) j o2 /\ the_object (objs (d_pdf (s_doc s3))) j o3 /\
  blen (odata o) < blen (odata o2) < blen (odata o3).
Proof. exact page_grows. Qed.
Print Assumptions C81_first_page_refuted.
