(** C84: pdft opens what GoPdf writes.  The proofs are in GoPdfOpen.v,
    GoPdfOpenDict.v, GoPdfOpenPages.v, GoPdfOpenDoc.v, GoPdfOpenCases.v and GoPdfWordCases.v. *)
From Coq Require Import String List ZArith Bool.
From Coq.Floats Require Import SpecFloat.
From Verif Require Import Base Output OutputSpec PdfSyntax Float64 TextSpec PdfData Parse ParseFinal GoPdf GoPdfSpec GoPdfTree GoPdfCases GoPdfOpenSpec GoPdfOpenDoc GoPdfOpenCases GoPdfWordCases.
Open Scope Z_scope.
Open Scope list_scope.

(** Every document, protected or not, whatever was called: all objects of the
    file are read, the pages are those of the page tree in the order of the
    AddPage calls, and if every page got a size of its own these sizes are known
    afterwards; otherwise the program panics.  Left out: documents in which an
    object (a compressed stream, for instance) holds one of the words endobj, xref,
    trailer.  real_infos says that the date of SetInfo is one that Format prints. *)
Theorem C84_opens_partial : forall w rnd cfg t F float f, document w rnd cfg t F -> blen F < 10 ^ 10 -> real_infos t -> no_words F -> accepts float ->
  exists kids d, PDFParse float (S (S f)) F nodoc = (d, if forallb own_size (pages_of t) then Ok tt else Panic) /\
    root (d_pdf d) = 1 /\ all_objects F (objs (d_pdf d)) /\ getPageObjIDs (S (S f)) (d_pdf d) = Ok kids /\
    NoDup kids /\ List.length kids = List.length (pages_of t) /\ (finite (cfg_w cfg) -> finite (cfg_h cfg) -> root_is F (cfg_w cfg, cfg_h cfg) kids) /\
    Forall2 (fun k p => drawn_page p -> exists c, page_is F k (cfg_w cfg, cfg_h cfg) (asked cfg (fst p)) c) kids (pages_of t) /\
    (forallb own_size (pages_of t) = true -> sizes_are float 0 (pages_of t) (d_sizes d)).
Proof. exact opens_document. Qed.
Print Assumptions C84_opens_partial.
Example C84_case : document gw_id [] page_cfg (s_trace saved84) (s_file saved84) /\ map (fun x => snd (fst x)) (s_trace saved84) = sized /\
  blen (s_file saved84) < 10 ^ 10 /\ real_infos (s_trace saved84) /\ no_words (s_file saved84) /\ forallb own_size (pages_of (s_trace saved84)) = true /\
  exists d, PDFParse whole00 2 (s_file saved84) nodoc = (d, Ok tt) /\ getPageObjIDs 2 (d_pdf d) = Ok [9; 11] /\ List.length (objs (d_pdf d)) = 11%nat /\
    d_sizes d = [(0, map fofz [0; 0; 100; 50]); (1, map fofz [0; 0; 60; 70])].
Proof. exact sized_case. Qed.
Example C84_nothing_case : document gw_id [] page_cfg [] (s_file saved84e) /\ exists d, PDFParse whole00 2 (s_file saved84e) nodoc = (d, Ok tt) /\ getPageObjIDs 2 (d_pdf d) = Ok [] /\ d_sizes d = [].
Proof. exact nothing_case. Qed.

(** "pdft opens every document of GoPdf" is false: a page of the size of the
    document, as AddPage makes them, makes it panic. *)
Theorem C84_standard_page_refuted : exists w rnd cfg t F, document w rnd cfg t F /\ map (fun x => snd (fst x)) t = [std_page; Line (fofz 10) (fofz 20) (fofz 30) (fofz 40)] /\
  Forall drawn_page (pages_of t) /\ forall float f, exists d, PDFParse float (S (S f)) F nodoc = (d, Panic).
Proof. exact unsized_case. Qed.
Print Assumptions C84_standard_page_refuted.

(** The words cannot be left out of the conditions either.  A JPEG picture is
    copied into the file as it is.  With "endobj" in it pdft opens the document and
    cuts the picture off there, with "trailer" it reports an error, and with
    "startxref" it panics. *)
Theorem C84_words_refuted :
  (exists w rnd cfg t F float f, document w rnd cfg t F /\ map (fun x => snd (fst x)) t = pictured (B"endobj") /\ blen F < 10 ^ 10 /\ real_infos t /\ forallb own_size (pages_of t) = true /\
    exists d, PDFParse float (S (S f)) F nodoc = (d, Ok tt) /\ ~ all_objects F (objs (d_pdf d))) /\
  (exists w rnd cfg t F, document w rnd cfg t F /\ map (fun x => snd (fst x)) t = pictured (B"trailer") /\ blen F < 10 ^ 10 /\ real_infos t /\ forallb own_size (pages_of t) = true /\
    forall float f, exists d e, PDFParse float (S (S f)) F nodoc = (d, Err e)) /\
  (exists w rnd cfg t F, document w rnd cfg t F /\ map (fun x => snd (fst x)) t = pictured (B"startxref") /\ blen F < 10 ^ 10 /\ real_infos t /\ forallb own_size (pages_of t) = true /\
    forall float f, exists d, PDFParse float (S (S f)) F nodoc = (d, Panic)).
Proof. exact words_needed. Qed.
Print Assumptions C84_words_refuted.
