(** C86: pdft draws over documents of GoPdf.  The proofs are in GoPdfReadyDict.v,
    GoPdfReadyStream.v, GoPdfReadyDoc.v, GoPdfReadyTree.v, GoPdfReady.v,
    GoPdfReadyApi.v, BlankSave.v, GoPdfBlank.v, GoPdfNoPages.v, GoPdfOver.v and GoPdfReadyCases.v. *)
From Coq Require Import String List ZArith Bool.
From Coq.Floats Require Import SpecFloat.
From Verif Require Import Float64 TextSpec PdfSyntax GoPdf GoPdfSpec GoPdfDocSpec GoPdfTree GoPdfCases GoPdfOpenSpec GoPdfResSpec GoPdfReadySpec.
From Verif Require Import Base Output Props PdfData PagesSpec Crawl ContentSpec Parse Crypto Api ApiCases SaveSpec SaveDoc SaveDrawSpec ApiIds GoPdfNoPages GoPdfOver GoPdfReadyCases.
Open Scope Z_scope.
Open Scope list_scope.

(** Whatever was drawn with GoPdf, and whatever is added with pdft after opening:
    if the save succeeds, the file has the pages of GoPdf in the same order, with
    the operators GoPdf wrote and behind them what pdft drew; the names of fonts and
    images that these operators use still mean the same objects; and all other
    objects are as they were.  Left out: documents with passwords, documents in which
    an object holds one of the words endobj, xref, trailer, pages of infinite size, and
    calls that change the pages.  (Pages that have the size of the document keep it
    from opening, C84; pages on which nothing was drawn keep it from being saved, as
    having no pages does, see below.) *)
Theorem C86_over_partial : forall gw rnd cfg t F w f cs log ch s s' F' pw,
  document gw rnd cfg t F -> blen F < 10 ^ 10 -> real_infos t -> no_words F -> accepts (w_float w) -> compresses gw (w_inflate w) ->
  cfg_use cfg = false -> Forall (fun p => finite (fst (fst p)) /\ finite (snd (fst p))) (pages_of t) ->
  history w (S (S f)) (KOpen F :: cs) new_pdft = Ok (s, log) -> Forall adds cs ->
  saveTo w (S (S f)) ch s = Ok (s', Ok F') -> fair (ch_ord ch) -> protected_by s pw -> blen F' < 10 ^ 10 ->
  exists os kids srcs fi xi p' ins, all_objects F os /\ file_holds F' p' pw /\ saved_document w s s' 2 (map Leaf kids) fi xi srcs p' ins /\
    over_pages gw (w_inflate w) cfg F os (pages_of t) kids p' ins /\ over_names F kids p' /\ over_rest gw (w_inflate w) cfg F os (pages_of t) kids p' ins.
Proof. exact drawn_over. Qed.
Print Assumptions C86_over_partial.

(** All conditions hold for two pages with a text and a line, and a text added to
    the first one. *)
Example C86_over_case : document gw_x [] page_cfg (s_trace saved86) (s_file saved86) /\ map (fun x => snd (fst x)) (s_trace saved86) = prog86 /\ blen (s_file saved86) < 10 ^ 10 /\
  real_infos (s_trace saved86) /\ no_words (s_file saved86) /\ accepts (w_float world_x) /\ compresses gw_x (w_inflate world_x) /\ pages_of (s_trace saved86) <> [] /\
  Forall (fun p => finite (fst (fst p)) /\ finite (snd (fst p))) (pages_of (s_trace saved86)) /\
  history world_x 2 (KOpen (s_file saved86) :: calls86) new_pdft = Ok (state86, combine (KOpen (s_file saved86) :: calls86) [None; None; None; None]) /\ Forall adds calls86 /\
  saveTo world_x 2 (plain_choices false) state86 = Ok (fst out86, Ok (snd out86)) /\ protected_by state86 None /\ blen (snd out86) < 10 ^ 10 /\
  seen86 10 = Ok ([10] ++ B"<<" ++ [10] ++ B"/Length 125" ++ [10] ++ B">>" ++ [10] ++ B"stream" ++ [10] ++
    B"BT" ++ [10] ++ B"10.00 40.00 TD" ++ [10] ++ B"/F1 12 Tf" ++ [10] ++ B"[<0001>] TJ" ++ [10] ++ B"ET" ++ [10] ++ [10] ++
    B"[] 0 d" ++ [10] ++ B"0.00 w" ++ [10] ++ B"BT" ++ [10] ++ B"10.00 30.00 TD" ++ [10] ++ B"/F2 12 Tf" ++ [10] ++ B"0.00 0.00 0.00 rg" ++ [10] ++ B"[<00010002>] TJ" ++ [10] ++ B"ET" ++ [10; 13; 10] ++ B"endstream" ++ [10]) /\
  seen86 12 = was86 12 /\ seen86 8 = was86 8.
Proof. exact over_case. Qed.

(** Without pages, or with a page on which nothing was drawn, a document of GoPdf,
    protected or not, is never saved, whatever pdft adds to it.  Left out: see above. *)
Theorem C86_blank_partial : forall gw rnd cfg t F w f cs log ch s s' F',
  document gw rnd cfg t F -> blen F < 10 ^ 10 -> real_infos t -> no_words F -> pages_of t = [] \/ Exists blank_page (pages_of t) ->
  history w (S (S f)) (KOpen F :: cs) new_pdft = Ok (s, log) -> Forall adds cs -> fair (ch_ord ch) ->
  maxID (objs (d_pdf (s_doc s))) + 6 * Z.of_nat (List.length (names_of s)) + Z.of_nat (List.length (s_imgs s)) < 2 ^ 63 ->
  saveTo w (S (S f)) ch s <> Ok (s', Ok F').
Proof. exact unsaved. Qed.
Print Assumptions C86_blank_partial.
Example C86_blank_case : document gw_x [] page_cfg (s_trace saved86e) (s_file saved86e) /\ blen (s_file saved86e) < 10 ^ 10 /\ real_infos (s_trace saved86e) /\ no_words (s_file saved86e) /\ Exists blank_page (pages_of (s_trace saved86e)) /\
  (exists log, history world_x 2 (KOpen (s_file saved86e) :: calls86) new_pdft = Ok (state86e calls86, log)) /\ Forall adds calls86 /\ fair (ch_ord (plain_choices false)) /\
  maxID (objs (d_pdf (s_doc (state86e calls86)))) + 6 * Z.of_nat (List.length (names_of (state86e calls86))) + Z.of_nat (List.length (s_imgs (state86e calls86))) < 2 ^ 63 /\
  saveTo world_x 2 (plain_choices false) (state86e calls86) = Ok (left86e calls86, Err EObjNotFound).
Proof. exact blank_all. Qed.
Example C86_none_case : document gw_x [] page_cfg (s_trace saved86n) (s_file saved86n) /\ blen (s_file saved86n) < 10 ^ 10 /\ real_infos (s_trace saved86n) /\ no_words (s_file saved86n) /\ pages_of (s_trace saved86n) = [] /\
  history world_x 2 (KOpen (s_file saved86n) :: calls86n) new_pdft = Ok (state86n, combine (KOpen (s_file saved86n) :: calls86n) [None; None]) /\ Forall adds calls86n /\ fair (ch_ord (plain_choices false)) /\
  maxID (objs (d_pdf (s_doc state86n))) + 6 * Z.of_nat (List.length (names_of state86n)) + Z.of_nat (List.length (s_imgs state86n)) < 2 ^ 63 /\
  saveTo world_x 2 (plain_choices false) state86n = Ok (left86n, Err EOther).
Proof. exact none_all. Qed.

(** "Every document of GoPdf that pdft opens can be saved" is false: an empty page
    has an empty Contents entry, at which the save fails, wherever one draws. *)
Theorem C86_blank_page_refuted : exists gw cfg t F w fuel ch cs s0 s0' s s' log, document gw [] cfg t F /\ Forall (fun x => snd x = None) t /\ 
  history w fuel [KOpen F] new_pdft = Ok (s0, [(KOpen F, None)]) /\ saveTo w fuel ch s0 = Ok (s0', Err EObjNotFound) /\
  Forall adds cs /\ history w fuel (KOpen F :: cs) new_pdft = Ok (s, log) /\ Forall (fun x => snd x = None) log /\ saveTo w fuel ch s = Ok (s', Err EObjNotFound).
Proof. exact blank_witness. Qed.
Print Assumptions C86_blank_page_refuted.

(** "The dictionaries of the saved file have each key once" is false for documents
    of GoPdf with two pages: the resources have two Font entries, the second
    without the font that was added. *)
Theorem C86_resources_refuted : exists gw cfg t F w fuel ch cs s s' F' log b r xs ps, document gw [] cfg t F /\ Forall adds cs /\
  history w fuel (KOpen F :: cs) new_pdft = Ok (s, log) /\ saveTo w fuel ch s = Ok (s', Ok F') /\
  (exists s2 log2, history w fuel [KOpen F'] new_pdft = Ok (s2, log2) /\ getObj 3 (objs (d_pdf (s_doc s2))) = Ok (mkObj 3 b)) /\ xs = [(B"F1", PRef 8 0)] /\
  reads b (PDict [(B"ProcSet", ps); (B"Font", PDict (xs ++ [(B"F2", PRef 14 0)])); (B"XObject", PDict []); (B"ProcSet", ps); (B"Font", PDict xs); (B"XObject", PDict [])]) r.
Proof. exact twice_witness. Qed.
Print Assumptions C86_resources_refuted.
