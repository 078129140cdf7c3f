(** C87: which documents can be saved.  The proofs are in SaveGoesFonts.v,
    SaveGoesImages.v, SaveGoesStep.v, SaveHeld.v, SaveGoes.v, SaveGoesLock.v,
    SaveGoesFinal.v, SaveGoesGoPdf.v, SaveGoesCases.v and SaveGoesOverCases.v. *)
From Coq Require Import String List ZArith Bool.
From Coq.Floats Require Import SpecFloat.
From Verif Require Import Float64 TextSpec PdfSyntax GoPdf GoPdfSpec GoPdfDocSpec GoPdfTree GoPdfCases GoPdfOpenSpec GoPdfResSpec GoPdfReadySpec GoPdfReadyCases.
From Verif Require Import Base Output Props PdfData PagesSpec Crawl Inject InjectSpec ContentSpec Ttf FontFinal Parse Crypto Api ApiSpec ApiIds TestFont ApiCases SaveSpec SaveCheck SaveBareCases SaveGoesSpec SaveGoesLock SaveGoesFinal SaveGoesGoPdf SaveGoesCases SaveGoesOverCases.
Open Scope Z_scope.
Open Scope list_scope.

(** Whatever calls were made and whatever order maps are walked in: an unprotected
    document that is ready (see C72), in which font entries are letters with a
    number and a reference, some page has resources, resources inside a page are
    not taken for a reference, and the fonts of which are complete, is saved. *)
Theorem C87_saves : forall w fuel ch cs s log rid ts fi xi srcs,
  history w fuel cs new_pdft = Ok (s, log) -> fair (ch_ord ch) -> can_save w fuel s rid ts fi xi srcs -> s_prot s = None ->
  exists s' F, saveTo w fuel ch s = Ok (s', Ok F).
Proof. exact save_succeeds_files. Qed.
Print Assumptions C87_saves.
Example C87_saves_case : exists s log s' F, history plain_world 5 nowhere_calls new_pdft = Ok (s, log) /\ nowhere_can s /\ s_prot s = None /\ saveTo plain_world 5 (plain_choices false) s = Ok (s', Ok F).
Proof. exact nowhere_goes. Qed.

(** A protected one is saved if and only if every object that would be written
    without protection has an "endstream" behind its first "stream"; otherwise the
    save panics. *)
Theorem C87_locked : forall w fuel ch cs s log rid ts fi xi srcs pr,
  history w fuel cs new_pdft = Ok (s, log) -> fair (ch_ord ch) -> can_save w fuel s rid ts fi xi srcs -> s_prot s = Some pr ->
  exists s0 os last r, saveTo w fuel ch (unlocked s) = Ok (s0, Ok (toStream os last r None)) /\
    ((exists s' F, saveTo w fuel ch s = Ok (s', Ok F)) <-> Forall (fun o => ends_stream (odata o)) os) /\
    ((exists o, In o os /\ ~ ends_stream (odata o)) -> saveTo w fuel ch s = Panic).
Proof. exact save_locked_files. Qed.
Print Assumptions C87_locked.
Example C87_locked_case : exists s log s' F pr, history plain_world 5 (nowhere_calls ++ [KProtect [] 4 (B"user") (B"owner")]) new_pdft = Ok (s, log) /\ nowhere_can s /\ s_prot s = Some pr /\
  saveTo plain_world 5 (plain_choices false) s = Ok (s', Ok F).
Proof. exact nowhere_locked_goes. Qed.
(** "What can be saved can be saved with a password" is false: a string with the
    word stream is enough. *)
Theorem C87_locked_refuted : exists w fuel ch cs s log s0 F0, history w fuel cs new_pdft = Ok (s, log) /\ Forall (fun x => snd x = None) log /\
  saveTo w fuel ch (unlocked s) = Ok (s0, Ok F0) /\ saveTo w fuel ch s = Panic.
Proof. destruct word_history as (s & log & s0 & F0 & H). exists plain_world, 5%nat, (plain_choices false), word_calls, s, log, s0, F0. exact H. Qed.
Print Assumptions C87_locked_refuted.

(** The resources are needed: a document without any is not saved, even if nothing
    is added to it. *)
Theorem C87_resources_needed : forall w fuel ch cs s log s' F rid ts fi xi, history w fuel cs new_pdft = Ok (s, log) -> fair (ch_ord ch) ->
  ready_document (d_pdf (s_doc s)) rid ts fi xi -> saveTo w fuel ch s = Ok (s', Ok F) -> exists L, In L (flat_map leaves ts) /\ xi L <> NoRes.
Proof. exact save_has_resources. Qed.
Print Assumptions C87_resources_needed.
Example C87_resources_case : ready_document unres_doc 2 [Leaf 3] (fonts_in (objs unres_doc)) (images_in (objs unres_doc)) /\
  exists s log s', history plain_world 5 [KOpen (toStream unres_objs 4 1 None)] new_pdft = Ok (s, log) /\ d_pdf (s_doc s) = unres_doc /\
  saveTo plain_world 5 (plain_choices false) s = Ok (s', Err EOther).
Proof. split; [exact unres_ready|exact unres_history]. Qed.

(** "Ready documents with resources can be saved" is false: resources in a page
    with two blanks are taken for a reference.  All other conditions hold. *)
Theorem C87_blanks_refuted : exists w fuel ch cs s log rid ts fi xi srcs s', history w fuel cs new_pdft = Ok (s, log) /\ fair (ch_ord ch) /\ s_prot s = None /\
  ready_document (d_pdf (s_doc s)) rid ts fi xi /\ Forall2 (source (w_inflate w) (objs (d_pdf (s_doc s)))) (flat_map leaves ts) srcs /\
  (forall c, In c (content_ids srcs) -> ~ In c (root (d_pdf (s_doc s)) :: rid :: flat_map tree_ids ts) /\ ~ page_object (flat_map leaves ts) fi c) /\
  (depth (Node rid ts) <= fuel)%nat /\ (forall L fps, In L (flat_map leaves ts) -> offered (fi L) = Some fps -> Forall readable_font fps) /\
  (forall L, In L (flat_map leaves ts) -> xi L <> NoRes) /\
  Forall (fun f => exists d n, parseTtf d = Ok (fd_ttf f) /\ complete_font d (fd_beyond f) n /\ within n (fd_map f)) (s_fonts s) /\
  saveTo w fuel ch s = Ok (s', Err EOther).
Proof. exact blank_witness87. Qed.
Print Assumptions C87_blanks_refuted.

(** What GoPdf drew can be drawn over and saved (see C86). *)
Theorem C87_over_partial : forall gw rnd cfg t F w f cs log ch s,
  document gw rnd cfg t F -> blen F < 10 ^ 10 -> real_infos t -> no_words F -> accepts (w_float w) -> compresses gw (w_inflate w) ->
  cfg_use cfg = false -> pages_of t <> [] -> Forall drawn_page (pages_of t) ->
  history w (S (S f)) (KOpen F :: cs) new_pdft = Ok (s, log) -> Forall adds cs ->
  Forall (fun f => exists d n, parseTtf d = Ok (fd_ttf f) /\ complete_font d (fd_beyond f) n /\ within n (fd_map f)) (s_fonts s) ->
  maxID (objs (d_pdf (s_doc s))) + 6 * Z.of_nat (List.length (names_of s)) + Z.of_nat (List.length (s_imgs s)) < 2 ^ 63 ->
  fair (ch_ord ch) -> s_prot s = None -> exists s' F', saveTo w (S (S f)) ch s = Ok (s', Ok F').
Proof. exact over_goes. Qed.
Print Assumptions C87_over_partial.
Example C87_over_case : document gw_x [] page_cfg (s_trace saved86) (s_file saved86) /\ blen (s_file saved86) < 10 ^ 10 /\ real_infos (s_trace saved86) /\ no_words (s_file saved86) /\
  accepts (w_float world_x) /\ compresses gw_x (w_inflate world_x) /\ cfg_use page_cfg = false /\ pages_of (s_trace saved86) <> [] /\
  Forall drawn_page (pages_of (s_trace saved86)) /\
  (exists log, history world_x 2 (KOpen (s_file saved86) :: calls86) new_pdft = Ok (state86, log)) /\ Forall adds calls86 /\
  Forall (fun f => exists d n, parseTtf d = Ok (fd_ttf f) /\ complete_font d (fd_beyond f) n /\ within n (fd_map f)) (s_fonts state86) /\
  maxID (objs (d_pdf (s_doc state86))) + 6 * Z.of_nat (List.length (names_of state86)) + Z.of_nat (List.length (s_imgs state86)) < 2 ^ 63 /\
  fair (ch_ord (plain_choices false)) /\ s_prot state86 = None /\ saveTo world_x 2 (plain_choices false) state86 = Ok (fst out86, Ok (snd out86)).
Proof. exact over86. Qed.
