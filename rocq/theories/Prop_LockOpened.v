(** C85: protection of opened documents.  The proofs are in LockTrailer.v and
    LockOpened.v. *)
From Coq Require Import String List ZArith Bool.
From Coq.Floats Require Import SpecFloat.
From Verif Require Import Base Output OutputSpec PdfSyntax Float64 PdfData Crawl Parse FontChainSpec Api ApiCases LockTrailerSpec LockTrailer
  GoPdf GoPdfSpec GoPdfDocSpec GoPdfCases LockOpened PdfSyntax.
Open Scope Z_scope.
Open Scope list_scope.

(** A saved file says that it is encrypted exactly if SetProtection was called
    and answered without error, at any time before, also before the document was
    opened; whatever the opened file said about encryption does not matter. *)
Theorem C85_trailer_partial : forall w fuel ch cs s log s' F, history w fuel cs new_pdft = Ok (s, log) -> fair (ch_ord ch) -> saveTo w fuel ch s = Ok (s', Ok F) -> blen F < 10 ^ 10 ->
  exists d, (forall d', trailer_entries F d' <-> d' = d) /\ lookup (B"Root") d = Some (PRef (root (d_pdf (s_doc s))) 0) /\
    (lookup (B"Encrypt") d <> None <-> exists x, In x log /\ protects x).
Proof. exact saved_trailer. Qed.
Print Assumptions C85_trailer_partial.
Example C85_both_cases : (exists F log, answers_of [KProtect [] 4 (B"user") (B"owner"); KOpen sample_file] = Ok (F, log) /\ map snd log = [None; None] /\ contains (B"/Encrypt 6 0 R") F = true) /\
  (exists F log, answers_of [KOpen sample_file] = Ok (F, log) /\ map snd log = [None] /\ contains (B"/Encrypt") F = false).
Proof. exact both_cases. Qed.

(** "A protected document shows the same after a save, or cannot be opened" is
    false: it is opened without a password, and saved as a file that does not say
    it is encrypted but holds the encrypted content streams.  The page showed a
    line, and now the bytes of the encryption are taken for operators. *)
Theorem C85_lost_refuted : exists cfg t F key w s log s' F' d d' x s2 log2 o d2, document gw_id [] cfg t F /\ map (fun x => snd (fst x)) t = lock_prog /\ cfg_use cfg = true /\
  opens F (cfg_user cfg) (Some key) /\ page_is F 4 (cfg_w cfg, cfg_h cfg) (fofz 100, fofz 50) 5 /\ stream_is F 5 d x /\ decodes (fun b => Ok b) (Some key) F 5 d line85 /\
  history w 5 [KOpen F] new_pdft = Ok (s, log) /\ log = [(KOpen F, None)] /\ saveTo w 5 (plain_choices false) s = Ok (s', Ok F') /\
  trailer_entries F' d' /\ lookup (B"Encrypt") d' = None /\
  history w 5 [KOpen F'] new_pdft = Ok (s2, log2) /\ the_object (objs (d_pdf (s_doc s2))) 5 o /\
  stream_object (odata o) d2 (x ++ [10] ++ B"[] 0 d" ++ [10] ++ B"0.00 w" ++ [10]) /\ lookup (B"Filter") d2 = None /\ x <> line85.
Proof. exact lost_case. Qed.
Print Assumptions C85_lost_refuted.
