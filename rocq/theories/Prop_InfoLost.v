(** C88: the document information of an opened document.  The proofs are in
    InfoLost.v. *)
From Coq Require Import String List ZArith Bool.
From Verif Require Import GoPdf GoPdfSpec GoPdfDocSpec GoPdfTree GoPdfCases GoPdfReadyCases.
From Verif Require Import Base Output OutputSpec PdfSyntax PdfData Crawl Parse Api ApiCases LockTrailerSpec InfoLost PdfSyntax.
Open Scope Z_scope.
Open Scope list_scope.

(** The trailer of a saved file has Size and Root, or Size, Root, Encrypt and ID,
    and nothing else, whatever was opened and called. *)
Theorem C88_trailer_partial : forall w fuel ch cs s log s' F, history w fuel cs new_pdft = Ok (s, log) -> fair (ch_ord ch) -> saveTo w fuel ch s = Ok (s', Ok F) -> blen F < 10 ^ 10 ->
  exists d, (forall d', trailer_entries F d' <-> d' = d) /\ (map fst d = [B"Size"; B"Root"] \/ map fst d = [B"Size"; B"Root"; B"Encrypt"; B"ID"]).
Proof. exact trailer_keys. Qed.
Print Assumptions C88_trailer_partial.
Example C88_trailer_case : history world_x 2 (KOpen (s_file saved86) :: calls86) new_pdft = Ok (state86, combine (KOpen (s_file saved86) :: calls86) [None; None; None; None]) /\
  saveTo world_x 2 (plain_choices false) state86 = Ok (fst out86, Ok (snd out86)).
Proof. exact (conj log86_ok out86_ok). Qed.

(** "Title, author and the like are kept" is false: a document that GoPdf wrote
    with a title is opened, drawn on and saved, and the saved file has no Info. *)
Theorem C88_information_refuted : exists gw cfg t F i w fuel ch cs s s' F' log d, document gw [] cfg t F /\ info_of t = Some i /\ i_title i = B"T" /\ info_is F (Some i) /\
  history w fuel (KOpen F :: cs) new_pdft = Ok (s, log) /\ Forall (fun x => snd x = None) log /\ saveTo w fuel ch s = Ok (s', Ok F') /\ trailer_entries F' d /\ lookup (B"Info") d = None.
Proof. exact info_lost. Qed.
Print Assumptions C88_information_refuted.
