(** A document of GoPdf that is drawn over and saved (see GoPdfReadyCases.v). *)
From Coq Require Import String List ZArith Lia Bool Permutation.
From Coq.Floats Require Import SpecFloat.
From Verif Require Import Float64 TextSpec PdfSyntax GoPdf GoPdfSpec GoPdfDocSpec GoPdfTree GoPdfCases GoPdfOpenSpec GoPdfOpenCases GoPdfResSpec GoPdfReadySpec GoPdfReadyCases.
From Verif Require Import Base Output PdfData Crawl Ttf FontTotal FontFinal Parse Api ApiIds TestFont ApiCases LockOpened SaveGoesSpec SaveGoesFinal SaveGoesCases InfoLost.
Open Scope Z_scope.
Open Scope list_scope.

Lemma fonts86 : map (fun f => (fd_ttf f, fd_beyond f, fd_map f)) (s_fonts state86) = [(test_ttf, [0; 0; 0; 0], [(65, 1); (66, 2)])].
Proof. vm_compute. reflexivity. Qed.
Lemma room86 : (maxID (objs (d_pdf (s_doc state86))) + 6 * Z.of_nat (List.length (names_of state86)) + Z.of_nat (List.length (s_imgs state86)) <? 2 ^ 63) = true.
Proof. vm_compute. reflexivity. Qed.
Lemma open86 : s_prot state86 = None. Proof. vm_compute. reflexivity. Qed.

Lemma over86 : document gw_x [] page_cfg (s_trace saved86) (s_file saved86) /\ blen (s_file saved86) < 10 ^ 10 /\ real_infos (s_trace saved86) /\ no_words (s_file saved86) /\
  accepts (w_float world_x) /\ compresses gw_x (w_inflate world_x) /\ cfg_use page_cfg = false /\ pages_of (s_trace saved86) <> [] /\
  Forall drawn_page (pages_of (s_trace saved86)) /\
  (exists log, history world_x 2 (KOpen (s_file saved86) :: calls86) new_pdft = Ok (state86, log)) /\ Forall adds calls86 /\
  Forall (fun f => exists d n, parseTtf d = Ok (fd_ttf f) /\ complete_font d (fd_beyond f) n /\ within n (fd_map f)) (s_fonts state86) /\
  maxID (objs (d_pdf (s_doc state86))) + 6 * Z.of_nat (List.length (names_of state86)) + Z.of_nat (List.length (s_imgs state86)) < 2 ^ 63 /\
  fair (ch_ord (plain_choices false)) /\ s_prot state86 = None /\ saveTo world_x 2 (plain_choices false) state86 = Ok (fst out86, Ok (snd out86)).
Proof.
  destruct over_case as (D & _ & Hs & NI & NW & Ac & Cp & NP & _ & Hh & Ha & Sv & _). destruct pages86 as (_ & HP & _). pose proof room86 as R. apply Z.ltb_lt in R.
  split; [exact D|]. split; [exact Hs|]. split; [exact NI|]. split; [exact NW|]. split; [exact Ac|]. split; [exact Cp|]. split; [reflexivity|]. split; [exact NP|]. split; [exact HP|].
  split; [eexists; exact Hh|]. split; [exact Ha|]. split; [eapply same_font; [exact fonts86|exact test_parses|exact test_complete|exact ab_within]|]. split; [exact R|].
  split; [exact (plain_fair false)|]. split; [exact open86|exact Sv].
Qed.
