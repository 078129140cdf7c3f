(** C94: Start on a document that was started before.  The proofs are in GoPdfAgain.v. *)
From Coq Require Import String List ZArith Bool.
From Coq.Floats Require Import SpecFloat.
From Verif Require Import Base Output PdfSyntax Float64 TextSpec GoPdf GoPdfSpec GoPdfCases GoPdfRead GoPdfCallCases GoPdfClose GoPdfAgain.
Open Scope Z_scope.
Open Scope list_scope.

(** Refuted: there are documents that are started a second time, get a page with a
    line without any error, and are saved with an empty page tree. *)
Theorem C94_again_refuted : exists w rnd cfg g0 t g rnd2 cfg2 g1 t2 g2 g3 F, g_start rnd cfg gp0 = Ok g0 /\ runs w g0 t g /\ map (fun x => snd (fst x)) t = prog4 /\
  g_start rnd2 cfg2 g = Ok g1 /\ runs w g1 t2 g2 /\ map (fun x => snd (fst x)) t2 = prog4 /\ Forall (fun x => snd x = None) t2 /\ g_bytes w g2 = Ok (g3, F) /\ root_is F (cfg_w cfg2, cfg_h cfg2) [].
Proof. exact again_case. Qed.
Print Assumptions C94_again_refuted.
(** It is so for all of them: when Start was called twice or more, whatever was drawn
    before and after, no page is in the page tree of the file, which has the size of
    the last Start. *)
Theorem C94_none : forall w n cfg g g' F, started w n cfg g -> (2 <= n)%nat -> g_bytes w g = Ok (g', F) ->
  blen F < 10 ^ 10 -> finite (cfg_w cfg) -> finite (cfg_h cfg) -> root_is F (cfg_w cfg, cfg_h cfg) [].
Proof. exact started_again. Qed.
Print Assumptions C94_none.
(** The second page root has the pages of both, but nothing refers to it. *)
Example C94_lost : map (fun o => match o_kind o with KPages n k => Some (n, k) | _ => None end)
    (match g_prepare (r_state (begin_again prog4 prog4)) with Ok g => g_objs g | _ => [] end) =
  [None; Some (0, []); None; None; None; None; Some (2, B" 4 0 R  9 0 R "); None; None; None].
Proof. exact again_lost. Qed.
(** A document that was read to its end and is started again: Read gives nothing of
    what is drawn since then. *)
Theorem C94_read : forall w n g g1 rnd cfg g2 t g3 m, g_read w n g = Ok (g1, None) -> g_start rnd cfg g1 = Ok g2 -> runs w g2 t g3 -> g_read w (S m) g3 = Ok (g3, None).
Proof. exact read_again. Qed.
Print Assumptions C94_read.
Example C94_read_case : sizes (reads_of gw_id [800; 1]%nat (r_state (run gw_id [] page_cfg [std_page]))) = [Some 508; None] /\
  match g_start [] page_cfg all_read with Ok g => sizes (reads_of gw_id [800]%nat (page_after g)) | _ => [] end = [None].
Proof. exact read_case. Qed.
