(** C90: how the calls of GoPdf end.  The proofs are in GoPdfCalls.v and
    GoPdfCallCases.v. *)
From Coq Require Import String List ZArith Bool.
From Coq.Floats Require Import SpecFloat.
From Verif Require Import Base Output Float64 Ttf TtfSpec TtfProofs Subset Text TestFont GoPdf GoPdfSpec GoPdfSetSpec GoPdfCases GoPdfCallSpec GoPdfCalls GoPdfCallCases.
Open Scope Z_scope.
Open Scope list_scope.

(** After any calls, with or without errors, for every next call: [end_of] says from
    the earlier calls, the files and the pictures alone whether the call succeeds,
    comes back with an error or ends the program. *)
Theorem C90_calls_partial : forall rnd cfg w g0 t g, g_start rnd cfg gp0 = Ok g0 -> runs w g0 t g -> forall c, end_of w cfg t c (gstep w g c).
Proof. exact calls_end. Qed.
Print Assumptions C90_calls_partial.
Example C90_case : r_ok (after begun) = true /\ no_errors (r_trace (after begun)) = true /\ map af_file (added (r_trace (after begun))) = [test_font] /\ has_widths test_font /\ s_font (settings_of page_cfg (r_trace (after begun))) = Some (B"T", 0, 12) /\
  map (fun c => ended (gstep gw_id (r_state (after begun)) c)) [Text (B"BA"); SetFont (B"T") 4 9; SetFont (B"T") 2 9; KernOverride (B"U") None; AddFont (B"U") true 0 (Some [1; 2; 3]) []; ImageBy [] [1; 2; 3] [] (fofz 1) (fofz 1) None; SetX (fofz 5)] =
    [Some None; Some None; Some (Some EOther); Some (Some EOther); Some (Some EOther); Some (Some EOther); Some None].
Proof. exact calls_case. Qed.

(** "No call ends the program" is false: an empty text before SetFont does. *)
Theorem C90_no_font_refuted : exists w rnd cfg g0 t g, g_start rnd cfg gp0 = Ok g0 /\ runs w g0 t g /\ map (fun x => snd (fst x)) t = [a_font; std_page] /\ Forall (fun x => snd x = None) t /\ gstep w g (Text []) = Panic.
Proof. exact no_font_case. Qed.
Print Assumptions C90_no_font_refuted.
(** So does MeasureTextWidth, with a font and a text the font has. *)
Theorem C90_measure_refuted : exists w rnd cfg g0 t g, g_start rnd cfg gp0 = Ok g0 /\ runs w g0 t g /\ map (fun x => snd (fst x)) t = begun /\ Forall (fun x => snd x = None) t /\ gstep w g (Measure (B"A")) = Panic.
Proof. exact measure_case. Qed.
Print Assumptions C90_measure_refuted.
