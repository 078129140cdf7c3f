(** C92: texts whose characters the font has are written.  The proofs are in
    GoPdfWrite.v and GoPdfWriteCases.v. *)
From Coq Require Import String List ZArith Bool.
From Coq.Floats Require Import SpecFloat.
From Verif Require Import Base Utf8 Output Float64 Ttf TtfSpec TtfProofs Subset Text TestFont GoPdf GoPdfSpec GoPdfSetSpec GoPdfResSpec GoPdfCases GoPdfCallSpec GoPdfCallCases GoPdfTextSpec GoPdfWrite GoPdfWriteCases.
Open Scope Z_scope.
Open Scope list_scope.

(** After any calls, with or without errors, whose texts are texts, no font having been
    added twice under the same name and style, and the fonts having their widths: Text,
    Cell and CellWithOption succeed when the cmap table of the selected font leads the
    characters of the text to glyphs.  What stands on the line already, in which font
    ever, makes no difference.  The text of the call itself need not be valid. *)
Theorem C92_written_partial : forall rnd cfg w g0 t g, g_start rnd cfg gp0 = Ok g0 -> runs w g0 t g -> texts_valid t -> added_once t ->
  Forall (fun a => has_widths (af_file a)) (added t) -> forall family style size a, s_font (settings_of cfg t) = Some (family, style, size) -> font_for (added t) family style = Some a ->
  forall c text, writes_text c = Some text -> font_has (af_file a) text -> succeeds (gstep w g c).
Proof. exact texts_written. Qed.
Print Assumptions C92_written_partial.
Example C92_case : r_ok write_run = true /\ no_errors (r_trace write_run) = true /\ texts_valid (r_trace write_run) /\ added_once (r_trace write_run) /\ Forall (fun a => has_widths (af_file a)) (added (r_trace write_run)) /\
  s_font (settings_of page_cfg (r_trace write_run)) = Some (B"U", 0, 12) /\ font_has test_font (B"B") /\ ended (gstep gw_id (r_state write_run) (Text (B"B"))) = Some None.
Proof. exact write_case. Qed.

(** "It is written after any calls" is false: [lost l text errors] says that after the
    calls [l] a text that the selected font has is turned down, all calls of [l] having
    succeeded when [errors] is false.  Here the bytes of one character come in two
    calls. *)
Theorem C92_half_refuted : exists w rnd cfg g0 t g family style size a g', g_start rnd cfg gp0 = Ok g0 /\ runs w g0 t g /\ map (fun x => snd (fst x)) t = half_prog /\ (false = false -> Forall (fun x => snd x = None) t) /\
  Forall (fun a => has_widths (af_file a)) (added t) /\ s_font (settings_of cfg t) = Some (family, style, size) /\ font_for (added t) family style = Some a /\ font_has (af_file a) [169] /\ gstep w g (Text [169]) = Ok (g', Some ECharNotFound).
Proof. exact half_case. Qed.
Print Assumptions C92_half_refuted.
(** What was turned down stays in the line: the text "B" after it is turned down too. *)
Theorem C92_stuck_refuted : lost (half_prog ++ [Text [169]]) (B"B") true.
Proof. exact stuck_case. Qed.
Print Assumptions C92_stuck_refuted.
(** Valid texts and calls without errors do not help when two fonts share a name and a
    style but for the underline: they get the same number as another font. *)
Theorem C92_twin_refuted : all_valid twin_prog /\ lost twin_prog (B"B") false.
Proof. exact twin_case. Qed.
Print Assumptions C92_twin_refuted.
