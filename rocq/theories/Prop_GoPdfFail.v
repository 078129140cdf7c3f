(** C93: what calls leave that come back with an error.  The proofs are in
    GoPdfFail.v. *)
From Coq Require Import String List ZArith Bool.
From Coq.Floats Require Import SpecFloat.
From Verif Require Import Base Utf8 Output Float64 Ttf TtfSpec Subset Text TestFont GoPdf GoPdfSpec GoPdfSetSpec GoPdfResSpec GoPdfCases GoPdfCallSpec GoPdfCallCases GoPdfTextSpec GoPdfWriteCases GoPdfFail.
Open Scope Z_scope.
Open Scope list_scope.

(** In every state: a call without a text that comes back with an error leaves the
    document, the position and all settings as they were. *)
Theorem C93_calls_partial : forall w g c g' e, gstep w g c = Ok (g', Some e) -> call_text c = None -> g' = g.
Proof. exact others_fail. Qed.
Print Assumptions C93_calls_partial.
(** With the conditions of C92 on the calls before, every call that comes back with an
    error, with or without a text, leaves the pages, the objects, the position and all
    settings as they were; fonts may have more characters to embed. *)
Theorem C93_texts_partial : forall rnd cfg w g0 t g, g_start rnd cfg gp0 = Ok g0 -> runs w g0 t g -> texts_valid t -> added_once t -> Forall (fun a => has_widths (af_file a)) (added t) ->
  forall c g' e, gstep w g c = Ok (g', Some e) -> exists fs, g' = g_set_fonts g fs /\ Forall2 (fun f f' => exists m, f' = gf_set_map f (gf_map f ++ m)) (g_fonts g) fs.
Proof. exact texts_fail. Qed.
Print Assumptions C93_texts_partial.
Example C93_case : map (fun c => ended (gstep gw_id (r_state (after begun)) c)) failing = repeat (Some (Some EOther)) 5 /\ ended (gstep gw_id (r_state write_run) lacking) = Some (Some EOther).
Proof. exact failing_case. Qed.

(** "The file is as if the call had not been made" is false for a text with a character
    that the font does not have: those before it get into the embedded font. *)
Theorem C93_lacking_refuted : exists w rnd cfg g0 t g g' e g1 F g2 F', g_start rnd cfg gp0 = Ok g0 /\ runs w g0 t g /\ map (fun x => snd (fst x)) t = begun /\ Forall (fun x => snd x = None) t /\
  gstep w g lacking = Ok (g', Some e) /\ g_bytes w g = Ok (g1, F) /\ g_bytes w g' = Ok (g2, F') /\ F <> F'.
Proof. exact lacking_case. Qed.
Print Assumptions C93_lacking_refuted.
(** Without the conditions of C92 the text itself stays on the page. *)
Theorem C93_joined_refuted : exists w rnd cfg g0 t g g' e, g_start rnd cfg gp0 = Ok g0 /\ runs w g0 t g /\ map (fun x => snd (fst x)) t = half_prog /\ Forall (fun x => snd x = None) t /\
  gstep w g (Text [169]) = Ok (g', Some e) /\ pages_text g = [[195]] /\ pages_text g' = [[195; 169]].
Proof. exact joined_case. Qed.
Print Assumptions C93_joined_refuted.
