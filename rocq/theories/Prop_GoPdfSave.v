(** C91: saving the documents of GoPdf.  The proofs are in GoPdfSave.v and
    GoPdfSaveCases.v. *)
From Coq Require Import String List ZArith Bool.
From Coq.Floats Require Import SpecFloat.
From Verif Require Import Base Output Png Float64 Ttf TestFont GoPdf GoPdfSpec GoPdfSetSpec GoPdfCases GoPdfSaveSpec GoPdfSave GoPdfSaveCases.
Open Scope Z_scope.
Open Scope list_scope.

(** After any calls, with or without errors, with or without a protection: if the
    font files that were added are complete and no picture that was added has a
    palette, GetBytesPdf gives a file. *)
Theorem C91_saves_partial : forall rnd cfg w g0 t g, g_start rnd cfg gp0 = Ok g0 -> runs w g0 t g -> fit_fonts t -> no_palette w t -> exists g' F, g_bytes w g = Ok (g', F).
Proof. exact saves. Qed.
Print Assumptions C91_saves_partial.
Example C91_case : r_ok save_run = true /\ no_errors (r_trace save_run) = true /\ map (fun x => snd (fst x)) (r_trace save_run) = save_prog /\ fit_fonts (r_trace save_run) /\ no_palette gw_id (r_trace save_run) /\
  match g_bytes gw_id (r_state save_run) with Ok (_, F) => blen F | _ => 0 end = 2873.
Proof. exact save_case. Qed.
(** Read does not end the program then either. *)
Theorem C91_reads_partial : forall rnd cfg w g0 t g n, g_start rnd cfg gp0 = Ok g0 -> runs w g0 t g -> fit_fonts t -> no_palette w t -> exists g' r, g_read w n g = Ok (g', r).
Proof. exact reads. Qed.
Print Assumptions C91_reads_partial.

(** The condition on pictures is needed: with a palette there is never a file. *)
Theorem C91_palette : forall rnd cfg w g0 t g, g_start rnd cfg gp0 = Ok g0 -> runs w g0 t g -> ~ no_palette w t -> forall g' F, g_bytes w g <> Ok (g', F).
Proof. exact never_saved. Qed.
Print Assumptions C91_palette.

(** "If no call gives an error and no picture has a palette there is a file" is false:
    a font whose file ends with its last table, which is not padded, is accepted,
    and saving ends the program. *)
Theorem C91_font_refuted : exists w rnd cfg g0 t g, g_start rnd cfg gp0 = Ok g0 /\ runs w g0 t g /\ map (fun x => snd (fst x)) t = short_prog /\ Forall (fun x => snd x = None) t /\ no_palette w t /\ g_bytes w g = Panic.
Proof. exact short_case. Qed.
Print Assumptions C91_font_refuted.
