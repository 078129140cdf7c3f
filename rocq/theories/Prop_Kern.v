(** C89: the kerning of the fonts of GoPdf.  The proofs are in KernTable.v and
    KernCases.v. *)
From Coq Require Import String List ZArith Bool.
From Coq.Floats Require Import SpecFloat.
From Verif Require Import Base Output Float64 Ttf TtfSpec TtfProofs Text TestFont GoPdf GoPdfSpec GoPdfDrawSpec GoPdfSetSpec GoPdfCases KernSpec KernTable KernCases.
Open Scope Z_scope.
Open Scope list_scope.

(** In every run, for every font: kern_units is what a text moves between two
    glyphs, in thousandths (C63 has it in the content stream, C70 in the position).
    Without UseKerning it is nothing.
    With it the value is that of the last subtable of the kern table of the file, and
    if KernOverride set a function, what this function makes of it. *)
Theorem C89_kerning_partial : forall rnd cfg w g0 t g n a f u, g_start rnd cfg gp0 = Ok g0 -> runs w g0 t g -> nth_error (added t) n = Some a -> nth_error (g_fonts g) n = Some f ->
  Forall bytep (af_file a) -> units_per_em (af_file a) u ->
  (af_kerning a = false -> forall p x, kern_units f (Some p) x = 0) /\
  (af_kerning a = true -> no_kern_table (af_file a) -> forall p x, kern_units f (Some p) x = Z.quot (1000 * wanted a p x 0) u) /\
  (af_kerning a = true -> forall l s, kern_table (af_file a) (l ++ [s]) -> Forall reserved_clear (l ++ [s]) /\
    forall p x v, sub_value (af_file a) s (snd p) (snd x) v -> kern_units f (Some p) x = Z.quot (1000 * wanted a p x v) u).
Proof. exact run_kerning. Qed.
Print Assumptions C89_kerning_partial.
Example C89_case : Forall bytep font_one /\ units_per_em font_one 2000 /\ kern_table font_one [one_sub] /\ sub_value font_one one_sub 1 2 (-100) /\ sub_value font_one one_sub 2 1 60 /\ sub_value font_one one_sub 1 1 0 /\
  map (fun a => (af_file a, af_kerning a)) (added (s_trace saved_one)) = [(font_one, true)] /\
  contains (B"[<0001>50<0002>-30<0001>] TJ") (s_file saved_one) = true.
Proof. exact one_case. Qed.
Example C89_override_case : map (fun a => (af_file a, af_kerning a)) (added (s_trace saved_over)) = [(font_one, true)] /\
  option_map (fun a => option_map (fun h => h 0 0 0 0 21) (af_over a)) (nth_error (added (s_trace saved_over)) 0) = Some (Some 42) /\
  contains (B"[<0001>100<0002>-60<0001>] TJ") (s_file saved_over) = true.
Proof. exact over_case. Qed.

(** A font with a subtable that has one of the reserved bits set is not added. *)
Theorem C89_rejected : forall w g family style file beyond l t, Forall bytep file -> parseTtf file = Ok t -> kern_table file l -> ~ Forall reserved_clear l ->
  gstep w g (AddFont family true style (Some file) beyond) = Ok (g, Some EOther).
Proof. exact add_kerned. Qed.
Print Assumptions C89_rejected.
Example C89_rejected_case : Forall bytep font_bit /\ (exists t, parseTtf font_bit = Ok t) /\ kern_table font_bit [bit_sub] /\ ~ Forall reserved_clear [bit_sub].
Proof. exact bit_case. Qed.

(** "The kerning of the font is used" is false for a font with two subtables: the
    pairs of the first are lost. *)
Theorem C89_subtables_refuted : exists d s1 s2, kern_table d [s1; s2] /\ sub_coverage s1 = 1 /\ sub_coverage s2 = 1 /\ sub_value d s1 1 2 (-100) /\ sub_value d s2 1 2 0 /\
  exists w rnd cfg g0 t g f, g_start rnd cfg gp0 = Ok g0 /\ runs w g0 t g /\ map (fun x => snd (fst x)) t = with_font d /\ Forall (fun x => snd x = None) t /\ nth_error (g_fonts g) 0 = Some f /\ kern_units f (Some (65, 1)) (66, 2) = 0.
Proof. exact two_case. Qed.
Print Assumptions C89_subtables_refuted.

(** "Other formats than 0 are refused" is false: the format is looked for in the
    reserved bits, and a subtable of format 2 is read as pairs. *)
Theorem C89_format_refuted : exists d s, kern_table d [s] /\ format s = 2 /\
  exists w rnd cfg g0 t g f, g_start rnd cfg gp0 = Ok g0 /\ runs w g0 t g /\ map (fun x => snd (fst x)) t = with_font d /\ Forall (fun x => snd x = None) t /\ nth_error (g_fonts g) 0 = Some f /\ kern_units f (Some (65, 1)) (66, 2) = -50.
Proof. exact classes_case. Qed.
Print Assumptions C89_format_refuted.
