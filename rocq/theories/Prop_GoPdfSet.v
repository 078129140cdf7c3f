(** What the calls of GoPdf set: the property C69. *)
From Coq Require Import String List ZArith Lia Bool.
From Coq.Floats Require Import SpecFloat.
From Verif Require Import Base Float64 Ttf Subset Text GoPdf GoPdfSpec GoPdfSetSpec GoPdfFonts GoPdfCases GoPdfSetCases.
Open Scope Z_scope.
Open Scope list_scope.

(** ** C69: settings *)

(** Before every call of a program the settings are those of the calls before it,
    and the font is the one the last successful SetFont asked for. *)
Theorem C69_settings : forall w rnd cfg t F, document w rnd cfg t F -> forall a q c e b, t = a ++ (q, c, e) :: b -> set_now (settings_of cfg a) q /\ font_now (settings_of cfg a) (added a) q.
Proof. exact settings_read. Qed.
Print Assumptions C69_settings.

(** GetX and GetY after every call that writes no text. *)
Theorem C69_positions : forall w rnd cfg t F, document w rnd cfg t F -> forall a q c e q' c' e' b, t = a ++ (q, c, e) :: (q', c', e') :: b ->
  moved (settings_of cfg a) c (u_x (g_cur q)) (u_y (g_cur q)) (u_x (g_cur q')) (u_y (g_cur q')).
Proof. exact moves_read. Qed.
Print Assumptions C69_positions.

(** A SetFont of an unknown family fails and changes nothing; the margin set
    before Br counts, the colour before the page stays. *)
Example C69_case : exists t F a q b, document gw_id [] page_cfg t F /\ map (fun x => snd (fst x)) t = prog_set /\ t = a ++ (q, Text (B"A"), None) :: b /\
  settings_of page_cfg a = mkSet (1, 2, 3) (fofz 0) (fofz 2) (fofz 7) (fofz 10) (fofz 50, fofz 60) (Some (B"T", 4, 12)) /\
  map af_family (added a) = [B"T"; B"U"] /\ u_x (g_cur q) = fofz 7 /\ u_y (g_cur q) = fofz 15.
Proof. exact set_case. Qed.
