(** C65, continued: permissions.  The proofs are in GoPdfPerm.v. *)
From Coq Require Import String List ZArith Bool.
From Coq.Floats Require Import SpecFloat.
From Verif Require Import Base Output Crypto CryptoSpec PdfSyntax Float64 TestFont GoPdf GoPdfSpec GoPdfDocSpec GoPdfCases GoPdfPerm.
Open Scope Z_scope.
Open Scope list_scope.

(** Without the condition on permissions C65 is false: with a permission of 256 (Config
    takes any int) the file does not open with its user password. *)
Theorem C65_permission_refuted : exists w rnd cfg t F, document w rnd cfg t F /\ map (fun x => snd (fst x)) t = [std_page] /\ cfg_use cfg = true /\ cfg_perm cfg = 256 /\ blen F < 10 ^ 10 /\ info_of t = None /\ forall key, ~ opens F (cfg_user cfg) key.
Proof. exact locked_out. Qed.
Print Assumptions C65_permission_refuted.
(** For all permissions: whatever password opens the file fits the values that
    setProtection made. *)
Theorem C65_values : forall w rnd cfg t F p user key, document w rnd cfg t F -> blen F < 10 ^ 10 -> (forall i, info_of t = Some i -> simple_info i) -> cfg_use cfg = true ->
  setProtection rnd (cfg_perm cfg) (cfg_user cfg) (cfg_owner cfg) = Ok p -> opens F user key -> user_opens user (oValue p) (uValue p) (pValue p) [].
Proof. exact opens_fits. Qed.
Print Assumptions C65_values.
