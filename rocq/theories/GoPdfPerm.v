(** Permissions that lock everyone out (C65). *)
From Coq Require Import String List ZArith Lia Bool.
From Coq.Floats Require Import SpecFloat.
From Verif Require Import Base BaseProofs Utf8 Output OutputSpec Md5Rc4 Crypto CryptoSpec CryptoProofs HexProofs PdfSyntax PdfSyntaxProofs Float64 Ttf Subset CharMap Text TextSpec TextNumbers TextDraw TextBody
  ApiIds TestFont GoPdf GoPdfSpec GoPdfFile GoPdfPages GoPdfRun GoPdfDoc GoPdfTree GoPdfDrawSpec GoPdfDraw GoPdfLine GoPdfState GoPdfText GoPdfDocSpec GoPdfOut GoPdfMain GoPdfCases GoPdfFaults.
Open Scope Z_scope.
Open Scope list_scope.

(** The values of the encryption dictionary are those of setProtection, for all
    permissions. *)
Lemma doc_values : forall w rnd cfg t F p, document w rnd cfg t F -> blen F < 10 ^ 10 -> (forall i, info_of t = Some i -> simple_info i) -> cfg_use cfg = true ->
  setProtection rnd (cfg_perm cfg) (cfg_user cfg) (cfg_owner cfg) = Ok p ->
  exists d n, trailer_has F d /\ lookup (B"Encrypt") d = Some (PRef n 0) /\ object_is F n (PDict (enc_pvs p)).
Proof.
  intros w rnd cfg t F p0 D Hs HI Hu Hp0. destruct (doc_facts _ _ _ _ _ D) as (g0 & g & bs & info & S & R & V & Ei & EF & L & Ep & Es & K).
  destruct (kept_run _ _ _ _ _ _ S R) as (Eq & Eg). rewrite Eg in Ei. subst info. subst F. pose proof (trailer_of _ _ _ Hs HI) as T. rewrite Hu in *.
  assert (SP : g_prot g0 = Some p0). { unfold g_start in S. cbv zeta in S. cbn [addObj] in S. rewrite Hu, Hp0 in S. cbn [bind] in S. injection S as <-. reflexivity. }
  assert (E0 : g_prot g = Some p0) by congruence. destruct (enc_id _ _ _ _ V Hu E0) as (EW & EI). rewrite EI in *.
  destruct (K (List.length (g_objs g)) (new_obj (KEncrypt p0))) as (lk & b & kd & lk' & B1 & N1 & _). { rewrite EW, nth_error_app2, Nat.sub_diag by lia. reflexivity. }
  cbn [linked o_kind new_obj build1] in B1. assert (b = enc_dict p0) by congruence. subst b. clear B1.
  destruct (file_object bs _ _ Hs _ _ N1) as (r & O). eexists _, (1 + Z.of_nat (List.length (g_objs g))). split; [exact T|]. split; [reflexivity|].
  eexists _, _. split; [exact O|]. split; [apply enc_reads|apply closes_here].
Qed.
(** So a password opens the file only if it fits these values. *)
Lemma opens_fits : forall w rnd cfg t F p user key, document w rnd cfg t F -> blen F < 10 ^ 10 -> (forall i, info_of t = Some i -> simple_info i) -> cfg_use cfg = true ->
  setProtection rnd (cfg_perm cfg) (cfg_user cfg) (cfg_owner cfg) = Ok p -> opens F user key -> user_opens user (oValue p) (uValue p) (pValue p) [].
Proof.
  intros w rnd cfg t F p user key D Hs HI Hu Hp (d & T & _ & H). destruct (doc_values _ _ _ _ _ _ D Hs HI Hu Hp) as (d' & n' & T' & L' & O'). rewrite <- (trailer_unique _ _ _ T T') in L'.
  destruct key as [k|]; [|congruence]. destruct H as (n & e & o & u & q & H1 & _ & H3 & _ & _ & _ & H4 & H5 & H6 & U & _). assert (n = n') by congruence. subst n'.
  pose proof (object_unique _ _ _ _ H3 O') as X. assert (e = enc_pvs p) by congruence. subst e.
  assert (A : lookup (B"O") (enc_pvs p) = Some (PStr (oValue p))) by reflexivity. assert (C : lookup (B"U") (enc_pvs p) = Some (PStr (uValue p))) by reflexivity. assert (G : lookup (B"P") (enc_pvs p) = Some (PInt (pValue p))) by reflexivity.
  assert (o = oValue p) by congruence. assert (u = uValue p) by congruence. assert (q = pValue p) by congruence. subst o u q. exact U.
Qed.

(** A bit beyond the lowest eight gets into the file and not into the key. *)
Definition wide_cfg : gconfig := mkCfg (fofz 200) (fofz 300) true 256 (B"user") (B"owner").
Definition wide_saved := save gw_id [] wide_cfg [std_page].
Definition fits (user : bytes) (p : protection) : bool := match rc4 (file_key user (oValue p) (pValue p) []) pdf_padding with Ok u => beqb u (uValue p) | _ => false end.
Lemma fits_ok : forall user p, user_opens user (oValue p) (uValue p) (pValue p) [] -> fits user p = true.
Proof. intros user p H. unfold user_opens in H. unfold fits. rewrite H. apply beqb_refl. Qed.
Lemma locked_out : exists w rnd cfg t F, document w rnd cfg t F /\ map (fun x => snd (fst x)) t = [std_page] /\ cfg_use cfg = true /\ cfg_perm cfg = 256 /\ blen F < 10 ^ 10 /\ info_of t = None /\ forall key, ~ opens F (cfg_user cfg) key.
Proof.
  destruct (s_document gw_id [] wide_cfg [std_page] wide_saved eq_refl ltac:(vm_compute; reflexivity)) as (D & M).
  assert (E : info_of (s_trace wide_saved) = None) by (vm_compute; reflexivity).
  assert (Hs : blen (s_file wide_saved) < 10 ^ 10) by (assert (X : (blen (s_file wide_saved) <? 10 ^ 10) = true) by (vm_compute; reflexivity); lia).
  exists gw_id, [], wide_cfg, (s_trace wide_saved), (s_file wide_saved). split; [exact D|]. split; [exact M|]. split; [reflexivity|]. split; [reflexivity|]. split; [exact Hs|]. split; [exact E|].
  intros key O. assert (X : match setProtection [] 256 (B"user") (B"owner") with Ok p => fits (B"user") p | _ => true end = false) by (vm_compute; reflexivity).
  destruct (setProtection [] 256 (B"user") (B"owner")) as [p| | |] eqn:Ep; try discriminate X.
  assert (HI : forall i, info_of (s_trace wide_saved) = Some i -> simple_info i) by (intros i Ei; rewrite E in Ei; discriminate Ei).
  pose proof (opens_fits _ _ _ _ _ p _ _ D Hs HI eq_refl Ep O) as U. apply fits_ok in U. change (cfg_user wide_cfg) with (B"user") in U. rewrite U in X. discriminate X.
Qed.
