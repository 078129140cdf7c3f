(** Calls that come back with an error (C93). *)
From Coq Require Import String List ZArith Lia Bool.
From Coq.Floats Require Import SpecFloat.
From Verif Require Import Base BaseProofs Utf8 Output Png Crypto Float64 Ttf TtfSpec TtfProofs TtfTables TtfTotal TtfCmap Subset CharMap Text TestFont TextCases ApiIds SaveGoesFinal GoPdf GoPdfSpec GoPdfFile GoPdfPages GoPdfRun GoPdfDoc GoPdfTree GoPdfState GoPdfKeep GoPdfView GoPdfSetSpec GoPdfResSpec GoPdfFonts GoPdfChain GoPdfEmbed GoPdfCases GoPdfCallSpec GoPdfCalls GoPdfCallCases GoPdfTextSpec GoPdfWrite GoPdfWriteCases.
Open Scope Z_scope.
Open Scope list_scope.

(** ** Calls without a text *)
Lemma gok_none : forall r g e, gok r = Ok (g, e) -> e = None.
Proof. intros r g e H. unfold gok in H. destruct r; cbn [bind] in H; try discriminate. congruence. Qed.
Lemma img_put_none : forall id d x y r info g g' e, img_put id d x y r info g = Ok (g', e) -> e = None.
Proof.
  intros id d x y r info g g' e H. unfold img_put in H. cbn [addObj] in H. cbv zeta in H. match type of H with bind ?m _ = _ => destruct m as [g1| | |]; cbn [bind] in H; try discriminate end.
  destruct (beqb _ _); [|congruence]. cbn [addObj] in H. match type of H with bind ?m _ = _ => destruct m as [k| | |]; cbn [bind] in H; try discriminate end. destruct k; try discriminate. congruence.
Qed.
Theorem others_fail : forall w g c g' e, gstep w g c = Ok (g', Some e) -> call_text c = None -> g' = g.
Proof.
  intros w g c g' e H T. destruct c; try discriminate T; cbn [gstep] in H; try (exfalso; apply gok_none in H; discriminate H).
  - unfold g_set_font in H. destruct (find_font _ _ _); [destruct (nth_error _ _); discriminate|congruence].
  - unfold g_set_font in H. destruct (find_font _ _ _); [destruct (nth_error _ _); discriminate|congruence].
  - unfold g_add_font in H. destruct (match file with Some _ => _ | None => _ end) as [(t, k)| | |]; try discriminate; [|congruence]. exfalso.
    cbn [addObj] in H. cbv zeta in H. cbn [g_procset g_set_objs] in H. destruct (g_procset g =? -1); [discriminate|]. destruct (kind_at _ _) as [ps| | |]; cbn [bind] in H; try discriminate. destruct ps; try discriminate. destruct (existsb _ _); discriminate.
  - unfold g_kern_override in H. destruct (find_font _ _ _); congruence.
  - unfold g_image in H. destruct (find _ _) as [[[q k] r]|].
    + exfalso. destruct (k =? -1); [discriminate|]. match type of H with bind ?m _ = _ => destruct m as [r1| | |]; cbn [bind] in H; try discriminate end. apply gok_none in H. discriminate H.
    + destruct (match rect with Some _ => _ | None => _ end) as [r| | |]; try discriminate; [|congruence]. destruct (parseImg _ _ _ _ _) as [info| | |]; try discriminate; [|congruence]. exfalso. apply img_put_none in H. discriminate H.
Qed.

(** ** Calls with a text *)
Lemma added_at : forall l fs, Forall2 same_font l fs -> forall n f, nth_error fs n = Some f -> exists a, In a l /\ same_font a f.
Proof. intros l fs H. induction H as [|a f l fs Hx H IH]; intros [|n] g N; try discriminate; cbn [nth_error] in N; [injection N as <-; exists a; cbn; auto|]. destruct (IH n g N) as (b & I & Sb). exists b. cbn. auto. Qed.
Theorem texts_fail : forall rnd cfg w g0 t g, g_start rnd cfg gp0 = Ok g0 -> runs w g0 t g -> texts_valid t -> added_once t -> Forall (fun a => has_widths (af_file a)) (added t) ->
  forall c g' e, gstep w g c = Ok (g', Some e) -> exists fs, g' = g_set_fonts g fs /\ Forall2 (fun f f' => exists m, f' = gf_set_map f (gf_map f ++ m)) (g_fonts g) fs.
Proof.
  intros rnd cfg w g0 t g S R Va On HW c g' e H.
  pose proof (added_run _ _ _ _ _ _ S R) as AR. assert (O : one_each (g_fonts g)) by (eapply once_fonts; [exact AR|exact On]). pose proof (held_run _ _ _ _ _ _ S R Va O) as Hd.
  pose proof (sd_maps _ _ _ (steady_run _ _ _ _ _ _ S R)) as MG.
  assert (Id : forall fs : list gfont, Forall2 (fun f f' => exists m, f' = gf_set_map f (gf_map f ++ m)) fs fs).
  { induction fs as [|f fs IH]; constructor; [|exact IH]. exists []. rewrite app_nil_r. destruct f. reflexivity. }
  assert (Put : forall fs n f m k, nth_error fs n = Some f -> m = gf_map f ++ k -> Forall2 (fun f f' => exists m, f' = gf_set_map f (gf_map f ++ m)) fs (set_nth n (fun f => gf_set_map f m) fs)).
  { induction fs as [|x fs IH]; intros [|n] f m k N E; try discriminate; cbn [nth_error set_nth] in *; constructor; try apply Id; [|exists []; rewrite app_nil_r; destruct x; reflexivity|eapply IH; eauto].
    injection N as <-. exists k. rewrite E. reflexivity. }
  assert (Same : g' = g -> exists fs, g' = g_set_fonts g fs /\ Forall2 (fun f f' => exists m, f' = gf_set_map f (gf_map f ++ m)) (g_fonts g) fs).
  { intros ->. exists (g_fonts g). split; [destruct g; reflexivity|apply Id]. }
  assert (X : forall cell rect al bo fl text, text_call cell rect al bo fl text g = Ok (g', Some e) -> exists fs, g' = g_set_fonts g fs /\ Forall2 (fun f f' => exists m, f' = gf_set_map f (gf_map f ++ m)) (g_fonts g) fs).
  { intros cell rect al bo fl text Ht. unfold text_call in Ht. destruct (add_text_chars g text) as [[[g1 n] e1]| | |] eqn:E; cbn [bind] in Ht; try discriminate.
    destruct (chars_cov _ _ _ _ _ E MG) as (f & m & U & N & -> & Gm & (k & Em) & C). destruct e1 as [e1|].
    - assert (Eg : g' = g_set_fonts g (set_nth n (fun f => gf_set_map f m) (g_fonts g))) by congruence. rewrite Eg. eexists. split; [reflexivity|]. eapply Put; eauto.
    - exfalso. destruct (put_cov _ _ _ _ _ _ S R O Hd cell rect al bo fl text n f m k U N Em (C eq_refl)) as (_ & Y). destruct (added_at _ _ AR _ _ N) as (a & Ia & SF). rewrite Forall_forall in HW.
      destruct (Y (wide_font a (gf_set_map f m) (HW _ Ia) SF Gm)) as (g2 & E2). rewrite E2 in Ht. discriminate Ht. }
  destruct (call_text c) as [text|] eqn:Ct; [|apply Same; eapply others_fail; eauto].
  destruct c; try discriminate Ct; cbn [gstep] in H; try (eapply X; exact H).
  unfold g_measure in H. destruct (add_text_chars g text0) as [[[g1 n] e1]| | |] eqn:E; cbn [bind] in H; try discriminate. destruct e1; [|discriminate].
  destruct (chars_cov _ _ _ _ _ E MG) as (f & m & U & N & Eg & Gm & (k & Em) & _). assert (g' = g1) by congruence. subst g'. rewrite Eg. eexists. split; [reflexivity|]. eapply Put; eauto.
Qed.

(** ** Cases *)
Definition changed (l : list gcall) (c : gcall) : bool :=
  r_ok (after l) && match gstep gw_id (r_state (after l)) c with
  | Ok (g', Some _) => match g_bytes gw_id (r_state (after l)), g_bytes gw_id g' with Ok (_, F), Ok (_, F') => negb (blen F =? blen F') | _, _ => false end
  | _ => false
  end.
Lemma changed_ok : forall l c, changed l c = true -> no_errors (r_trace (after l)) = true -> exists w rnd cfg g0 t g g' e g1 F g2 F', g_start rnd cfg gp0 = Ok g0 /\ runs w g0 t g /\ map (fun x => snd (fst x)) t = l /\ Forall (fun x => snd x = None) t /\
  gstep w g c = Ok (g', Some e) /\ g_bytes w g = Ok (g1, F) /\ g_bytes w g' = Ok (g2, F') /\ F <> F'.
Proof.
  intros l c H N. unfold changed in H. apply andb_prop in H. destruct H as (O & H). destruct (r_parts gw_id [] page_cfg l (after l) eq_refl O) as (g0 & S & R & M).
  destruct (gstep gw_id (r_state (after l)) c) as [[g' [e|]]| | |] eqn:E; try discriminate. destruct (g_bytes gw_id (r_state (after l))) as [[g1 F]| | |] eqn:E1; try discriminate.
  destruct (g_bytes gw_id g') as [[g2 F']| | |] eqn:E2; try discriminate. exists gw_id, [], page_cfg, g0, (r_trace (after l)), (r_state (after l)), g', e, g1, F, g2, F'.
  split; [exact S|]. split; [exact R|]. split; [exact M|]. split; [apply no_errors_ok; exact N|]. split; [exact E|]. split; [exact E1|]. split; [exact E2|]. intros Q. rewrite Q, Z.eqb_refl in H. discriminate H.
Qed.
(** "B" and U+10000, which the font does not have. *)
Definition lacking : gcall := Text [66; 240; 144; 128; 128].
Lemma lacking_case : exists w rnd cfg g0 t g g' e g1 F g2 F', g_start rnd cfg gp0 = Ok g0 /\ runs w g0 t g /\ map (fun x => snd (fst x)) t = begun /\ Forall (fun x => snd x = None) t /\
  gstep w g lacking = Ok (g', Some e) /\ g_bytes w g = Ok (g1, F) /\ g_bytes w g' = Ok (g2, F') /\ F <> F'.
Proof. apply changed_ok; vm_compute; reflexivity. Qed.
Definition pages_text (g : gp) : list bytes := flat_map (fun o => match o_kind o with KContent _ cs => flat_map (fun c => match c with CText k => [x_text k] | _ => [] end) cs | _ => [] end) (g_objs g).
Lemma joined_case : exists w rnd cfg g0 t g g' e, g_start rnd cfg gp0 = Ok g0 /\ runs w g0 t g /\ map (fun x => snd (fst x)) t = half_prog /\ Forall (fun x => snd x = None) t /\
  gstep w g (Text [169]) = Ok (g', Some e) /\ pages_text g = [[195]] /\ pages_text g' = [[195; 169]].
Proof.
  assert (X : match gstep gw_id (r_state (after half_prog)) (Text [169]) with Ok (g', Some _) => pages_text g' | _ => [] end = [[195; 169]]) by (vm_compute; reflexivity).
  destruct (r_parts gw_id [] page_cfg half_prog (after half_prog) eq_refl ltac:(vm_compute; reflexivity)) as (g0 & S & R & M).
  destruct (gstep gw_id (r_state (after half_prog)) (Text [169])) as [[g' [e|]]| | |] eqn:E; try discriminate X.
  exists gw_id, [], page_cfg, g0, (r_trace (after half_prog)), (r_state (after half_prog)), g', e. split; [exact S|]. split; [exact R|]. split; [exact M|]. split; [apply no_errors_ok; vm_compute; reflexivity|]. split; [exact E|]. split; [vm_compute; reflexivity|exact X].
Qed.
(** Errors of five sorts of calls after a text. *)
Definition failing : list gcall := [SetFont (B"T") 2 9; SetFontString (B"U") [] 9; KernOverride (B"U") None; AddFont (B"U") true 0 (Some [1; 2; 3]) []; ImageBy [] [1; 2; 3] [] (fofz 1) (fofz 1) None].
Lemma failing_case : map (fun c => ended (gstep gw_id (r_state (after begun)) c)) failing = repeat (Some (Some EOther)) 5 /\ ended (gstep gw_id (r_state write_run) lacking) = Some (Some EOther).
Proof. split; vm_compute; reflexivity. Qed.
