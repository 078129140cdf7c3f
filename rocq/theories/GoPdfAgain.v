(** Start on a document that was started before (C94). *)
From Coq Require Import String List ZArith Lia Bool.
From Coq.Floats Require Import SpecFloat.
From Verif Require Import Base BaseProofs Utf8 Output OutputSpec Png Crypto PdfSyntax PdfSyntaxProofs Float64 Ttf Subset CharMap Text TextSpec TextNumbers ApiIds TestFont GoPdf GoPdfSpec GoPdfFile GoPdfPages GoPdfRun GoPdfDoc GoPdfTree GoPdfState GoPdfKeep GoPdfRead GoPdfCases GoPdfCallCases GoPdfClose.
Open Scope Z_scope.
Open Scope list_scope.

(** ** What calls leave alone *)
Definition bare (os : list gobj) : Prop := Forall (fun o => o_buf o = []) os.
Lemma bare_snoc : forall l k, bare l -> bare (l ++ [new_obj k]).
Proof. intros l k H. apply Forall_app. split; [exact H|]. constructor; [reflexivity|constructor]. Qed.
Lemma bare_put : forall l i k, bare l -> bare (set_nth i (fun o => mkGO (o_buf o) k) l).
Proof. induction l as [|o l IH]; intros [|i] k H; cbn [set_nth]; inversion H; subst; constructor; auto. apply IH. assumption. Qed.
Definition sd (g g' : gp) : Prop := (bare (g_objs g) -> bare (g_objs g')) /\ g_cfg g' = g_cfg g /\ g_pages g' = g_pages g.
Lemma sd_trans : forall a b c, sd a b -> sd b c -> sd a c.
Proof. intros a b c (H1 & H2 & H3) (H4 & H5 & H6). split; [auto|]. split; congruence. Qed.
Ltac bares := repeat first [assumption | apply bare_put | apply bare_snoc].
Ltac sdt := split; [let HB := fresh in intros HB; cbn [put_kind g_objs g_set_objs g_set_cur g_set_fonts g_set_content g_set_first g_set_margins g_set_info g_set_level]; bares|split; reflexivity].
Lemma getContent_sd : forall g g1 i s cs, getContent g = Ok (g1, i, s, cs) -> sd g g1.
Proof.
  intros g g1 i s cs H. unfold getContent in H. destruct (g_content g <=? -1).
  - cbn [addObj] in H. injection H as <- _ _ _. sdt.
  - destruct (kind_at g (g_content g)) as [k| | |]; cbn [bind] in H; try discriminate. destruct k; try discriminate. injection H as <- _ _ _. sdt.
Qed.
Lemma draw_sd : forall g f g', draw g f = Ok g' -> sd g g'.
Proof.
  intros g f g' H. unfold draw in H. destruct (getContent g) as [[[[g1 i] s] cs]| | |] eqn:E; cbn [bind] in H; try discriminate. injection H as <-. eapply sd_trans; [exact (getContent_sd _ _ _ _ _ E)|sdt].
Qed.
Lemma gok_sd : forall g f g' e, gok (draw g f) = Ok (g', e) -> sd g g'.
Proof. intros g f g' e H. unfold gok in H. destruct (draw g f) as [g1| | |] eqn:E; cbn [bind] in H; try discriminate. injection H as <- <-. eapply draw_sd; eauto. Qed.
Lemma chars_sd : forall g t g' n e, add_text_chars g t = Ok (g', n, e) -> sd g g'.
Proof.
  intros g t g' n e H. unfold add_text_chars in H. destruct (u_font (g_cur g)) as [k|]; [|discriminate]. destruct (nth_error (g_fonts g) k) as [f|]; [|discriminate].
  destruct (add_chars (gf_ttf f) t (gf_map f)) as (m, r). destruct r; try discriminate; injection H as <- _ _; sdt.
Qed.
Lemma text_sd : forall cell rect al bo fl t g g' e, text_call cell rect al bo fl t g = Ok (g', e) -> sd g g'.
Proof.
  intros cell rect al bo fl t g g' e H. unfold text_call in H. destruct (add_text_chars g t) as [[[g1 n] e1]| | |] eqn:E; cbn [bind] in H; try discriminate.
  apply chars_sd in E. eapply sd_trans; [exact E|]. clear E. destruct e1 as [e1|]; [injection H as <- _; sdt|].
  unfold put_text in H. destruct (getContent g1) as [[[[g2 i] s] cs]| | |] eqn:E; cbn [bind] in H; try discriminate. apply getContent_sd in E.
  eapply sd_trans; [exact E|]. destruct (append_text _ _ _ _) as [[[cs' x] y] r]. destruct r; try discriminate; injection H as <- _; sdt.
Qed.
Lemma select_sd : forall f st sz g g' e, g_set_font f st sz g = Ok (g', e) -> sd g g'.
Proof.
  intros f st sz g g' e H. unfold g_set_font in H. destruct (find_font _ _ _) as [n|]; [|injection H as <- _; sdt].
  destruct (nth_error _ n); [|discriminate]. injection H as <- _. sdt.
Qed.
Lemma image_sd : forall w bey id d x y r g g' e, g_image w bey id d x y r g = Ok (g', e) -> sd g g'.
Proof.
  intros w bey id d x y r g g' e H. unfold g_image in H. destruct (find _ _) as [((a, k), q)|].
  - destruct (k =? -1); [discriminate|]. destruct (match r with Some _ => _ | None => _ end); cbn [bind] in H; try discriminate. eapply gok_sd; eauto.
  - destruct (match r with Some _ => _ | None => _ end) as [q| | |]; try discriminate; [|injection H as <- _; sdt].
    destruct (parseImg _ _ _ _ _) as [info| | |]; try discriminate; [|injection H as <- _; sdt].
    unfold img_put in H. cbn [addObj] in H. cbv zeta in H.
    match type of H with bind ?m _ = _ => destruct m as [g2| | |] eqn:E; cbn [bind] in H; try discriminate end.
    assert (S2 : sd g g2).
    { cbn [g_procset g_set_objs] in E. destruct (g_procset g =? -1); [injection E as <-; sdt|].
      destruct (kind_at _ _) as [ps| | |]; cbn [bind] in E; try discriminate. destruct ps; try discriminate.
      destruct (draw _ _) as [g3| | |] eqn:Ed; cbn [bind] in E; try discriminate. apply draw_sd in Ed. injection E as <-. eapply sd_trans; [|eapply sd_trans; [exact Ed|sdt]]. sdt. }
    clear E. eapply sd_trans; [exact S2|].
    destruct (beqb (colspace info) (B"Indexed")).
    + match type of H with bind ?m _ = _ => destruct m as [kk| | |]; cbn [bind] in H; try discriminate end. destruct kk; try discriminate. injection H as <- _.
      destruct (createSMask info); sdt.
    + injection H as <- _. destruct (createSMask info); sdt.
Qed.
Lemma font_sd : forall f k st d b g g' e, g_add_font f k st d b g = Ok (g', e) -> sd g g'.
Proof.
  intros f k st d b g g' e H. unfold g_add_font in H. destruct (match d with Some _ => _ | None => _ end) as [(t, kp)| | |]; try discriminate; [|injection H as <- _; sdt].
  cbn [addObj] in H. cbv zeta in H. cbn [g_procset g_set_objs] in H. destruct (g_procset g =? -1); [injection H as <- _; sdt|].
  destruct (kind_at _ _) as [ps| | |]; cbn [bind] in H; try discriminate. destruct ps; try discriminate.
  destruct (existsb _ _); injection H as <- _; sdt.
Qed.
Lemma step_sd : forall w g c g' e, gstep w g c = Ok (g', e) -> sd g g'.
Proof.
  intros w g c g' e H. destruct c; cbn [gstep] in H;
    try (unfold gok in H; cbn [bind] in H; injection H as <- _; sdt);
    try (eapply gok_sd; exact H);
    try (eapply text_sd; exact H).
  - unfold gok in H. cbn [bind] in H. injection H as <- _. unfold g_add_page. cbn [addObj]. cbv zeta. cbn [g_first g_set_objs g_set_cur]. destruct (g_first g =? -1); sdt.
  - eapply select_sd; eauto.
  - eapply select_sd; eauto.
  - eapply font_sd; eauto.
  - unfold g_kern_override in H. destruct (find_font _ _ _); injection H as <- _; sdt.
  - eapply image_sd; eauto.
  - unfold g_line_width in H. apply gok_sd in H. exact H.
  - unfold g_gray in H. apply gok_sd in H. exact H.
  - unfold g_compress_level in H. unfold gok in H. cbn [bind] in H. injection H as <- _. destruct (l <? -2); [sdt|]. destruct (9 <? l); sdt.
  - unfold g_measure in H. destruct (add_text_chars g text) as [[[g1 n] e1]| | |] eqn:E; cbn [bind] in H; try discriminate. destruct e1; [|discriminate].
    injection H as <- _. eapply chars_sd; eauto.
Qed.

(** ** Objects 1 and 2 *)
Definition front (g : gp) : Prop :=
  nth_error (g_objs g) 0 = Some (new_obj KCatalog) /\ nth_error (g_objs g) 1 = Some (new_obj (KPages 0 [])).
Lemma bare_nth : forall l i o, bare l -> nth_error l i = Some o -> o_buf o = [].
Proof. intros l i o H N. unfold bare in H. rewrite Forall_forall in H. apply H. eapply nth_error_In; eauto. Qed.
Lemma front_step : forall g g', front g -> bare (g_objs g) -> stays g g' -> sd g g' -> front g' /\ bare (g_objs g').
Proof.
  intros g g' (N0 & N1) HB S (H & _). specialize (H HB). split; [|exact H].
  destruct (S _ _ N0) as ([b0 k0] & M0 & A0). destruct (S _ _ N1) as ([b1 k1] & M1 & A1).
  pose proof (bare_nth _ _ _ H M0) as E0. pose proof (bare_nth _ _ _ H M1) as E1. cbn [o_buf o_kind new_obj] in *. subst b0 b1.
  split; [rewrite M0|rewrite M1]; f_equal; unfold new_obj; f_equal.
  - destruct A0 as [A|[(a & b & c & d & A & _)|(a & b & c & d & A & _)]]; [exact A|discriminate|discriminate].
  - destruct A1 as [A|[(a & b & c & d & A & _)|(a & b & c & d & A & _)]]; [exact A|discriminate|discriminate].
Qed.
Lemma front_run : forall w g0 t g, runs w g0 t g -> front g0 -> bare (g_objs g0) -> front g /\ bare (g_objs g) /\ g_cfg g = g_cfg g0 /\ g_pages g = g_pages g0.
Proof.
  intros w g0 t g R Fr HB. induction R as [|t g c g' e R IH S]; [auto|]. destruct IH as (F1 & B1 & C1 & P1); try assumption.
  pose proof (step_sd _ _ _ _ _ S) as D. destruct (front_step _ _ F1 B1 (step_stays _ _ _ _ _ S) D) as (F2 & B2).
  destruct D as (_ & D1 & D2). split; [exact F2|]. split; [exact B2|]. split; congruence.
Qed.
Lemma front_put : forall g i k, front g -> (2 <= Z.to_nat i)%nat -> front (put_kind g i k).
Proof.
  intros g i k (N0 & N1) H. unfold front. cbn [put_kind g_objs g_set_objs]. rewrite !nth_set_at.
  destruct (Nat.eqb_spec (Z.to_nat i) 0) as [D|_]; [lia|]. destruct (Nat.eqb_spec (Z.to_nat i) 1) as [D|_]; [lia|]. split; assumption.
Qed.
Lemma front_page : forall g i c r o, front g -> kind_at g i = Ok (KPage c r o) -> (2 <= Z.to_nat i)%nat.
Proof.
  intros g i c r o (N0 & N1) K. apply kind_at_nth in K. destruct K as (x & N & E & _).
  destruct (Z.to_nat i) as [|[|n]]; [rewrite N0 in N|rewrite N1 in N|lia]; injection N as <-; discriminate.
Qed.
Lemma prep_front : forall todo i pages cur g g', (2 <= Z.to_nat pages)%nat -> front g -> prep_loop todo i pages cur g = Ok g' ->
  front g' /\ g_cfg g' = g_cfg g.
Proof.
  induction todo as [|o todo IH]; intros i pages cur g g' Hp Fr H; cbn [prep_loop] in H; [injection H as <-; auto|].
  destruct (o_kind o); try (apply IH in H; assumption).
  - destruct (kind_at g pages) as [k| | |]; cbn [bind] in H; try discriminate. destruct k; try discriminate. apply IH in H; [exact H|exact Hp|]. apply front_put; assumption.
  - destruct (cur =? -1); [apply IH in H; assumption|]. destruct (kind_at g cur) as [k| | |] eqn:K; cbn [bind] in H; try discriminate. destruct k; try discriminate.
    apply IH in H; [exact H|exact Hp|]. apply front_put; [exact Fr|]. eapply front_page; eauto.
Qed.
Lemma prepare_front : forall g g', (2 <= Z.to_nat (g_pages g))%nat -> front g -> g_prepare g = Ok g' -> front g' /\ g_cfg g' = g_cfg g.
Proof.
  intros g g' Hp Fr H. unfold g_prepare in H.
  match type of H with bind ?m _ = _ => destruct m as [g1| | |] eqn:E; cbn [bind] in H; try discriminate end.
  assert (X : front g1 /\ g_cfg g1 = g_cfg g /\ g_pages g1 = g_pages g).
  { destruct (cfg_use (g_cfg g)); [|injection E as <-; auto]. destruct (g_prot g) as [p|]; [|discriminate]. injection E as <-. cbn [addObj fst]. split; [|split; reflexivity].
    destruct Fr as (N0 & N1). unfold front. cbn [g_objs g_set_objs]. split; (rewrite nth_error_app1; [assumption|apply nth_error_Some; congruence]). }
  destruct X as (F1 & C1 & P1). destruct (g_pages g1 =? -1); [injection H as <-; auto|].
  destruct (kind_at g1 (g_pages g1)) as [k| | |]; cbn [bind] in H; try discriminate. destruct k; try discriminate.
  apply prep_front in H; [|rewrite P1; exact Hp|exact F1]. destruct H as (F2 & C2). split; [exact F2|congruence].
Qed.
Lemma start_again : forall rnd cfg g g1, front g -> bare (g_objs g) -> g_start rnd cfg g = Ok g1 ->
  front g1 /\ bare (g_objs g1) /\ g_cfg g1 = cfg /\ (2 <= Z.to_nat (g_pages g1))%nat.
Proof.
  intros rnd cfg g g1 (N0 & N1) HB H. unfold g_start in H. cbn [addObj] in H. cbv zeta in H.
  match type of H with bind ?m _ = _ => destruct m as [p| | |]; cbn [bind] in H; try discriminate end. injection H as <-.
  cbn [g_objs g_set_objs g_cfg g_pages]. assert (L : (1 < List.length (g_objs g))%nat) by (apply nth_error_Some; congruence).
  split; [|split; [|split]].
  - unfold front. cbn [g_objs]. rewrite <- !app_assoc, !nth_error_app1 by lia. split; assumption.
  - bares.
  - reflexivity.
  - rewrite app_length. cbn [List.length]. lia.
Qed.

(** A document that Start was called on [n] times, the last time with [cfg], with
    any calls after each. *)
Inductive started (w : gworld) : nat -> gconfig -> gp -> Prop :=
| st_first : forall rnd cfg g0 t g, g_start rnd cfg gp0 = Ok g0 -> runs w g0 t g -> started w 1 cfg g
| st_more : forall n cfg g rnd cfg' g0 t g', started w n cfg g -> g_start rnd cfg' g = Ok g0 -> runs w g0 t g' -> started w (S n) cfg' g'.
Lemma started_front : forall w n cfg g, started w n cfg g ->
  front g /\ bare (g_objs g) /\ g_cfg g = cfg /\ (n = 1%nat \/ (2 <= Z.to_nat (g_pages g))%nat).
Proof.
  induction 1 as [rnd cfg g0 t g S R|n cfg g rnd cfg' g0 t g' _ (Fg & Bg & _) S R].
  - pose proof (inv_run cfg w g0 t g (inv_start _ _ _ S) R) as V. destruct (iv_cfg _ _ _ V) as (Ec & _).
    destruct (iv_objs _ _ _ V) as (fs & xs & rest & Eo & _). pose proof (iv_fresh _ _ _ V) as Fr. split; [unfold front; rewrite Eo; split; reflexivity|].
    split; [|split; [exact Ec|left; reflexivity]]. unfold bare. eapply Forall_impl; [|exact Fr]. intros o (Ho & _). exact Ho.
  - destruct (start_again _ _ _ _ Fg Bg S) as (F1 & B1 & C1 & P1). destruct (front_run _ _ _ _ R F1 B1) as (F2 & B2 & C2 & P2).
    split; [exact F2|]. split; [exact B2|]. split; [congruence|]. right. rewrite P2. exact P1.
Qed.
Theorem started_again : forall w n cfg2 g2 g3 F, started w n cfg2 g2 -> (2 <= n)%nat -> g_bytes w g2 = Ok (g3, F) ->
  blen F < 10 ^ 10 -> finite (cfg_w cfg2) -> finite (cfg_h cfg2) -> root_is F (cfg_w cfg2, cfg_h cfg2) [].
Proof.
  intros w n cfg2 g2 g3 F H Hn E Hs Fw Fh. destruct (started_front _ _ _ _ H) as (F2 & B2 & C2 & [P2|Hp]); [lia|].
  destruct (bytes_file _ _ _ _ E) as (gq & bs & Ep & L & EF & K).
    destruct (prepare_front _ _ Hp F2 Ep) as ((N0 & N1) & C3).
  assert (OT : forall k b, nth_error bs k = Some b -> exists r, object_text F (1 + Z.of_nat k) (b ++ B"endobj" ++ [10] ++ r)).
  { intros k b Eb. rewrite EF in *. apply file_object; assumption. }
  exists (box_of (cfg_w cfg2) (cfg_h cfg2)). split; [|split; [|apply box_is; assumption]].
  - destruct (K _ _ N0) as (lk & b & kd & lk' & BB & M & _). cbn [o_kind o_buf new_obj build1 app] in *. injection BB as <- _ _. destruct (OT _ _ M) as (r & T).
    exists (catalog_build ++ B"endobj" ++ [10] ++ r), ([10] ++ B"endobj" ++ [10] ++ r). split; [exact T|]. split; [apply catalog_read|apply closes_here].
  - destruct (K _ _ N1) as (lk & b & kd & lk' & BB & M & _). cbn [o_kind o_buf new_obj build1 app] in *. injection BB as <- _ _. destruct (OT _ _ M) as (r & T).
    assert (C : g_cfg gq = cfg2) by congruence. rewrite C in T. eexists _, _. split; [exact T|]. split; [|apply closes_here].
    match goal with |- reads (pages_build ?a ?c ?n [] ++ ?r) _ _ => destruct (root_read a c n [] r Fw Fh) as (r' & RR & ->) end. exact RR.
Qed.

(** ** A case: a page with a line, Start, and a page with a line *)
Definition begin_again (l l2 : list gcall) : res (trace * gp) := do g1 <- g_start [] page_cfg (r_state (after l)); play gw_id g1 l2 [].
Definition again_file (l l2 : list gcall) : bytes := match g_bytes gw_id (r_state (begin_again l l2)) with Ok (_, F) => F | _ => [] end.
Definition again_ok (l l2 : list gcall) : bool :=
  r_ok (after l) && r_ok (begin_again l l2) && no_errors (r_trace (begin_again l l2)) &&
  match g_bytes gw_id (r_state (begin_again l l2)) with Ok (_, F) => blen F <? 10 ^ 10 | _ => false end.
Lemma again_parts : forall l l2, again_ok l l2 = true -> exists w rnd cfg g0 t g rnd2 cfg2 g1 t2 g2 g3 F, g_start rnd cfg gp0 = Ok g0 /\ runs w g0 t g /\ map (fun x => snd (fst x)) t = l /\
  g_start rnd2 cfg2 g = Ok g1 /\ runs w g1 t2 g2 /\ map (fun x => snd (fst x)) t2 = l2 /\ Forall (fun x => snd x = None) t2 /\ g_bytes w g2 = Ok (g3, F) /\ root_is F (cfg_w cfg2, cfg_h cfg2) [].
Proof.
  intros l l2 H. unfold again_ok in H. apply andb_prop in H. destruct H as (H & HF). apply andb_prop in H. destruct H as (H & HN). apply andb_prop in H. destruct H as (H & HO).
  destruct (r_parts gw_id [] page_cfg l (after l) eq_refl H) as (g0 & S & R & M).
  destruct (begin_again l l2) as [(t2, g2)| | |] eqn:E; try discriminate HO. cbn [r_trace r_state] in *.
  unfold begin_again in E. destruct (g_start [] page_cfg (r_state (after l))) as [g1| | |] eqn:E1; cbn [bind] in E; try discriminate E.
  destruct (play_runs gw_id g1 l2 g1 [] t2 g2 (runs_start _ _) E) as (R2 & M2).
  destruct (g_bytes gw_id g2) as [(g3, F)| | |] eqn:E3; try discriminate HF. apply Z.ltb_lt in HF.
  exists gw_id, [], page_cfg, g0, (r_trace (after l)), (r_state (after l)), [], page_cfg, g1, t2, g2, g3, F.
  split; [exact S|]. split; [exact R|]. split; [exact M|]. split; [exact E1|]. split; [exact R2|]. split; [exact M2|]. split; [apply no_errors_ok; exact HN|]. split; [exact E3|].
  apply (started_again gw_id 2 page_cfg g2 g3 F (st_more _ _ _ _ _ _ _ _ _ (st_first _ _ _ _ _ _ S R) E1 R2) (le_n 2) E3 HF); exact Logic.I.
Qed.
Lemma again_case : exists w rnd cfg g0 t g rnd2 cfg2 g1 t2 g2 g3 F, g_start rnd cfg gp0 = Ok g0 /\ runs w g0 t g /\ map (fun x => snd (fst x)) t = prog4 /\
  g_start rnd2 cfg2 g = Ok g1 /\ runs w g1 t2 g2 /\ map (fun x => snd (fst x)) t2 = prog4 /\ Forall (fun x => snd x = None) t2 /\ g_bytes w g2 = Ok (g3, F) /\ root_is F (cfg_w cfg2, cfg_h cfg2) [].
Proof. apply again_parts. vm_compute. reflexivity. Qed.
(** The page root that has the pages of both documents, object 7, is no part of
    the page tree. *)
Lemma again_lost : map (fun o => match o_kind o with KPages n k => Some (n, k) | _ => None end)
    (match g_prepare (r_state (begin_again prog4 prog4)) with Ok g => g_objs g | _ => [] end) =
  [None; Some (0, []); None; None; None; None; Some (2, B" 4 0 R  9 0 R "); None; None; None].
Proof. vm_compute. reflexivity. Qed.

(** ** Read: the buffer is kept by Start as well *)
Lemma start_buf : forall rnd cfg g g1, g_start rnd cfg g = Ok g1 -> g_buf g1 = g_buf g /\ g_cap g1 = g_cap g.
Proof.
  intros rnd cfg g g1 H. unfold g_start in H. cbn [addObj] in H. cbv zeta in H.
  match type of H with bind ?m _ = _ => destruct m as [p| | |]; cbn [bind] in H; try discriminate end. injection H as <-. split; reflexivity.
Qed.
Theorem read_again : forall w n g g1 rnd cfg g2 t g3 m, g_read w n g = Ok (g1, None) -> g_start rnd cfg g1 = Ok g2 -> runs w g2 t g3 -> g_read w (S m) g3 = Ok (g3, None).
Proof.
  intros w n g g1 rnd cfg g2 t g3 m H S R. destruct (end_seen _ _ _ _ H) as (A & C). destruct (start_buf _ _ _ _ S) as (E1 & E2). destruct (runs_buf _ _ _ _ R) as (E3 & E4).
  unfold g_read. rewrite E3, E1, A, E4, E2, C. cbn [bind]. rewrite E3, E1, A. reflexivity.
Qed.
Lemma read_case : sizes (reads_of gw_id [800; 1]%nat (r_state (run gw_id [] page_cfg [std_page]))) = [Some 508; None] /\
  match g_start [] page_cfg all_read with Ok g => sizes (reads_of gw_id [800]%nat (page_after g)) | _ => [] end = [None].
Proof. split; vm_compute; reflexivity. Qed.
