(** Close, and reading on after the end (C66). *)
From Coq Require Import String List ZArith Lia Bool.
From Coq.Floats Require Import SpecFloat.
From Verif Require Import Base BaseProofs Output Png Crypto Float64 Ttf Subset CharMap Text ApiIds TestFont GoPdf GoPdfSpec GoPdfFile GoPdfPages GoPdfRun GoPdfDoc GoPdfState GoPdfRead GoPdfCases.
Open Scope Z_scope.
Open Scope list_scope.

(** ** What was read before does not get into the file *)
Definition clr (r : res gp) : res gp := match r with Ok g => Ok (g_close g) | Err e => Err e | Panic => Panic | Diverge => Diverge end.
Lemma prep_close : forall todo i pages cur g, prep_loop todo i pages cur (g_close g) = clr (prep_loop todo i pages cur g).
Proof.
  induction todo as [|o todo IH]; intros i pages cur g; [reflexivity|]. cbn [prep_loop].
  change (kind_at (g_close g) pages) with (kind_at g pages). change (kind_at (g_close g) cur) with (kind_at g cur).
  destruct (o_kind o); try apply IH.
  - destruct (kind_at g pages) as [k| | |]; cbn [bind]; try reflexivity. destruct k; try reflexivity. rewrite <- IH. reflexivity.
  - destruct (cur =? -1); [apply IH|]. destruct (kind_at g cur) as [k| | |]; cbn [bind]; try reflexivity. destruct k; try reflexivity. rewrite <- IH. reflexivity.
  - rewrite <- IH. reflexivity.
Qed.
Lemma prepare_close : forall g, g_prepare (g_close g) = clr (g_prepare g).
Proof.
  intros g. unfold g_prepare. change (cfg_use (g_cfg (g_close g))) with (cfg_use (g_cfg g)). change (g_prot (g_close g)) with (g_prot g).
  assert (X : forall h, (if g_pages (g_close h) =? -1 then Ok (g_close h) else do k <- kind_at (g_close h) (g_pages (g_close h)); match k with KPages _ _ => prep_loop (g_objs (g_close h)) 0 (g_pages (g_close h)) (-1) (g_close h) | _ => Panic end) =
    clr (if g_pages h =? -1 then Ok h else do k <- kind_at h (g_pages h); match k with KPages _ _ => prep_loop (g_objs h) 0 (g_pages h) (-1) h | _ => Panic end)).
  { intros h. change (g_pages (g_close h)) with (g_pages h). change (kind_at (g_close h) (g_pages h)) with (kind_at h (g_pages h)). change (g_objs (g_close h)) with (g_objs h).
    destruct (g_pages h =? -1); [reflexivity|]. destruct (kind_at h (g_pages h)) as [k| | |]; cbn [bind]; try reflexivity. destruct k; try reflexivity. apply prep_close. }
  destruct (cfg_use (g_cfg g)); [|cbn [bind]; apply X]. destruct (g_prot g) as [p|]; [|reflexivity]. cbn [bind addObj fst].
  match goal with |- _ = clr (if g_pages ?h =? _ then _ else _) => exact (X h) end.
Qed.
Lemma build_close : forall w g todo id l buf offs done, build_loop w (g_close g) todo id l buf offs done = build_loop w g todo id l buf offs done.
Proof.
  intros w g. induction todo as [|o todo IH]; intros id l buf offs done; [reflexivity|]. cbn [build_loop]. change (build1 w (g_close g) l id (o_kind o)) with (build1 w g l id (o_kind o)).
  destruct (build1 w g l id (o_kind o)) as [[[b k] l']| | |]; cbn [bind]; [apply IH|reflexivity..].
Qed.
Lemma compile_close : forall w g, compile w (g_close g) = compile w g.
Proof.
  intros w g. unfold compile. rewrite prepare_close. destruct (g_prepare g) as [h| | |]; cbn [clr bind]; try reflexivity. rewrite build_close. reflexivity.
Qed.

(** After Close a file is read from its beginning. *)
Theorem close_read : forall w g g' F n ns, g_bytes w g = Ok (g', F) -> exists g1 l, reads_of w (n :: ns) (g_close g) = Ok (g1, l) /\ all_bytes l = firstn (fold_right Nat.add O (n :: ns)) F /\
  forall i, (0 < nth i (n :: ns) O)%nat -> (i < List.length (n :: ns))%nat -> (nth_error l i = Some None <-> (List.length F <= fold_right Nat.add O (firstn i (n :: ns)))%nat).
Proof.
  intros w g g' F n ns H. assert (Hc : g_bytes w (g_close g) = Ok (g', F)) by (unfold g_bytes in *; rewrite compile_close; exact H).
  destruct (bytes_read w (g_close g) g' F n ns eq_refl eq_refl Hc) as (g1 & E). exists g1, (pieces_of (n :: ns) F). split; [exact E|]. split; [apply pieces_join|]. intros i. apply pieces_end.
Qed.

(** ** After the end *)
Lemma compile_cap : forall w g g1, compile w g = Ok g1 -> g_cap g1 = true.
Proof.
  intros w g g1 E. unfold compile in E. destruct (g_prepare g) as [h| | |]; cbn [bind] in E; try discriminate. destruct (build_loop _ _ _ _ _ _ _ _) as [[[[os l] bf] of]| | |]; cbn [bind] in E; try discriminate.
  injection E as <-. reflexivity.
Qed.
Lemma end_seen : forall w n g g', g_read w n g = Ok (g', None) -> g_buf g' = [] /\ g_cap g' = true.
Proof.
  intros w n g g' H. unfold g_read in H.
  match type of H with bind ?e _ = _ => destruct e as [g1| | |] eqn:E; cbn [bind] in H; try discriminate end.
  destruct (g_buf g1) as [|a b] eqn:Eb; [|discriminate]. assert (g1 = g') by congruence. subst g1. split; [exact Eb|].
  destruct (g_buf g) as [|a b] eqn:Eg; [|congruence]. destruct (g_cap g) eqn:Ec; [congruence|]. exact (compile_cap _ _ _ E).
Qed.
Lemma runs_buf : forall w g0 t g, runs w g0 t g -> same_buf g0 g.
Proof. intros w g0 t g R. induction R as [|t g c g' e R (A & C) Sc]; [split; reflexivity|]. apply buf_step in Sc. destruct Sc as (E1 & E2). split; congruence. Qed.
Theorem end_stays : forall w n g g1 t g2 m, g_read w n g = Ok (g1, None) -> runs w g1 t g2 -> g_read w (S m) g2 = Ok (g2, None).
Proof.
  intros w n g g1 t g2 m H R. destruct (end_seen _ _ _ _ H) as (A & C). destruct (runs_buf _ _ _ _ R) as (E1 & E2). unfold g_read. rewrite E1, A, E2, C. cbn [bind]. rewrite E1, A. reflexivity.
Qed.

(** ** A case *)
Definition rest_of (r : res (gp * list (option bytes))) : gp := match r with Ok (g, _) => g | _ => gp0 end.
Definition sizes (r : res (gp * list (option bytes))) : list (option Z) := match r with Ok (_, l) => map (option_map (fun b => blen b)) l | _ => [] end.
Definition page_after (g : gp) : gp := match gstep gw_id g std_page with Ok (g, _) => g | _ => gp0 end.
Definition half_read := rest_of (reads_of gw_id [100]%nat (r_state (run gw_id [] page_cfg [std_page]))).
Definition all_read := rest_of (reads_of gw_id [800; 1]%nat (r_state (run gw_id [] page_cfg [std_page]))).
Lemma close_case : sizes (reads_of gw_id [100; 800; 1]%nat (r_state (run gw_id [] page_cfg [std_page]))) = [Some 100; Some 408; None] /\
  sizes (reads_of gw_id [1]%nat (page_after all_read)) = [None] /\ sizes (reads_of gw_id [100; 800; 1]%nat (g_close (page_after half_read))) = [Some 100; Some 797; None].
Proof. split; [|split]; vm_compute; reflexivity. Qed.
