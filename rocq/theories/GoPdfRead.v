(** Reading a document in pieces; saving it twice; what objects stay. *)
From Coq Require Import String List ZArith Lia Bool.
From Coq.Floats Require Import SpecFloat.
From Verif Require Import Base BaseProofs Output Png Crypto Float64 Ttf Subset CharMap Text ApiIds GoPdf GoPdfSpec GoPdfFile GoPdfPages GoPdfRun GoPdfDoc GoPdfState.
Open Scope Z_scope.
Open Scope list_scope.

(** ** The buffer of the file is only touched by reading *)

Definition same_buf (g g' : gp) : Prop := g_buf g' = g_buf g /\ g_cap g' = g_cap g.
Lemma getContent_buf : forall g g1 i s cs, getContent g = Ok (g1, i, s, cs) -> same_buf g g1.
Proof.
  intros g g1 i s cs H. unfold getContent in H. destruct (g_content g <=? -1).
  - cbn [addObj] in H. injection H as <- _ _ _. split; reflexivity.
  - destruct (kind_at g (g_content g)) as [k| | |]; cbn [bind] in H; try discriminate. destruct k; try discriminate. injection H as <- _ _ _. split; reflexivity.
Qed.
Lemma draw_buf : forall g f g', draw g f = Ok g' -> same_buf g g'.
Proof.
  intros g f g' H. unfold draw in H. destruct (getContent g) as [[[[g1 i] s] cs]| | |] eqn:E; cbn [bind] in H; try discriminate. injection H as <-.
  exact (getContent_buf _ _ _ _ _ E).
Qed.
Lemma gok_buf : forall g f g' e, gok (draw g f) = Ok (g', e) -> same_buf g g'.
Proof.
  intros g f g' e H. unfold gok in H. destruct (draw g f) as [g1| | |] eqn:E; cbn [bind] in H; try discriminate. injection H as <- <-. eapply draw_buf; eauto.
Qed.
Lemma chars_buf : forall g t g' n e, add_text_chars g t = Ok (g', n, e) -> same_buf g g'.
Proof.
  intros g t g' n e H. unfold add_text_chars in H. destruct (u_font (g_cur g)) as [k|]; [|discriminate]. destruct (nth_error (g_fonts g) k) as [f|]; [|discriminate].
  destruct (add_chars (gf_ttf f) t (gf_map f)) as (m, r). destruct r; try discriminate; injection H as <- _ _; split; reflexivity.
Qed.
Lemma buf_trans : forall a b c, same_buf a b -> same_buf b c -> same_buf a c.
Proof. intros a b c (H1 & H2) (H3 & H4). split; congruence. Qed.
Lemma text_buf : forall cell rect al bo fl t g g' e, text_call cell rect al bo fl t g = Ok (g', e) -> same_buf g g'.
Proof.
  intros cell rect al bo fl t g g' e H. unfold text_call in H. destruct (add_text_chars g t) as [[[g1 n] e1]| | |] eqn:E; cbn [bind] in H; try discriminate.
  apply chars_buf in E. eapply buf_trans; [exact E|]. clear E. destruct e1 as [e1|]; [injection H as <- _; split; reflexivity|].
  unfold put_text in H. destruct (getContent g1) as [[[[g2 i] s] cs]| | |] eqn:E; cbn [bind] in H; try discriminate. apply getContent_buf in E.
  eapply buf_trans; [exact E|]. destruct (append_text _ _ _ _) as [[[cs' x] y] r]. destruct r; try discriminate; injection H as <- _; split; reflexivity.
Qed.
Lemma select_buf : forall f st sz g g' e, g_set_font f st sz g = Ok (g', e) -> same_buf g g'.
Proof.
  intros f st sz g g' e H. unfold g_set_font in H. destruct (find_font _ _ _) as [n|]; [|injection H as <- _; split; reflexivity].
  destruct (nth_error _ n); [|discriminate]. injection H as <- _. split; reflexivity.
Qed.
Lemma image_buf : forall w bey id d x y r g g' e, g_image w bey id d x y r g = Ok (g', e) -> same_buf g g'.
Proof.
  intros w bey id d x y r g g' e H. unfold g_image in H. destruct (find _ _) as [((a, k), q)|].
  - destruct (k =? -1); [discriminate|]. destruct (match r with Some _ => _ | None => _ end); cbn [bind] in H; try discriminate. eapply gok_buf; eauto.
  - destruct (match r with Some _ => _ | None => _ end) as [q| | |]; try discriminate; [|injection H as <- _; split; reflexivity].
    destruct (parseImg _ _ _ _ _) as [info| | |]; try discriminate; [|injection H as <- _; split; reflexivity].
    unfold img_put in H. cbn [addObj] in H. cbv zeta in H.
    match type of H with bind ?m _ = _ => destruct m as [g2| | |] eqn:E; cbn [bind] in H; try discriminate end.
    assert (S2 : same_buf g g2).
    { cbn [g_procset g_set_objs] in E. destruct (g_procset g =? -1); [injection E as <-; split; reflexivity|].
      destruct (kind_at _ _) as [ps| | |]; cbn [bind] in E; try discriminate. destruct ps; try discriminate.
      destruct (draw _ _) as [g3| | |] eqn:Ed; cbn [bind] in E; try discriminate. apply draw_buf in Ed. injection E as <-. exact Ed. }
    clear E. eapply buf_trans; [exact S2|].
    destruct (beqb (colspace info) (B"Indexed")).
    + match type of H with bind ?m _ = _ => destruct m as [kk| | |]; cbn [bind] in H; try discriminate end. destruct kk; try discriminate. injection H as <- _.
      destruct (createSMask info); split; reflexivity.
    + injection H as <- _. destruct (createSMask info); split; reflexivity.
Qed.
Lemma font_buf : forall f k st d b g g' e, g_add_font f k st d b g = Ok (g', e) -> same_buf g g'.
Proof.
  intros f k st d b g g' e H. unfold g_add_font in H. destruct (match d with Some _ => _ | None => _ end) as [(t, kp)| | |]; try discriminate; [|injection H as <- _; split; reflexivity].
  cbn [addObj] in H. cbv zeta in H. cbn [g_procset g_set_objs] in H. destruct (g_procset g =? -1); [injection H as <- _; split; reflexivity|].
  destruct (kind_at _ _) as [ps| | |]; cbn [bind] in H; try discriminate. destruct ps; try discriminate.
  destruct (existsb _ _); injection H as <- _; split; reflexivity.
Qed.
Theorem buf_step : forall w g c g' e, gstep w g c = Ok (g', e) -> same_buf g g'.
Proof.
  intros w g c g' e H. destruct c; cbn [gstep] in H;
    try (unfold gok in H; cbn [bind] in H; injection H as <- _; split; reflexivity);
    try (eapply gok_buf; exact H);
    try (eapply text_buf; exact H).
  - unfold gok in H. cbn [bind] in H. injection H as <- _. unfold g_add_page. cbn [addObj]. cbv zeta. cbn [g_first g_set_objs g_set_cur]. destruct (g_first g =? -1); split; reflexivity.
  - eapply select_buf; eauto.
  - eapply select_buf; eauto.
  - eapply font_buf; eauto.
  - unfold g_kern_override in H. destruct (find_font _ _ _); injection H as <- _; split; reflexivity.
  - eapply image_buf; eauto.
  - unfold g_line_width in H. apply gok_buf in H. exact H.
  - unfold g_gray in H. apply gok_buf in H. exact H.
  - unfold g_compress_level in H. unfold gok in H. cbn [bind] in H. injection H as <- _. destruct (l <? -2); [split; reflexivity|]. destruct (9 <? l); split; reflexivity.
  - unfold g_measure in H. destruct (add_text_chars g text) as [[[g1 n] e1]| | |] eqn:E; cbn [bind] in H; try discriminate. destruct e1; [|discriminate].
    injection H as <- _. eapply chars_buf; eauto.
Qed.

Lemma buf_run : forall rnd cfg w g0 t g, g_start rnd cfg gp0 = Ok g0 -> runs w g0 t g -> g_buf g = [] /\ g_cap g = false.
Proof.
  intros rnd cfg w g0 t g S R. induction R as [|t g c g' e R (A & C) Sc].
  - unfold g_start in S. cbv zeta in S. cbn [addObj] in S. match type of S with bind ?e _ = _ => destruct e; cbn [bind] in S; try discriminate end. injection S as <-. split; reflexivity.
  - apply buf_step in Sc. destruct Sc as (E1 & E2). rewrite E1, E2. auto.
Qed.

(** ** C66: Read in pieces *)

(** Read calls with buffers of these sizes: what each returned. *)
Fixpoint reads_of (w : gworld) (ns : list nat) (g : gp) : res (gp * list (option bytes)) :=
  match ns with
  | [] => Ok (g, [])
  | n :: ns => do (g1, o) <- g_read w n g; do (g2, l) <- reads_of w ns g1; Ok (g2, o :: l)
  end.
(** A file read in such pieces. *)
Fixpoint pieces_of (ns : list nat) (F : bytes) : list (option bytes) :=
  match ns with
  | [] => []
  | n :: ns => match F, n with [], S _ => None | _, _ => Some (firstn n F) end :: pieces_of ns (skipn n F)
  end.

Lemma skipn_nil_buf : forall n, @skipn Z n [] = []. Proof. destruct n; reflexivity. Qed.
Lemma read_on : forall w ns g, g_cap g = true -> exists g', reads_of w ns g = Ok (g', pieces_of ns (g_buf g)).
Proof.
  intros w. induction ns as [|n ns IH]; intros g C; [exists g; reflexivity|]. cbn [reads_of pieces_of]. unfold g_read. rewrite C. destruct (g_buf g) as [|c b] eqn:Eb.
  - cbn [bind]. rewrite Eb. cbn [bind]. destruct (IH g C) as (g' & E). rewrite Eb in E. rewrite E. cbn [bind]. exists g'. rewrite skipn_nil_buf. destruct n; reflexivity.
  - cbn [bind]. rewrite Eb. cbn [bind]. destruct (IH (g_set_buf g (skipn n (c :: b)) true) eq_refl) as (g' & E). rewrite E. cbn [bind]. exists g'. reflexivity.
Qed.
Lemma bytes_read : forall w g g' F n ns, g_buf g = [] -> g_cap g = false -> g_bytes w g = Ok (g', F) -> exists g2, reads_of w (n :: ns) g = Ok (g2, pieces_of (n :: ns) F).
Proof.
  intros w g g' F n ns Hb Hc H. unfold g_bytes in H. destruct (compile w g) as [g1| | |] eqn:E; cbn [bind] in H; try discriminate. injection H as <- <-.
  assert (C : g_cap g1 = true). { unfold compile in E. destruct (g_prepare g) as [gp| | |]; cbn [bind] in E; try discriminate. destruct (build_loop _ _ _ _ _ _ _ _) as [[[[os l] bf] of]| | |]; cbn [bind] in E; try discriminate. injection E as <-. reflexivity. }
  destruct (read_on w (n :: ns) g1 C) as (g2 & R). exists g2. rewrite <- R. cbn [reads_of]. f_equal. unfold g_read. rewrite Hb, Hc, E, C. cbn [bind].
  destruct (g_buf g1) eqn:Eb; cbn [bind]; rewrite Eb; reflexivity.
Qed.

(** Together the pieces are the beginning of the file. *)
Definition all_bytes (l : list (option bytes)) : bytes := flat_map (fun o => match o with Some b => b | None => [] end) l.
Lemma pieces_join : forall ns F, all_bytes (pieces_of ns F) = firstn (fold_right Nat.add O ns) F.
Proof.
  induction ns as [|n ns IH]; intros F; [reflexivity|]. cbn [pieces_of fold_right]. unfold all_bytes. cbn [flat_map]. fold (all_bytes (pieces_of ns (skipn n F))).
  rewrite IH. assert (E : firstn n F ++ firstn (fold_right Nat.add O ns) (skipn n F) = firstn (n + fold_right Nat.add O ns) F).
  { rewrite <- (firstn_skipn n F) at 3. rewrite firstn_app. rewrite firstn_firstn. rewrite Nat.min_r by lia. f_equal.
    destruct (Nat.le_gt_cases n (List.length F)) as [L|L]; [rewrite firstn_length, Nat.min_l by lia; f_equal; lia|].
    rewrite (skipn_all2 F) by lia. rewrite !firstn_nil. reflexivity. }
  rewrite <- E. f_equal. destruct F as [|c F]; [destruct n; reflexivity|reflexivity].
Qed.
(** The end of the file is reported when all of it has been read, and not before. *)
Lemma pieces_end : forall ns F i, (0 < nth i ns O)%nat -> (i < List.length ns)%nat ->
  (nth_error (pieces_of ns F) i = Some None <-> (List.length F <= fold_right Nat.add O (firstn i ns))%nat).
Proof.
  induction ns as [|n ns IH]; intros F i Hn Hi; [cbn [List.length] in Hi; lia|]. destruct i as [|i]; cbn [pieces_of nth_error nth firstn fold_right] in *.
  - destruct F as [|c F]; [destruct n; [lia|]; split; [cbn [List.length]; lia|reflexivity]|]. cbn [List.length]. split; [discriminate|lia].
  - rewrite IH by (cbn [List.length] in Hi; lia). rewrite skipn_length. lia.
Qed.

Theorem doc_read : forall w rnd cfg t F n ns, document w rnd cfg t F -> exists g0 g g' l, g_start rnd cfg gp0 = Ok g0 /\ runs w g0 t g /\
  reads_of w (n :: ns) g = Ok (g', l) /\ all_bytes l = firstn (fold_right Nat.add O (n :: ns)) F /\
  forall i, (0 < nth i (n :: ns) O)%nat -> (i < List.length (n :: ns))%nat -> (nth_error l i = Some None <-> (List.length F <= fold_right Nat.add O (firstn i (n :: ns)))%nat).
Proof.
  intros w rnd cfg t F n ns (g0 & g & g' & S & R & H). destruct (buf_run _ _ _ _ _ _ S R) as (A & C). destruct (bytes_read w g g' F n ns A C H) as (g2 & E).
  exists g0, g, g2, (pieces_of (n :: ns) F). split; [exact S|]. split; [exact R|]. split; [exact E|]. split; [apply pieces_join|]. intros i H1 H2. apply pieces_end; assumption.
Qed.
