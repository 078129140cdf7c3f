(** A dictionary written inside another one. *)
From Coq Require Import String List ZArith Lia Bool.
From Verif Require Import Base BaseProofs Props PropsFlat PropsWrite PropsRead PropsNorm PropsStable PropsRefs PagesEdit Squeeze PiecesRead.
Open Scope Z_scope.
Open Scope list_scope.

(** ** Brackets match *)
Fixpoint bal (c1 c2 : Z) (v : bytes) : bool :=
  match v with
  | [] => (c1 =? 0) && (c2 =? 0)
  | r :: v' => (0 <=? cnt1 r c1) && (0 <=? cnt2 r c2) && bal (cnt1 r c1) (cnt2 r c2) v'
  end.

Lemma vrun_bal : forall x c1 c2 w, 0 <= c1 -> bal c1 c2 x = true -> vrun (c1 + 2) c2 (x ++ w) = vrun 2 0 w.
Proof.
  induction x as [|r x IH]; intros c1 c2 w H E; cbn [bal] in E.
  - replace (c1 + 2) with 2 by lia. replace c2 with 0 by lia. reflexivity.
  - cbn [app vrun]. cbv zeta. apply andb_true_iff in E. destruct E as (E & E2). apply andb_true_iff in E. destruct E as (E0 & E1).
    assert (C : cnt1 r (c1 + 2) = cnt1 r c1 + 2) by (unfold cnt1; destruct (r =? 60), (r =? 62); lia).
    rewrite C. replace (cnt1 r c1 + 2 =? 0) with false by lia. cbn [andb]. rewrite !andb_false_r.
    apply IH; [lia|auto].
Qed.

Lemma bal_dict : forall x, bal 0 0 x = true -> complete (B"<<" ++ x ++ B">>").
Proof.
  intros x H. left. change (B"<<" ++ x ++ B">>") with (60 :: 60 :: x ++ [62; 62]).
  change (vrun 0 0 (60 :: 60 :: x ++ [62; 62])) with (vrun (0 + 2) 0 (x ++ [62; 62])). rewrite vrun_bal by (auto; lia). reflexivity.
Qed.

Lemma bal_app : forall a c1 c2 b, bal c1 c2 a = true -> bal c1 c2 (a ++ b) = bal 0 0 b.
Proof.
  induction a as [|r a IH]; intros c1 c2 b H; cbn [bal app] in *.
  - replace c1 with 0 by lia. replace c2 with 0 by lia. reflexivity.
  - apply andb_true_iff in H. destruct H as (H & H2). rewrite H. cbn [andb]. apply IH. auto.
Qed.

Lemma cnt_ws : forall c, is_ws4 c = true -> forall n, cnt1 c n = n /\ cnt2 c n = n.
Proof.
  intros c H n. unfold is_ws4 in H. unfold cnt1, cnt2.
  destruct (Z.eqb_spec c 60), (Z.eqb_spec c 62), (Z.eqb_spec c 91), (Z.eqb_spec c 93); lia.
Qed.

Lemma bal_ws : forall c s c1 c2, is_ws4 c = true -> 0 <= c1 -> 0 <= c2 -> bal c1 c2 (c :: s) = bal c1 c2 s.
Proof.
  intros c s c1 c2 C H1 H2. cbn [bal]. destruct (cnt_ws c C c1) as (-> & _). destruct (cnt_ws c C c2) as (_ & ->).
  replace (0 <=? c1) with true by lia. replace (0 <=? c2) with true by lia. reflexivity.
Qed.

Lemma bal_sq : forall s c1 c2, 0 <= c1 -> 0 <= c2 -> bal c1 c2 (sq s) = bal c1 c2 s.
Proof.
  induction s as [|c s IH]; intros c1 c2 H1 H2; [reflexivity|]. unfold sq in *.
  destruct (is_ws4 c) eqn:C.
  - destruct s as [|d s]; [rewrite !bal_ws by auto; cbn [sqF]; rewrite C; apply (bal_ws 32 []); auto|].
    rewrite sqF_ws, (bal_ws c) by auto. destruct (is_ws4 d || opener (d :: s)); [apply IH; auto|].
    rewrite (bal_ws 32) by auto. apply IH; auto.
  - rewrite sqF_hd by auto. cbn [bal]. destruct (0 <=? cnt1 c c1) eqn:E1; [|reflexivity]. destruct (0 <=? cnt2 c c2) eqn:E2; [|reflexivity].
    cbn [andb]. apply IH; lia.
Qed.

Lemma bal_pad : forall w, wsp w -> forall a c1 c2, 0 <= c1 -> 0 <= c2 -> bal c1 c2 (a ++ w) = bal c1 c2 a.
Proof.
  intros w W. assert (B0 : forall c1 c2, 0 <= c1 -> 0 <= c2 -> bal c1 c2 w = bal c1 c2 []).
  { induction W as [|c w C W IH]; intros; [reflexivity|]. rewrite bal_ws by auto. apply IH; auto. }
  induction a as [|r a IH]; intros c1 c2 H1 H2; cbn [app]; [apply B0; auto|]. cbn [bal].
  destruct (0 <=? cnt1 r c1) eqn:E1; [|reflexivity]. destruct (0 <=? cnt2 r c2) eqn:E2; [|reflexivity].
  cbn [andb]. apply IH; lia.
Qed.

Definition bal_prop (p : prop) : Prop := bal 0 0 (pkey p) = true /\ bal 0 0 (pval p) = true.

Lemma bal_wsp : forall w s, wsp w -> bal 0 0 (w ++ s) = bal 0 0 s.
Proof. induction 1 as [|c w C W IH]; [reflexivity|]. cbn [app]. rewrite bal_ws by (auto; lia). exact IH. Qed.

Lemma bal_ptext : forall L, Forall pc_ok L -> Forall bal_prop (map pc_prop L) -> bal 0 0 (ptext L) = true.
Proof.
  induction 1 as [|p L (G1 & G2 & G3) F IH]; intros Q; [reflexivity|]. inversion Q as [|? ? (Q1 & Q2) Q']; subst.
  cbn [pc_prop pkey pval] in *. rewrite ptext_cons. change (bal 0 0 (47 :: pc_key p ++ pc_gap p ++ pc_val p ++ pc_end p ++ ptext L))
    with (bal 0 0 (pc_key p ++ pc_gap p ++ pc_val p ++ pc_end p ++ ptext L)).
  rewrite bal_app by auto. rewrite bal_wsp by auto. rewrite bal_app by auto. rewrite bal_wsp by auto. auto.
Qed.

(** ** No angle bracket stands alone *)
Definition quiet (v : bytes) : Prop := lone_free (32 :: v ++ [32]) = true.

Lemma lf_app : forall a c b, is_ws4 c = false -> lone (c :: b) = false ->
  lone_free (a ++ c :: b) = lone_free a && lone_free (c :: b).
Proof.
  induction a as [|x a IH]; intros c b C Lb; [reflexivity|]. cbn [app]. cbn [lone_free]. cbn [lone_free] in IH.
  rewrite IH by auto. rewrite C. cbn [andb negb]. rewrite andb_assoc. f_equal. f_equal. f_equal.
  destruct a as [|y [|z a]]; cbn [app]; auto.
  - rewrite Lb. reflexivity.
  - cbn [lone]. rewrite C, andb_false_r. reflexivity.
Qed.

Lemma lf_nws : forall c s, is_ws4 c = false -> lone_free (c :: s) = lone_free s.
Proof. intros. cbn [lone_free]. rewrite H. reflexivity. Qed.

Lemma lf_nowsp : forall w s, nowsp w -> lone_free (w ++ s) = lone_free s.
Proof. induction 1; [reflexivity|]. cbn [app]. rewrite lf_nws by auto. auto. Qed.

Lemma lone_ws : forall c s, is_ws4 c = true -> lone (c :: s) = false.
Proof.
  intros c s H. destruct s; [reflexivity|]. cbn [lone]. unfold is_ws4 in H.
  replace ((c =? 60) || (c =? 62)) with false by lia. reflexivity.
Qed.

(** Runs of white space around a value. *)
Lemma lf_lead : forall w s, wsp w -> lone_free (32 :: s) = true -> lone_free (w ++ s) = true.
Proof.
  intros w s W H. induction W as [|c w C W IH]; cbn [app].
  - apply (lone_free_suffix [32]) in H. exact H.
  - destruct W as [|d w D W]; cbn [app] in *.
    + cbn [lone_free] in *. rewrite C. exact H.
    + cbn [lone_free] in *. rewrite C. rewrite IH. replace (lone (d :: w ++ s)) with false by (symmetry; apply lone_ws; auto). reflexivity.
Qed.

Lemma lf_wsp : forall w, wsp w -> lone_free w = true.
Proof. intros w W. rewrite <- (app_nil_r w). apply lf_lead; auto. Qed.

Lemma lf_trail : forall w s, wsp w -> lone_free (s ++ [32]) = true -> lone_free (s ++ w) = true.
Proof.
  intros w s W. destruct W as [|c w C W]; [intros H; rewrite app_nil_r; eapply lone_free_prefix; eauto|].
  induction s as [|x s IH]; intros H; cbn [app] in *.
  - apply lf_wsp. constructor; auto.
  - cbn [lone_free] in *. apply andb_true_iff in H. destruct H as (H1 & H2). rewrite IH by auto. rewrite andb_true_r.
    rewrite <- H1. f_equal. f_equal. destruct s as [|y [|z s]]; cbn [app]; auto.
    + rewrite !lone_ws by auto. reflexivity.
    + cbn [lone]. rewrite C. reflexivity.
Qed.

Lemma lf_around : forall w v w', wsp w -> wsp w' -> quiet v -> lone_free (w ++ v ++ w') = true.
Proof.
  intros w v w' W W' Q. apply lf_lead; auto. unfold quiet in Q.
  change (32 :: v ++ w') with ((32 :: v) ++ w'). apply lf_trail; auto.
Qed.

Lemma lf_ptext : forall L w, Forall pc_ok L -> Forall (fun p => Forall key_char (pc_key p) /\ quiet (pc_val p)) L -> wsp w ->
  lone_free (ptext L ++ w) = true.
Proof.
  induction L as [|p L IH]; intros w F Q W; [apply lf_wsp; auto|].
  inversion F as [|? ? (G1 & G2 & G3) F']; inversion Q as [|? ? (K & Qv) Q']; subst.
  rewrite ptext_cons. cbn [app]. rewrite <- !app_assoc. rewrite lf_nws by reflexivity.
  rewrite lf_nowsp by (eapply Forall_impl; [|exact K]; intros c (_ & H & _); exact H).
  destruct L as [|q L].
  - cbn [ptext flat_map app]. apply lf_around; auto. apply Forall_app. auto.
  - specialize (IH w F' Q' W). rewrite ptext_cons in *.
    set (R := pc_key q ++ pc_gap q ++ pc_val q ++ pc_end q ++ ptext L) in *. cbn [app] in IH.
    replace (pc_gap p ++ pc_val p ++ pc_end p ++ (47 :: R) ++ w) with ((pc_gap p ++ pc_val p ++ pc_end p) ++ 47 :: (R ++ w))
      by (rewrite <- !app_assoc; reflexivity).
    rewrite lf_app; [|reflexivity|destruct (R ++ w); reflexivity]. rewrite IH, andb_true_r. apply lf_around; auto.
Qed.

Definition quiet_pc (p : piece) : Prop := quiet (pc_val p).

Lemma quiet_dtext : forall lead L, wsp lead -> Forall pc_ok L -> Forall wf_prop (map pc_prop L) -> Forall quiet_pc L ->
  quiet (dtext lead L).
Proof.
  intros lead L W F Wf Q. unfold quiet, dtext. rewrite <- !app_assoc.
  change (32 :: B"<<" ++ lead ++ ptext L ++ B">>" ++ [32]) with (32 :: 60 :: 60 :: lead ++ ptext L ++ 62 :: 62 :: [32]).
  cbn [lone_free]. change (is_ws4 32) with true. change (is_ws4 60) with false. cbn [lone andb]. change (is_ws4 60) with false.
  rewrite andb_false_r. cbn [negb andb]. rewrite app_assoc. rewrite lf_app by reflexivity.
  change (lone_free (62 :: 62 :: [32])) with true. rewrite andb_true_r.
  assert (P : lone_free (ptext L ++ []) = true).
  { apply lf_ptext; auto; [|constructor]. apply Forall_forall. intros p Hp. split.
    - rewrite Forall_map, Forall_forall in Wf. destruct (Wf p Hp) as (K & _). exact K.
    - rewrite Forall_forall in Q. apply Q; auto. }
  rewrite app_nil_r in P. apply lf_lead; auto. destruct L as [|p L]; [reflexivity|]. rewrite ptext_cons in *.
  cbn [lone_free] in *. rewrite P. change (lone (47 :: pc_key p ++ pc_gap p ++ pc_val p ++ pc_end p ++ ptext L)) with
    (lone (47 :: (pc_key p ++ pc_gap p ++ pc_val p ++ pc_end p ++ ptext L))).
  destruct (pc_key p ++ _); reflexivity.
Qed.

(** ** The dictionary inside a value *)
Definition ntext (ps : list prop) : bytes := norm (trim_space ([10] ++ body ps)).

Definition nestable (L : list piece) : Prop :=
  Forall pc_ok L /\ wlist (map pc_prop L) /\ Forall bal_prop (map pc_prop L) /\ Forall quiet_pc L.

Lemma nest_quiet : forall L w, nestable L -> wsp w -> lone_free (ptext L ++ w) = true.
Proof.
  intros L w (F & Wl & _ & Q) W. destruct (wlist_parts _ Wl) as (Wf & _). apply lf_ptext; auto.
  apply Forall_forall. intros p Hp. split.
  - rewrite Forall_map, Forall_forall in Wf. destruct (Wf p Hp) as (K & _). exact K.
  - rewrite Forall_forall in Q. apply Q; auto.
Qed.

Lemma norm_dtext : forall lead L, wsp lead -> nestable L -> norm (dtext lead L) = B"<<" ++ ntext (map pc_prop L) ++ B">>".
Proof.
  intros lead L W N. pose proof N as (F & Wl & Bl & Q). destruct (wlist_parts _ Wl) as (Wf & C & R & O).
  destruct (ptext_core L F Wf O) as (X & pad & E & P & T & LX & HX & HS).
  pose proof (nest_quiet L [32] N ltac:(constructor; [reflexivity|constructor])) as LF.
  assert (OE : ~ open_end 62 X).
  { intros (x & c & -> & Cw). rewrite E in LF. rewrite <- !app_assoc in LF. apply lone_free_suffix in LF.
    cbn [app] in LF. cbn [lone_free] in LF. rewrite Cw in LF. cbn [andb] in LF.
    destruct P as [|y pad Y P]; cbn [app lone] in LF; [discriminate|]. rewrite Y in LF. discriminate. }
  assert (G : sq (lead ++ ptext L ++ [62; 62]) = sq (X ++ [62; 62])).
  { rewrite E, <- app_assoc. destruct L as [|p L].
    - destruct HX as (_ & HX). rewrite HX by auto. cbn [app]. rewrite (app_assoc lead).
      rewrite <- (app_nil_l ((lead ++ pad) ++ [62; 62])). apply (sq_gap []); [apply Forall_app; auto|reflexivity|].
      intros q t _ _ (x & c & Ex & _). destruct x; discriminate.
    - destruct HS as (t & Et); [discriminate|]. rewrite Et in *.
      pose proof (sq_gap_slash [] lead (t ++ pad ++ [62; 62]) W) as S1. cbn [app] in S1 |- *. rewrite S1.
      change (47 :: t ++ pad ++ [62; 62]) with ((47 :: t) ++ pad ++ [62; 62]). apply sq_gap; auto.
      intros q u Eq Hq. inversion Eq; subst. exact OE. }
  rewrite norm_sq. unfold dtext. change (B"<<" ++ lead ++ ptext L ++ B">>") with ([60; 60] ++ lead ++ ptext L ++ [62; 62]).
  rewrite sq_word by (constructor; [reflexivity|constructor; [reflexivity|constructor]]). rewrite G.
  rewrite sq_app; auto; [|reflexivity|intros q u Eq Hq; inversion Eq; subst; exact OE].
  rewrite (sq_core L X pad) by auto. reflexivity.
Qed.

Lemma ntext_facts : forall L, nestable L -> let N := ntext (map pc_prop L) in
  trim_space N = N /\ norm N = N /\ bal 0 0 N = true /\ Forall ascii N /\ no_occ stream_kw N.
Proof.
  intros L Nn N. pose proof Nn as (F & Wl & Bl & Q). destruct (wlist_parts _ Wl) as (Wf & C & R & O).
  destruct (ptext_core L F Wf O) as (X & pad & E & P & T & LX & HX & HS).
  pose proof (nest_quiet L [] Nn ltac:(constructor)) as LF. rewrite app_nil_r, E in LF. apply lone_free_prefix in LF.
  assert (EN : N = norm X) by (unfold N, ntext; rewrite norm_sq with (s := X); symmetry; apply (sq_core L X pad); auto).
  assert (A : Forall ascii (ptext L)) by (apply ptext_ascii; auto). rewrite E in A. apply Forall_app in A. destruct A as (A & _).
  assert (AN : Forall ascii N) by (rewrite EN; apply norm_ascii; auto).
  split; [|split; [|split; [|split]]]; auto.
  - apply trim_space_id. destruct L as [|p L].
    { rewrite EN. destruct HX as (_ & HX). rewrite HX by auto. split; reflexivity. }
    destruct HS as (t & Et); [discriminate|]. assert (NX : X <> []) by (rewrite Et; discriminate).
    apply trimmed_ends; auto.
    + rewrite EN, Et, norm_sq. unfold sq. rewrite sqF_hd by reflexivity. eauto.
    + destruct LX as [LX|LX]; [congruence|]. rewrite EN. destruct (norm_last X NX LX) as (_ & ->).
      apply trimmed_last; auto.
  - rewrite EN. apply nrm_norm_id. apply nrm_norm; auto.
  - rewrite EN, norm_sq, bal_sq by lia. rewrite <- (bal_pad pad P X 0 0), <- E by lia. apply bal_ptext; auto.
  - rewrite EN. apply no_occ_norm.
    pose proof (dtext_nostream [] L [] ltac:(constructor) ltac:(constructor) F C) as NS.
    unfold dtext in NS. rewrite app_nil_r in NS. cbn [app] in NS. apply no_occ_suffix in NS. apply no_occ_pre in NS.
    rewrite E in NS. apply no_occ_pre in NS. exact NS.
Qed.

(** Reading the value of such an entry. *)
Theorem nest_read : forall lead L, wsp lead -> nestable L ->
  readProperties (norm (dtext lead L)) = Ok (map nprop (map pc_prop L)).
Proof.
  intros lead L W N. rewrite norm_dtext by auto. pose proof (ntext_facts L N) as (T & Nm & _ & _ & NS).
  set (X := ntext (map pc_prop L)) in *.
  assert (NS' : no_occ stream_kw (B"<<" ++ X ++ B">>" ++ [])).
  { change (B"<<" ++ X ++ B">>" ++ []) with (60 :: 60 :: X ++ 62 :: [62]).
    assert (Hn : forall x, x = 60 \/ x = 62 -> ~ In x stream_kw) by (intros x H Hx; cbn in Hx; lia).
    apply (no_occ_sep _ [] 60); [discriminate|apply Hn; auto|apply no_occ_nil|].
    apply (no_occ_sep _ [] 60); [discriminate|apply Hn; auto|apply no_occ_nil|].
    apply no_occ_sep; [discriminate|apply Hn; auto|auto|].
    apply (no_occ_sep _ [] 62); [discriminate|apply Hn; auto|apply no_occ_nil|apply no_occ_nil]. }
  pose proof (read_wrap X [] ltac:(constructor) NS') as R. rewrite app_nil_r in R. rewrite R, T, Nm. unfold X, ntext.
  destruct N as (_ & Wl & _). destruct (wlist_parts _ Wl) as (Wf & _ & Ru & O). apply parse_body; auto.
Qed.

(** Such a value is fit to be written. *)
Theorem nest_wvalue : forall lead L, wsp lead -> nestable L -> wvalue (dtext lead L) /\ quiet (dtext lead L) /\
  bal 0 0 (dtext lead L) = true.
Proof.
  intros lead L W N. pose proof N as (F & Wl & Bl & Q). destruct (wlist_parts _ Wl) as (Wf & C & R & O).
  assert (E : exists u, dtext lead L = u ++ [62]).
  { exists (B"<<" ++ lead ++ ptext L ++ [62]). unfold dtext. rewrite <- !app_assoc. reflexivity. }
  destruct E as (u & Eu).
  assert (Hd : dtext lead L = 60 :: 60 :: lead ++ ptext L ++ B">>") by reflexivity.
  split; [|split].
  - split; [rewrite Hd; discriminate|]. split.
    { right. exists 60, (60 :: lead ++ ptext L ++ B">>"). split; [auto|]. split; [reflexivity|]. split; [lia|]. split; [lia|].
      rewrite Eu. unfold last_nws. rewrite rev_app_distr. reflexivity. }
    split. { rewrite Hd. constructor; [unfold ascii; lia|]. constructor; [unfold ascii; lia|]. apply Forall_app. split; [apply wsp_ascii; auto|].
      apply Forall_app. split; [apply ptext_ascii; auto|]. repeat constructor; unfold ascii; lia. }
    split. { rewrite Hd. unfold norm4. rewrite collapse_hd, !strip_hd by reflexivity. exact I. }
    split. { pose proof (dtext_nostream lead L [] W ltac:(constructor) F C) as NS. rewrite app_nil_r in NS. exact NS. }
    split. { rewrite norm_dtext by auto. apply bal_dict. apply (ntext_facts L N). }
    rewrite Eu, last_last. reflexivity.
  - apply quiet_dtext; auto.
  - rewrite Hd. change (bal 0 0 (60 :: 60 :: lead ++ ptext L ++ B">>")) with (bal 2 0 (lead ++ ptext L ++ B">>")).
    assert (G : forall x c1 c2, bal c1 c2 x = true -> 0 <= c1 -> bal (c1 + 2) c2 (x ++ [62; 62]) = true).
    { induction x as [|r x IH]; intros c1 c2 H H1; cbn [bal app] in *.
      - replace c1 with 0 by lia. replace c2 with 0 by lia. reflexivity.
      - apply andb_true_iff in H. destruct H as (H & H2). apply andb_true_iff in H. destruct H as (Ha & Hb).
        assert (Cc : cnt1 r (c1 + 2) = cnt1 r c1 + 2) by (unfold cnt1; destruct (r =? 60), (r =? 62); lia).
        rewrite Cc, Hb. replace (0 <=? cnt1 r c1 + 2) with true by lia. cbn [andb]. apply IH; [auto|lia]. }
    rewrite app_assoc. change 2 with (0 + 2) at 1. apply G; [|lia]. rewrite bal_wsp by auto. apply bal_ptext; auto.
Qed.
