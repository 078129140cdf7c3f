(** Reading a dictionary that was written entry by entry with any white space
    between the parts, on its own or inside another dictionary. *)
From Coq Require Import String List ZArith Lia Bool.
From Verif Require Import Base BaseProofs Props PropsFlat PropsWrite PropsRead PropsNorm PropsStable PropsRefs PagesEdit Squeeze.
Open Scope Z_scope.
Open Scope list_scope.

(** One entry: name, white space, value, white space. *)
Record piece := mkPc { pc_key : bytes; pc_gap : bytes; pc_val : bytes; pc_end : bytes }.
Definition pc_prop (p : piece) : prop := mkProp (pc_key p) (pc_val p).
Definition pc_text (p : piece) : bytes := 47 :: pc_key p ++ pc_gap p ++ pc_val p ++ pc_end p.
Definition ptext (L : list piece) : bytes := flat_map pc_text L.
Definition pc_ok (p : piece) : Prop := wsp (pc_gap p) /\ pc_gap p <> [] /\ wsp (pc_end p).

Lemma body_cons : forall p ps, body (p :: ps) = 47 :: pkey p ++ 32 :: pval p ++ body ps.
Proof. intros. unfold body. cbn [flat_map]. rewrite <- !app_assoc. reflexivity. Qed.
Lemma ptext_cons : forall p L, ptext (p :: L) = 47 :: pc_key p ++ pc_gap p ++ pc_val p ++ pc_end p ++ ptext L.
Proof. intros. unfold ptext. cbn [flat_map]. unfold pc_text at 1. cbn [app]. rewrite <- !app_assoc. reflexivity. Qed.
Lemma ptext_app : forall L M, ptext (L ++ M) = ptext L ++ ptext M.
Proof. intros. unfold ptext. apply flat_map_app. Qed.

Lemma ptext_slash : forall L, exists t, ptext L ++ [47] = 47 :: t.
Proof. intros [|p L]; [exists []; reflexivity|]. rewrite ptext_cons. cbn [app]. eauto. Qed.

Lemma pieces_sq : forall L a, Forall pc_ok L ->
  sq (a ++ ptext L ++ [47]) = sq (a ++ body (map pc_prop L) ++ [47]).
Proof.
  induction L as [|p L IH]; intros a F; [reflexivity|].
  inversion F as [|? ? (G1 & G2 & G3) F']; subst. cbn [map]. rewrite body_cons, ptext_cons. cbn [pc_prop pkey pval].
  destruct (pc_gap p) as [|c g] eqn:Eg; [congruence|]. inversion G1 as [|? ? C G]; subst.
  replace (a ++ (47 :: pc_key p ++ (c :: g) ++ pc_val p ++ pc_end p ++ ptext L) ++ [47])
    with ((a ++ 47 :: pc_key p) ++ c :: g ++ (pc_val p ++ pc_end p ++ ptext L ++ [47]))
    by (repeat (rewrite <- ?app_assoc; cbn [app]); reflexivity).
  rewrite sq_run by auto.
  replace ((a ++ 47 :: pc_key p) ++ 32 :: pc_val p ++ pc_end p ++ ptext L ++ [47])
    with ((a ++ 47 :: pc_key p ++ 32 :: pc_val p) ++ pc_end p ++ (ptext L ++ [47]))
    by (repeat (rewrite <- ?app_assoc; cbn [app]); reflexivity).
  destruct (ptext_slash L) as (t & Et). rewrite Et, sq_gap_slash, <- Et by auto. rewrite IH by auto.
  f_equal. repeat (rewrite <- ?app_assoc; cbn [app]). reflexivity.
Qed.

Lemma wsp_space : forall w, wsp w -> forallb is_space1 w = true.
Proof.
  intros w W. apply forallb_forall. intros c H. unfold wsp in W. rewrite Forall_forall in W. apply W in H.
  unfold is_ws4, is_space1 in *. lia.
Qed.

Lemma trimmed_ends : forall X, Forall ascii X -> (exists t, X = 47 :: t) -> is_space1 (last X 0) = false -> trimmed X.
Proof.
  intros X A (t & E) L. split.
  - rewrite E. apply space_len_cons; [unfold ascii; lia|reflexivity].
  - destruct (exists_last (l := X)) as (a & y & Ey); [rewrite E; discriminate|]. rewrite Ey, last_last in L.
    rewrite Ey in *. rewrite rev_app_distr. cbn [rev app]. apply rspace_len_cons; auto.
    apply Forall_app in A. destruct A as [_ A]. inversion A; auto.
Qed.

Lemma wsp_ascii : forall w, wsp w -> Forall ascii w.
Proof. intros w W. eapply Forall_impl; [|exact W]. intros c H. unfold ascii, is_ws4 in *. lia. Qed.
Lemma key_ascii : forall k, Forall key_char k -> Forall ascii k.
Proof. intros k F. eapply Forall_impl; [|exact F]. intros c (H & _). exact H. Qed.

Lemma ptext_ascii : forall L, Forall pc_ok L -> Forall wf_prop (map pc_prop L) -> Forall ascii (ptext L).
Proof.
  induction 1 as [|p L (G1 & G2 & G3) F IH]; intros W; [constructor|]. inversion W as [|? ? (K & S & A & _) W']; subst.
  rewrite ptext_cons. cbn [pc_prop pkey pval] in *. constructor; [unfold ascii; lia|].
  repeat (apply Forall_app; split); auto using wsp_ascii, key_ascii.
Qed.

(** The text of the entries without the white space at the end. *)
Lemma ptext_core : forall L, Forall pc_ok L -> Forall wf_prop (map pc_prop L) -> last_ok (map pc_prop L) ->
  exists X pad, ptext L = X ++ pad /\ wsp pad /\ trimmed X /\ (X = [] \/ last_nws X) /\ (X = [] <-> L = []) /\
    (L <> [] -> (exists t, X = 47 :: t)).
Proof.
  intros L F W O. destruct L as [|p0 L0] eqn:EL.
  { exists [], []. repeat split; auto; try constructor; try tauto; congruence. }
  rewrite <- EL in *. destruct (exists_last (l := L)) as (L1 & p & E); [congruence|]. clear p0 L0 EL.
  assert (A : Forall ascii (ptext L)) by (apply ptext_ascii; auto).
  subst L. rewrite map_app in O. specialize (O (map pc_prop L1) (pc_prop p) eq_refl). cbn [pc_prop pkey pval] in O.
  apply Forall_app in F. destruct F as (F1 & F2). inversion F2 as [|? ? (G1 & G2 & G3) _]; subst.
  set (X := ptext L1 ++ 47 :: pc_key p ++ match pc_val p with [] => [] | _ => pc_gap p ++ pc_val p end).
  set (pad := match pc_val p with [] => pc_gap p ++ pc_end p | _ => pc_end p end).
  assert (E : ptext (L1 ++ [p]) = X ++ pad).
  { rewrite ptext_app, ptext_cons. unfold X, pad. cbn [ptext flat_map]. rewrite app_nil_r.
    destruct (pc_val p); repeat (rewrite <- ?app_assoc; cbn [app]); reflexivity. }
  assert (Lx : last X 0 = last (47 :: pc_key p ++ pc_val p) 0).
  { unfold X. rewrite last_app_nn by discriminate. destruct (pc_val p) as [|c v]; [reflexivity|].
    change (47 :: pc_key p ++ pc_gap p ++ c :: v) with ((47 :: pc_key p) ++ pc_gap p ++ c :: v).
    change (47 :: pc_key p ++ c :: v) with ((47 :: pc_key p) ++ c :: v).
    rewrite (app_assoc (47 :: pc_key p)). rewrite !last_app_nn by discriminate. reflexivity. }
  assert (Nx : X <> []) by (unfold X; destruct (ptext L1); discriminate).
  assert (Hx : exists t, X = 47 :: t).
  { unfold X. destruct L1 as [|q L1]; [cbn [ptext flat_map app]; eauto|]. rewrite ptext_cons. cbn [app]. eauto. }
  exists X, pad. split; [auto|]. split.
  { unfold pad. destruct (pc_val p); auto. apply Forall_app. auto. }
  rewrite E in A. apply Forall_app in A. destruct A as (A & _).
  split; [apply trimmed_ends; auto; congruence|].
  split; [right; apply last_nws_last; auto; congruence|].
  split; [split; intros H; [congruence|destruct L1; discriminate]|auto].
Qed.

Lemma body_pad : forall ps pad, body ps = rend (ents_of ps) ++ pad -> forall c, In c pad -> is_ws4 c = true.
Proof.
  induction ps as [|p ps IH]; intros pad E c Hc.
  - cbn in E. subst. destruct Hc.
  - rewrite body_cons in E. cbn [ents_of] in E. unfold rend in E. cbn [flat_map] in E. fold (rend (ents_of ps)) in E.
    unfold rend1 in E. cbn [efl ekey eval] in E. repeat (rewrite <- ?app_assoc in E; cbn [app] in E). inversion E as [E1]. clear E.
    apply app_inv_head in E1. destruct ps as [|q ps].
    + destruct (pval p) as [|x v].
      * cbn in E1. subst pad. destruct Hc as [<-|[]]. reflexivity.
      * cbn [app body flat_map ents_of rend] in E1. inversion E1 as [E2]. rewrite app_nil_r in E2.
        rewrite <- (app_nil_r v) in E2 at 1. apply app_inv_head in E2. subst pad. destruct Hc.
    + apply (f_equal (@tl Z)) in E1. cbn [tl app] in E1. apply app_inv_head in E1. eapply IH; eauto.
Qed.

Lemma sq_core : forall L X pad, Forall pc_ok L -> Forall wf_prop (map pc_prop L) -> last_ok (map pc_prop L) ->
  ptext L = X ++ pad -> wsp pad -> (X = [] \/ last_nws X) ->
  sq X = norm (trim_space ([10] ++ body (map pc_prop L))).
Proof.
  intros L X pad F W O E P LX. destruct (body_rend (map pc_prop L)) as (pad' & Eb & Hp).
  pose proof (ents_trimmed _ W O) as T. rewrite Eb, trim_space_pad by auto. rewrite norm_sq.
  assert (P' : wsp pad').
  { apply Forall_forall. intros c Hc. eapply body_pad; eauto. }
  assert (LR : rend (ents_of (map pc_prop L)) = [] \/ last_nws (rend (ents_of (map pc_prop L)))).
  { destruct (rend (ents_of (map pc_prop L))) as [|c r] eqn:R; auto. right. rewrite <- R in *.
    apply last_nws_last; [congruence|]. apply trimmed_last; auto; [|congruence].
    apply rend_ascii; clear -W; induction W as [|q l (K & S & A & _) W IH]; cbn [ents_of]; constructor; auto. split; auto. }
  pose proof (pieces_sq L [] F) as S. cbn [app] in S. rewrite E, Eb, <- !app_assoc in S.
  rewrite !sq_end in S by auto. apply app_inv_tail in S. exact S.
Qed.

(** ** The keyword of a stream does not appear *)
Lemma no_occ_nil : no_occ stream_kw [].
Proof. intros n (a & b & E & _). destruct a; discriminate. Qed.

Lemma ws_notin : forall c, is_ws4 c = true -> ~ In c stream_kw.
Proof. intros c H C. cbn in C. unfold is_ws4 in H. lia. Qed.

Lemma no_occ_ws : forall w a c r, wsp w -> ~ In c stream_kw -> no_occ stream_kw a -> no_occ stream_kw (c :: r) ->
  no_occ stream_kw (a ++ w ++ c :: r).
Proof.
  induction w as [|d w IH]; intros a c r W C Ha Hr.
  - cbn [app]. apply no_occ_sep; auto; [discriminate|]. apply (no_occ_suffix _ [c]) in Hr. exact Hr.
  - inversion W; subst. cbn [app]. apply no_occ_sep; auto; [discriminate|apply ws_notin; auto|].
    apply (IH []); auto. apply no_occ_nil.
Qed.

Lemma ptext_nostream : forall L c r, Forall pc_ok L -> Forall clean (map pc_prop L) -> ~ In c stream_kw ->
  no_occ stream_kw (c :: r) -> no_occ stream_kw (ptext L ++ c :: r).
Proof.
  induction L as [|p L IH]; intros c r F Cl C Hr; [exact Hr|].
  inversion F as [|? ? (G1 & G2 & G3) F']; inversion Cl as [|? ? (C1 & C2) Cl']; subst. cbn [pc_prop pkey pval] in *.
  specialize (IH c r F' Cl' C Hr). rewrite ptext_cons. cbn [app]. rewrite <- !app_assoc.
  apply (no_occ_sep _ [] 47); [discriminate|intros H; cbn in H; lia|apply no_occ_nil|].
  destruct (pc_gap p) as [|d g] eqn:Eg; [congruence|]. inversion G1; subst. cbn [app].
  apply no_occ_sep; auto; [discriminate|apply ws_notin; auto|].
  assert (T : no_occ stream_kw (pc_val p ++ pc_end p ++ ptext L ++ c :: r)).
  { destruct L as [|q L]; [apply no_occ_ws; auto|]. rewrite ptext_cons in *. cbn [app] in *. apply no_occ_ws; auto.
    intros X. cbn in X. lia. }
  clear -T H2. induction g as [|x g IH]; [exact T|]. inversion H2; subst. cbn [app].
  apply (no_occ_sep _ [] x); [discriminate|apply ws_notin; auto|apply no_occ_nil|auto].
Qed.

Lemma wsp_nostream : forall w, wsp w -> no_occ stream_kw w.
Proof.
  induction 1 as [|c w C W IH]; [apply no_occ_nil|].
  apply (no_occ_sep _ [] c); [discriminate|apply ws_notin; auto|apply no_occ_nil|auto].
Qed.

Definition dtext (lead : bytes) (L : list piece) : bytes := B"<<" ++ lead ++ ptext L ++ B">>".

Lemma dtext_nostream : forall lead L tail, wsp lead -> wsp tail -> Forall pc_ok L -> Forall clean (map pc_prop L) ->
  no_occ stream_kw (dtext lead L ++ tail).
Proof.
  intros lead L tail W1 W2 F C. unfold dtext. rewrite <- !app_assoc. change (B">>") with [62; 62]. cbn [app].
  assert (N : forall x, x = 60 \/ x = 62 -> ~ In x stream_kw) by (intros x H X; cbn in X; lia).
  assert (T : no_occ stream_kw (62 :: 62 :: tail)).
  { apply (no_occ_sep _ [] 62); [discriminate|apply N; auto|apply no_occ_nil|].
    apply (no_occ_sep _ [] 62); [discriminate|apply N; auto|apply no_occ_nil|apply wsp_nostream; auto]. }
  assert (T2 : no_occ stream_kw (ptext L ++ 62 :: 62 :: tail)) by (apply ptext_nostream; auto).
  change (B"<<" ++ lead ++ ptext L ++ 62 :: 62 :: tail) with (60 :: 60 :: lead ++ ptext L ++ 62 :: 62 :: tail).
  apply (no_occ_sep _ [] 60); [discriminate|apply N; auto|apply no_occ_nil|].
  apply (no_occ_sep _ [] 60); [discriminate|apply N; auto|apply no_occ_nil|].
  clear -T2 W1. induction W1 as [|x g X W IH]; [exact T2|]. cbn [app].
  apply (no_occ_sep _ [] x); [discriminate|apply ws_notin; auto|apply no_occ_nil|auto].
Qed.

(** ** Reading what stands between the brackets *)
Lemma read_wrap : forall X tail, wsp tail -> no_occ stream_kw (B"<<" ++ X ++ B">>" ++ tail) ->
  readProperties (B"<<" ++ X ++ B">>" ++ tail) = parse_props (norm (trim_space X)).
Proof.
  intros X tail W N. unfold readProperties. apply index_none in N. rewrite N.
  assert (I1 : index (B"<<") (B"<<" ++ X ++ B">>" ++ tail) = Some 0%nat) by reflexivity. rewrite I1.
  set (n := (2 + List.length X)%nat).
  assert (LI : last_index (B">>") (B"<<" ++ X ++ B">>" ++ tail) = Some n).
  { apply last_index_intro.
    - exists (B"<<" ++ X), tail. split; [rewrite <- !app_assoc; reflexivity|]. unfold n. rewrite app_length. reflexivity.
    - intros m Hm (a & b & Eb & La).
      assert (Q : nth_error (B"<<" ++ X ++ B">>" ++ tail) (S m) = Some 62).
      { rewrite Eb, nth_error_app2 by lia. replace (S m - List.length a)%nat with 1%nat by lia. reflexivity. }
      rewrite (app_assoc (B"<<")), (app_assoc (B"<<" ++ X)) in Q.
      assert (Ln : List.length ((B"<<" ++ X) ++ B">>") = (n + 2)%nat).
      { rewrite !app_length. unfold n. change (List.length (B"<<")) with 2%nat. change (List.length (B">>")) with 2%nat. lia. }
      rewrite nth_error_app2 in Q by lia.
      apply nth_error_In in Q. unfold wsp in W. rewrite Forall_forall in W. apply W in Q. discriminate. }
  rewrite LI. destruct (Nat.ltb_spec n 0); [lia|].
  assert (SL : slice (B"<<" ++ X ++ B">>" ++ tail) (Z.of_nat 0 + 2) (Z.of_nat n) = Ok X).
  { apply slice_app; [reflexivity|]. unfold n, blen. change (List.length (B"<<")) with 2%nat. lia. }
  rewrite SL. reflexivity.
Qed.

Definition nprop (p : prop) : prop := mkProp (pkey p) (norm (pval p)).

Lemma wlist_parts : forall ps, wlist ps -> Forall wf_prop ps /\ Forall clean ps /\ wf_run ps /\ last_ok ps.
Proof.
  intros ps (H1 & H2 & H3). split; [|split; [|auto]]; (eapply Forall_impl; [|exact H1]); cbn beta; tauto.
Qed.

(** A dictionary on its own. *)
Theorem pieces_read : forall lead L tail, wsp lead -> wsp tail -> Forall pc_ok L -> wlist (map pc_prop L) ->
  readProperties (dtext lead L ++ tail) = Ok (map nprop (map pc_prop L)).
Proof.
  intros lead L tail W1 W2 F Wl. destruct (wlist_parts _ Wl) as (W & C & R & O).
  destruct (ptext_core L F W O) as (X & pad & E & P & T & LX & _).
  pose proof (dtext_nostream lead L tail W1 W2 F C) as NS. unfold dtext in *.
  replace ((B"<<" ++ lead ++ ptext L ++ B">>") ++ tail) with (B"<<" ++ (lead ++ ptext L) ++ B">>" ++ tail) in *
    by (rewrite <- !app_assoc; reflexivity).
  rewrite read_wrap by auto. rewrite E, trim_space_pad by (auto using wsp_space).
  rewrite norm_sq, (sq_core L X pad) by auto. apply parse_body; auto.
Qed.
