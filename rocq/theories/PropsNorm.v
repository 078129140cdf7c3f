(** Reading gives entries that survive rewriting. *)
From Coq Require Import String List ZArith Lia Bool Btauto.
From Verif Require Import Base BaseProofs Props PropsFlat PropsWrite PropsRead.
Open Scope Z_scope.
Open Scope list_scope.

(** ** Normalised text *)
Definition nws_head (t : bytes) : bool := match t with [] => false | c :: _ => negb (is_ws4 c) end.

Fixpoint nrmF (bad : bytes -> bool) (s : bytes) : bool :=
  match s with
  | [] => true
  | c :: t => (if is_ws4 c then (c =? 32) && nws_head t && negb (bad t) else true) && nrmF bad t
  end.

(** A single '<' or '>' followed by white space. *)
Definition lone (t : bytes) : bool :=
  match t with
  | x :: c :: _ => ((x =? 60) || (x =? 62)) && is_ws4 c
  | _ => false
  end.

(** No '<' or '>' stands alone between two white-space characters. *)
Fixpoint lone_free (s : bytes) : bool :=
  match s with
  | [] => true
  | c :: t => negb (is_ws4 c && lone t) && lone_free t
  end.

Lemma last_nws_cons : forall c t, t <> [] -> last_nws t -> last_nws (c :: t).
Proof.
  intros c t Hn H. unfold last_nws in *. cbn [rev].
  destruct (rev t) eqn:E; [apply (f_equal (@rev Z)) in E; rewrite rev_involutive in E; cbn in E; congruence|exact H].
Qed.

Lemma collapse_ws : forall t d, is_ws4 d = true -> exists u, collapse (d :: t) = 32 :: u.
Proof.
  induction t as [|e t IH]; intros d D; cbn [collapse]; rewrite D; [eauto|].
  destruct (is_ws4 e) eqn:E; [|eauto]. specialize (IH e E). cbn [collapse] in IH. rewrite E in IH. exact IH.
Qed.

Lemma lone_collapse : forall x t, is_ws4 x = false -> lone (collapse (x :: t)) = lone (x :: t).
Proof.
  intros x t H. rewrite collapse_hd by auto. destruct t as [|d t]; [reflexivity|].
  destruct (is_ws4 d) eqn:D.
  - destruct (collapse_ws t d D) as [u ->]. cbn [lone]. rewrite D. reflexivity.
  - rewrite collapse_hd by auto. cbn [lone]. rewrite D. reflexivity.
Qed.

Lemma nrm_collapse : forall s, lone_free s = true -> (s = [] \/ last_nws s) -> nrmF lone (collapse s) = true.
Proof.
  induction s as [|c t IH]; intros L N; [reflexivity|].
  cbn [lone_free] in L. apply andb_true_iff in L. destruct L as [L1 L2].
  assert (IHt : nrmF lone (collapse t) = true).
  { apply IH; auto. destruct t; auto. right. destruct N; [discriminate|]. eapply last_nws_tail; eauto. discriminate. }
  cbn [collapse]. destruct (is_ws4 c) eqn:E.
  - destruct t as [|d t].
    + destruct N as [|N]; [discriminate|]. apply last_nws_1 in N. congruence.
    + destruct (is_ws4 d) eqn:D; [exact IHt|].
      cbn [nrmF]. change (is_ws4 32) with true. cbn iota. rewrite IHt, lone_collapse by auto.
      cbn [andb] in L1. rewrite L1. rewrite collapse_hd by auto. cbn [nws_head]. rewrite D. reflexivity.
  - cbn [nrmF]. rewrite E. exact IHt.
Qed.

(** One stripping step adds its pattern to what cannot follow a space. *)
Definition mono_bad (pat : bytes) (bad : bytes -> bool) : Prop :=
  forall t, nws_head t = true -> nrmF lone t = true ->
    bad (strip pat t) = true -> bad t = true.

Lemma nrmF_weaken : forall (b1 b2 : bytes -> bool) s, (forall t, b2 t = true -> b1 t = true) -> nrmF b1 s = true -> nrmF b2 s = true.
Proof.
  intros b1 b2 s H. induction s as [|c t IH]; intros N; [reflexivity|].
  cbn [nrmF] in *. apply andb_true_iff in N. destruct N as [N1 N2]. rewrite IH by auto.
  destruct (is_ws4 c); [|reflexivity]. rewrite andb_true_r.
  apply andb_true_iff in N1. destruct N1 as [N1 N3]. rewrite N1. cbn [andb].
  apply negb_true_iff in N3. apply negb_true_iff.
  destruct (b2 t) eqn:E; auto. rewrite (H t E) in N3. discriminate.
Qed.

Lemma nws_head_skip : forall t, nws_head t = true -> skip_ws t = t.
Proof. intros [|c t] H; [discriminate|]. cbn in *. apply negb_true_iff in H. rewrite H. auto. Qed.

Lemma nws_head_strip : forall pat t, nws_head t = true -> nws_head (strip pat t) = true.
Proof.
  intros pat [|c t] H; [discriminate|]. cbn [nws_head] in H. apply negb_true_iff in H.
  rewrite strip_hd by auto. cbn. rewrite H. auto.
Qed.

Lemma nrm_strip : forall pat bad s,
  mono_bad pat (fun t => bad t || prefixb pat t) ->
  (forall t, lone t = true -> bad t = true) ->
  nrmF bad s = true ->
  nrmF (fun t => bad t || prefixb pat t) (strip pat s) = true.
Proof.
  intros pat bad s M HL. induction s as [|c t IH]; intros N; [reflexivity|].
  cbn [nrmF] in N. apply andb_true_iff in N. destruct N as [N1 N2]. specialize (IH N2).
  cbn [strip]. destruct (is_ws4 c) eqn:E.
  - apply andb_true_iff in N1. destruct N1 as [N1 N3]. apply andb_true_iff in N1. destruct N1 as [N1 N4].
    cbn [andb]. rewrite nws_head_skip by auto.
    destruct (prefixb pat t) eqn:P; [exact IH|].
    cbn [nrmF]. rewrite E, N1, nws_head_strip, IH by auto. cbn [andb]. rewrite andb_true_r.
    apply negb_true_iff. match goal with |- ?g = false => destruct g eqn:G; auto end.
    apply M in G; auto.
    + apply negb_true_iff in N3. rewrite N3, P in G. discriminate.
    + eapply nrmF_weaken; eauto.
  - cbn [andb nrmF]. rewrite E. exact IH.
Qed.

Definition bad1 t := lone t || prefixb [47] t.
Definition bad2 t := bad1 t || prefixb [91] t.
Definition bad3 t := bad2 t || prefixb [93] t.
Definition bad4 t := bad3 t || prefixb [60; 60] t.
Definition badA t := bad4 t || prefixb [62; 62] t.
Definition nrm (s : bytes) : bool := nrmF badA s.

Lemma strip_lone_mono : forall pat, mono_bad pat lone.
Proof.
  intros pat [|x t] H N G; [discriminate|]. cbn [nws_head] in H. apply negb_true_iff in H.
  rewrite strip_hd in G by auto. destruct t as [|c t]; [exact G|].
  cbn [lone]. destruct (is_ws4 c) eqn:C.
  - destruct (strip pat (c :: t)); [discriminate|]. cbn [lone] in G. apply andb_true_iff in G. destruct G as [G _].
    rewrite G. reflexivity.
  - rewrite strip_hd in G by auto. cbn [lone] in G. rewrite C, andb_false_r in G. discriminate.
Qed.

Lemma prefix1_mono : forall pat p, mono_bad pat (prefixb [p]).
Proof.
  intros pat p [|x t] H N G; [discriminate|]. cbn [nws_head] in H. apply negb_true_iff in H.
  rewrite strip_hd in G by auto. exact G.
Qed.

Lemma mono_or : forall pat b1 b2, mono_bad pat b1 -> mono_bad pat b2 -> mono_bad pat (fun t => b1 t || b2 t).
Proof.
  intros pat b1 b2 M1 M2 t H N G. apply orb_true_iff in G. apply orb_true_iff.
  destruct G as [G|G]; [left|right]; auto.
Qed.

(** A double bracket can only appear if a lone one was there before. *)
Lemma prefix2_mono : forall pat p, (p = 60 \/ p = 62) ->
  mono_bad pat (fun t => lone t || prefixb [p; p] t).
Proof.
  intros pat p Hp t H N G. apply orb_true_iff in G. apply orb_true_iff.
  destruct G as [G|G]; [left; apply (strip_lone_mono pat); auto|].
  destruct t as [|x t]; [discriminate|]. cbn [nws_head] in H. apply negb_true_iff in H.
  rewrite strip_hd in G by auto. destruct t as [|c t]; [right; exact G|].
  cbn [prefixb] in G. apply andb_true_iff in G. destruct G as [G1 G2].
  destruct (is_ws4 c) eqn:C.
  - left. cbn [lone]. rewrite C. destruct Hp; subst; lia.
  - right. rewrite strip_hd in G2 by auto. cbn [prefixb]. rewrite G1. exact G2.
Qed.

Lemma mono_ext : forall pat b1 b2, (forall t, b1 t = b2 t) -> mono_bad pat b1 -> mono_bad pat b2.
Proof. intros pat b1 b2 E M t H N G. rewrite <- E in *. auto. Qed.

Lemma mono_bad3 : forall pat, mono_bad pat bad3.
Proof.
  intros pat. unfold bad3, bad2, bad1.
  repeat apply mono_or; try apply prefix1_mono; apply strip_lone_mono.
Qed.
Lemma mono_bad4 : forall pat, mono_bad pat bad4.
Proof.
  intros pat. apply mono_ext with (b1 := fun t => bad3 t || (lone t || prefixb [60; 60] t)).
  - intros t. unfold bad4, bad3, bad2, bad1. btauto.
  - apply mono_or; [apply mono_bad3|apply prefix2_mono; auto].
Qed.
Lemma mono_badA : forall pat, mono_bad pat badA.
Proof.
  intros pat. apply mono_ext with (b1 := fun t => bad4 t || (lone t || prefixb [62; 62] t)).
  - intros t. unfold badA, bad4, bad3, bad2, bad1. btauto.
  - apply mono_or; [apply mono_bad4|apply prefix2_mono; auto].
Qed.

Lemma nrm_norm : forall s, lone_free s = true -> (s = [] \/ last_nws s) -> nrm (norm s) = true.
Proof.
  intros s L N. unfold nrm, norm.
  change (B"/") with [47]. change (B"[") with [91]. change (B"]") with [93].
  change (B"<<") with [60; 60]. change (B">>") with [62; 62].
  apply (nrm_strip [62; 62] bad4); [apply mono_badA|intros t Ht; unfold bad4, bad3, bad2, bad1; rewrite Ht; reflexivity|].
  apply (nrm_strip [60; 60] bad3); [apply mono_bad4|intros t Ht; unfold bad3, bad2, bad1; rewrite Ht; reflexivity|].
  apply (nrm_strip [93] bad2); [apply mono_bad3|intros t Ht; unfold bad2, bad1; rewrite Ht; reflexivity|].
  apply (nrm_strip [91] bad1); [|intros t Ht; unfold bad1; rewrite Ht; reflexivity|].
  { repeat apply mono_or; try apply prefix1_mono; apply strip_lone_mono. }
  apply (nrm_strip [47] lone); [|auto|].
  { repeat apply mono_or; try apply prefix1_mono; apply strip_lone_mono. }
  apply nrm_collapse; auto.
Qed.

(** Normalised text is left alone. *)
Lemma nrm_collapse_id : forall bad s, nrmF bad s = true -> collapse s = s.
Proof.
  intros bad. induction s as [|c t IH]; intros N; [reflexivity|].
  cbn [nrmF] in N. apply andb_true_iff in N. destruct N as [N1 N2].
  cbn [collapse]. destruct (is_ws4 c).
  - destruct t as [|d t].
    + rewrite andb_false_r in N1. discriminate.
    + cbn [nws_head] in N1. destruct (is_ws4 d); [rewrite andb_false_r in N1; discriminate|].
      rewrite IH by auto. f_equal. lia.
  - f_equal; auto.
Qed.

Lemma nrm_strip_id : forall bad pat s, (forall t, prefixb pat t = true -> bad t = true) ->
  nrmF bad s = true -> strip pat s = s.
Proof.
  intros bad pat s H. induction s as [|c t IH]; intros N; [reflexivity|].
  cbn [nrmF] in N. apply andb_true_iff in N. destruct N as [N1 N2].
  cbn [strip]. rewrite IH by auto. destruct (is_ws4 c) eqn:E; [|reflexivity].
  apply andb_true_iff in N1. destruct N1 as [N1 N3]. apply andb_true_iff in N1. destruct N1 as [N1 N4].
  rewrite nws_head_skip by auto. destruct (prefixb pat t) eqn:P; [|reflexivity].
  rewrite (H t P) in N3. discriminate.
Qed.

Lemma nrm_norm4_id : forall s, nrm s = true -> norm4 s = s.
Proof.
  intros s N. unfold nrm in N. unfold norm4. rewrite (nrm_collapse_id _ _ N).
  assert (H : forall p, (forall t, prefixb p t = true -> badA t = true) -> strip p s = s)
    by (intros; apply (nrm_strip_id badA); auto).
  rewrite (H (B"/")), (H (B"[")), (H (B"]")), (H (B"<<")); auto;
    intros t Ht; unfold badA, bad4, bad3, bad2, bad1; rewrite !orb_true_iff; auto 10.
Qed.

Lemma nrm_norm_id : forall s, nrm s = true -> norm s = s.
Proof.
  intros s N. change (norm s) with (strip (B">>") (norm4 s)). rewrite nrm_norm4_id by auto.
  apply (nrm_strip_id badA); auto.
  intros t Ht. unfold badA. apply orb_true_iff. right. exact Ht.
Qed.

(** Parts of normalised text. *)
Lemma nrm_suffix : forall bad a s, nrmF bad (a ++ s) = true -> nrmF bad s = true.
Proof.
  induction a as [|c a IH]; intros s N; auto. cbn [app nrmF] in N. apply andb_true_iff in N. apply IH. tauto.
Qed.

Lemma prefixb_app_mono : forall p x b, prefixb p x = true -> prefixb p (x ++ b) = true.
Proof.
  induction p as [|c p IH]; intros [|d x] b H; cbn [prefixb app] in *; try reflexivity; try discriminate.
  apply andb_true_iff in H. destruct H as [H1 H2]. rewrite H1, IH; auto.
Qed.

Lemma badA_app : forall x b, badA x = true -> badA (x ++ b) = true.
Proof.
  intros x b. unfold badA, bad4, bad3, bad2, bad1. rewrite !orb_true_iff.
  intros [[[[[H|H]|H]|H]|H]|H]; auto 10 using prefixb_app_mono.
  do 5 left. destruct x as [|c [|d x]]; try discriminate. exact H.
Qed.

Lemma nrm_prefix : forall v b, nrm (v ++ b) = true -> (v = [] \/ last_nws v) -> nrm v = true.
Proof.
  unfold nrm. induction v as [|c v IH]; intros b N L; [reflexivity|].
  cbn [app nrmF] in *. apply andb_true_iff in N. destruct N as [N1 N2].
  assert (L' : v = [] \/ last_nws v).
  { destruct v; auto. right. destruct L; [discriminate|]. eapply last_nws_tail; eauto. discriminate. }
  rewrite (IH b) by auto. destruct (is_ws4 c) eqn:E; [|reflexivity].
  apply andb_true_iff in N1. destruct N1 as [N1 N3]. apply andb_true_iff in N1. destruct N1 as [N1 N4].
  rewrite N1. destruct v as [|d v].
  { destruct L as [|L]; [discriminate|]. apply last_nws_1 in L. congruence. }
  cbn [app nws_head] in *. rewrite N4. cbn [andb]. rewrite andb_true_r.
  apply negb_true_iff. apply negb_true_iff in N3. destruct (badA (d :: v)) eqn:G; auto.
  apply (badA_app _ b) in G. cbn [app] in G. congruence.
Qed.

Lemma nrm_last : forall v t, nrm (v ++ t) = true -> badA t = true -> v <> [] -> last_nws v.
Proof.
  unfold nrm. induction v as [|c v IH]; intros t N Bt Hn; [congruence|].
  cbn [app nrmF] in N. apply andb_true_iff in N. destruct N as [N1 N2].
  destruct v as [|d v].
  - unfold last_nws. cbn. destruct (is_ws4 c) eqn:E; auto.
    cbn [app] in N1. rewrite Bt in N1. rewrite andb_false_r in N1. discriminate.
  - apply last_nws_cons; [discriminate|]. eapply IH; eauto. discriminate.
Qed.

(** ** "stream" is not created *)
Definition in_stream (c : Z) : bool := (c =? 115) || (c =? 116) || (c =? 114) || (c =? 101) || (c =? 97) || (c =? 109).

Lemma no_occ_prefix : forall p s, no_occ p s <-> (prefixb p s = false /\ match s with [] => True | _ :: t => no_occ p t end).
Proof.
  intros p s. split.
  - intros H. split.
    + destruct (prefixb p s) eqn:E; auto. apply prefixb_spec in E. destruct E as [b E].
      exfalso. apply (H 0%nat). exists [], b. auto.
    + destruct s as [|c s]; auto. intros n (a & b & E & L). apply (H (S n)). exists (c :: a), b. subst. auto.
  - intros [H1 H2] n (a & b & E & L). destruct a as [|c a].
    + cbn in E. assert (prefixb p s = true); [|congruence]. apply prefixb_spec. eauto.
    + destruct s as [|c' s]; [discriminate|]. inversion E; subst. apply (H2 (List.length a)). exists a, b. auto.
Qed.

Lemma no_occ_suffix : forall p a s, no_occ p (a ++ s) -> no_occ p s.
Proof.
  induction a as [|c a IH]; intros s H; auto. apply IH. cbn [app] in H. apply no_occ_prefix in H. tauto.
Qed.
Lemma no_occ_pre : forall p a s, no_occ p (a ++ s) -> no_occ p a.
Proof. intros p a s H n (x & y & E & L). apply (H n). exists x, (y ++ s). subst. rewrite <- !app_assoc. auto. Qed.

(** A character that is not in the pattern separates. *)
Lemma no_occ_sep : forall p a c b, p <> [] -> ~ In c p -> no_occ p a -> no_occ p b -> no_occ p (a ++ c :: b).
Proof.
  intros p a c b Hp Hc. induction a as [|d a IH]; intros Ha Hb.
  - cbn [app]. apply no_occ_prefix. split; auto. destruct p as [|x p]; [congruence|].
    cbn. destruct (Z.eqb_spec x c); auto. subst. exfalso. apply Hc. left; auto.
  - apply no_occ_prefix in Ha. destruct Ha as [Ha1 Ha2]. cbn [app]. apply no_occ_prefix. split.
    2:{ apply IH; auto. }
    change (d :: a ++ c :: b) with ((d :: a) ++ c :: b). destruct (prefixb p ((d :: a) ++ c :: b)) eqn:E; auto.
    rewrite <- Ha1. symmetry. clear -E Hc. revert E. generalize (d :: a). revert Hc.
    induction p as [|x p IH]; intros Hc [|y l] E; auto.
    + cbn in E. apply andb_true_iff in E. destruct E as [E _]. exfalso. apply Hc. left. lia.
    + cbn in *. apply andb_true_iff in E. destruct E as [E1 E2]. rewrite E1. cbn. apply IH; auto.
Qed.

Lemma prefixb_strip : forall w pat s, Forall (fun c => is_ws4 c = false) w ->
  (forall x, prefixb pat x = true -> match x with [] => False | c :: _ => is_ws4 c = false /\ ~ In c w end) ->
  prefixb w (strip pat s) = true -> prefixb w s = true.
Proof.
  induction w as [|c w IH]; intros pat s F H P; [destruct s; reflexivity|].
  inversion F; subst.
  induction s as [|d s IHs]; [discriminate|].
  cbn [strip] in P. destruct (is_ws4 d && prefixb pat (skip_ws s)) eqn:E.
  - exfalso. apply andb_true_iff in E. destruct E as [E1 E2].
    assert (G : exists y t, strip pat s = y :: t /\ ~ In y (c :: w)).
    { clear -E2 H. induction s as [|e s IHs].
      - apply (H []) in E2. destruct E2.
      - cbn [skip_ws] in E2. cbn [strip]. destruct (is_ws4 e) eqn:Ee.
        + rewrite E2. cbn [andb]. apply IHs. exact E2.
        + cbn [andb]. exists e, (strip pat s). split; auto. apply H in E2. tauto. }
    destruct G as (y & t & G & Hy). rewrite G in P. cbn in P. apply Hy. left. lia.
  - cbn [prefixb] in *. apply andb_true_iff in P. destruct P as [P1 P2]. rewrite P1. cbn [andb].
    eapply IH; [auto| |exact P2]. intros x Hx. specialize (H x Hx). destruct x; auto.
    destruct H as [Ha Hb]. split; auto. intros C. apply Hb. right. auto.
Qed.

Lemma no_occ_strip : forall w pat s, w <> [] -> Forall (fun c => is_ws4 c = false) w ->
  (forall x, prefixb pat x = true -> match x with [] => False | c :: _ => is_ws4 c = false /\ ~ In c w end) ->
  no_occ w s -> no_occ w (strip pat s).
Proof.
  intros w pat s Hw F H. induction s as [|d s IH]; intros N; auto.
  pose proof N as N0. apply no_occ_prefix in N. destruct N as [N1 N2].
  cbn [strip]. destruct (is_ws4 d && prefixb pat (skip_ws s)) eqn:E; [auto|].
  apply no_occ_prefix. split; [|auto].
  destruct (prefixb w (d :: strip pat s)) eqn:P; auto. rewrite <- N1. symmetry.
  apply prefixb_strip with (pat := pat); auto. cbn [strip]. rewrite E. exact P.
Qed.

Lemma prefixb_collapse : forall w s, Forall (fun c => is_ws4 c = false) w ->
  prefixb w (collapse s) = true -> prefixb w s = true.
Proof.
  induction w as [|c w IH]; intros s F P; [destruct s; reflexivity|]. inversion F; subst.
  destruct s as [|d s]; [discriminate|]. destruct (is_ws4 d) eqn:D.
  - exfalso. pose proof (collapse_ws s d D) as G.
    destruct G as [u G]. rewrite G in P. cbn in P. apply andb_true_iff in P. destruct P as [P _].
    assert (c = 32) by lia. subst. discriminate.
  - rewrite collapse_hd in P by auto. cbn [prefixb] in *. apply andb_true_iff in P. destruct P as [P1 P2].
    rewrite P1. cbn. auto.
Qed.

Lemma no_occ_collapse : forall w s, w <> [] -> Forall (fun c => is_ws4 c = false) w ->
  no_occ w s -> no_occ w (collapse s).
Proof.
  intros w s Hw F. induction s as [|d s IH]; intros N; auto.
  pose proof N as N0. apply no_occ_prefix in N. destruct N as [N1 N2]. specialize (IH N2).
  assert (S32 : no_occ w (32 :: collapse s)).
  { apply (no_occ_sep w [] 32); auto.
    - intros C. rewrite Forall_forall in F. apply F in C. discriminate.
    - intros n (a & b & E & _). destruct a; destruct w; try congruence; discriminate. }
  cbn [collapse]. destruct (is_ws4 d) eqn:D.
  - destruct s as [|e s]; [exact S32|]. destruct (is_ws4 e); auto.
  - apply no_occ_prefix. split; auto. destruct (prefixb w (d :: collapse s)) eqn:P; auto.
    rewrite <- N1. symmetry. apply prefixb_collapse; auto. rewrite collapse_hd by auto. exact P.
Qed.

Lemma no_occ_norm : forall s, no_occ stream_kw s -> no_occ stream_kw (norm s).
Proof.
  intros s H. unfold norm.
  assert (F : Forall (fun c => is_ws4 c = false) stream_kw) by (repeat constructor).
  assert (G : forall c p, is_ws4 c = false -> ~ In c stream_kw ->
    forall x, prefixb (c :: p) x = true -> match x with [] => False | c :: _ => is_ws4 c = false /\ ~ In c stream_kw end).
  { intros c p H1 H2 [|y x] P; [discriminate|]. cbn in P. apply andb_true_iff in P. destruct P as [P _].
    assert (y = c) by lia. subst. auto. }
  repeat (apply no_occ_strip; [discriminate|exact F| apply G; [reflexivity| intros C; cbn in C; lia] |]).
  apply no_occ_collapse; auto. discriminate.
Qed.
