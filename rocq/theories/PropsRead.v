(** Reading back what setProperties wrote. *)
From Coq Require Import String List ZArith Lia Bool.
From Verif Require Import Base BaseProofs Props PropsFlat PropsWrite.
Open Scope Z_scope.
Open Scope list_scope.

Definition wf_prop (p : prop) : Prop :=
  Forall key_char (pkey p) /\ shape (pval p) /\ Forall ascii (pval p) /\ gt_ok (norm4 (pval p)).

Inductive wf_run : list prop -> Prop :=
| wr_nil : wf_run []
| wr_last : forall p, not_stop (norm (pval p)) -> wf_run [p]
| wr_cons : forall p ps, complete (norm (pval p)) -> wf_run ps -> wf_run (p :: ps).

Definition last_ok (ps : list prop) : Prop :=
  forall ps0 p, ps = ps0 ++ [p] -> is_space1 (last (47 :: pkey p ++ pval p) 0) = false.

Fixpoint ents_of (ps : list prop) : list ent :=
  match ps with
  | [] => []
  | p :: ps' =>
    mkEnt (match ps', pval p with [], [] => false | _, _ => true end) (pkey p) (pval p) :: ents_of ps'
  end.

Definition body (ps : list prop) : bytes := flat_map (fun p => [47] ++ pkey p ++ [32] ++ pval p) ps.

Lemma body_rend : forall ps, exists pad, body ps = rend (ents_of ps) ++ pad /\ forallb is_space1 pad = true.
Proof.
  induction ps as [|p ps IH].
  - exists []. split; reflexivity.
  - unfold body. cbn [flat_map ents_of]. fold (body ps). unfold rend. cbn [flat_map]. fold (rend (ents_of ps)).
    destruct IH as (pad & E & Hp). destruct ps as [|q ps].
    + destruct (pval p) as [|c v] eqn:V.
      * exists [32]. split; [|reflexivity]. unfold rend1. cbn. now rewrite <- !app_assoc.
      * exists []. split; [|reflexivity]. unfold rend1. cbn [body flat_map efl ekey eval ents_of rend]. now rewrite !app_nil_r.
    + exists pad. split; auto. rewrite E. unfold rend1. cbn [efl ekey eval]. rewrite <- !app_assoc. cbn [app].
      reflexivity.
Qed.

Lemma rend_ascii : forall es, Forall ent_ok es -> Forall (fun e => Forall ascii (eval e)) es -> Forall ascii (rend es).
Proof.
  induction es as [|e es IH]; intros F G; [constructor|].
  inversion F as [|? ? [K _] F']; inversion G; subst. unfold rend. cbn [flat_map].
  apply Forall_app. split; [|apply IH; auto]. unfold rend1.
  repeat (apply Forall_app; split); auto.
  - constructor; [unfold ascii; lia|constructor].
  - eapply Forall_impl; [|exact K]. intros a (A & _). auto.
  - destruct (efl e); [constructor; [unfold ascii; lia|constructor]|constructor].
Qed.

Lemma last_app_nn : forall {A} (a b : list A) d, b <> [] -> last (a ++ b) d = last b d.
Proof.
  intros A a b d H. induction a as [|x a IH]; [reflexivity|].
  cbn [app]. destruct (a ++ b) eqn:E; [destruct a; cbn in E; congruence|]. rewrite <- IH. reflexivity.
Qed.

Lemma rend_last : forall ps p, last (rend (ents_of (ps ++ [p]))) 0 = last (47 :: pkey p ++ pval p) 0.
Proof.
  induction ps as [|q ps IH]; intros p.
  - cbn [app ents_of]. unfold rend. cbn [flat_map]. rewrite app_nil_r. unfold rend1. cbn [efl ekey eval].
    destruct (pval p) as [|c v].
    + rewrite !app_nil_r. reflexivity.
    + change (47 :: pkey p ++ c :: v) with ((47 :: pkey p) ++ c :: v).
      rewrite !app_assoc, !last_app_nn by discriminate. reflexivity.
  - cbn [app ents_of]. unfold rend. cbn [flat_map]. fold (rend (ents_of (ps ++ [p]))).
    rewrite last_app_nn, IH; auto. destruct ps; cbn; discriminate.
Qed.

Lemma ents_props : forall ps,
  map (fun e => mkProp (ekey e) (norm (eval e))) (ents_of ps) = map (fun p => mkProp (pkey p) (norm (pval p))) ps.
Proof. induction ps; cbn; auto. now rewrite IHps. Qed.

Lemma ents_trimmed : forall ps, Forall wf_prop ps -> last_ok ps -> trimmed (rend (ents_of ps)).
Proof.
  intros ps W L.
  destruct ps as [|p0 ps0] eqn:E; [split; reflexivity|]. rewrite <- E in *.
  destruct (exists_last (l := ps)) as (l & p & E2); [congruence|].
  specialize (L l p E2).
  assert (A : Forall ascii (rend (ents_of ps))).
  { apply rend_ascii; clear -W; induction W as [|q l (K & S & A & _) W IH]; cbn [ents_of]; constructor; auto.
    split; auto. }
  assert (H0 : exists t, rend (ents_of ps) = 47 :: t).
  { rewrite E. cbn. eauto. }
  destruct H0 as [t Ht].
  split.
  - rewrite Ht. apply space_len_cons; [unfold ascii; lia|reflexivity].
  - destruct (exists_last (l := rend (ents_of ps))) as (a & y & Ey); [rewrite Ht; discriminate|].
    pose proof (rend_last l p) as RL. rewrite <- E2, Ey, last_app_nn in RL by discriminate. cbn in RL.
    rewrite Ey in *. rewrite rev_app_distr. cbn [rev app]. apply rspace_len_cons.
    + apply Forall_app in A. destruct A as [_ A]. inversion A; auto.
    + rewrite RL. exact L.
Qed.

Lemma wf_run_run : forall ps, wf_run ps -> forall es, map ent_prop es = map (fun p => mkProp (pkey p) (norm (pval p))) ps ->
  run_ok es.
Proof.
  induction 1 as [|p H|p ps H W IH]; intros es E.
  - destruct es; [constructor|discriminate].
  - destruct es as [|e [|e' es]]; try discriminate. constructor. inversion E. unfold not_stop in *. congruence.
  - destruct es as [|e es]; [discriminate|]. inversion E. apply ro_cons; [|apply IH; auto].
    unfold complete in *. rewrite H2. auto.
Qed.

Lemma norm_ascii_collapse : forall s, Forall ascii s -> Forall ascii (collapse s).
Proof.
  induction 1; [constructor|]. cbn [collapse].
  destruct (is_ws4 x); [|constructor; auto].
  destruct l as [|d l]; [constructor; [unfold ascii; lia|constructor]|].
  destruct (is_ws4 d); [auto|constructor; [unfold ascii; lia|auto]].
Qed.
Lemma norm_ascii_strip : forall pat s, Forall ascii s -> Forall ascii (strip pat s).
Proof. induction 1; [constructor|]. cbn [strip]. destruct (is_ws4 x && _); auto. Qed.
Lemma norm_ascii : forall s, Forall ascii s -> Forall ascii (norm s).
Proof. intros. unfold norm. do 5 apply norm_ascii_strip. apply norm_ascii_collapse. auto. Qed.

Lemma shape_norm : forall v, shape v -> shape (norm v).
Proof. intros. unfold norm. do 5 apply shape_strip. apply shape_collapse. auto. Qed.

(** Writing entries and reading the object back gives the same keys in the same
    order, each with its white space normalised. *)
Theorem parse_body : forall ps, Forall wf_prop ps -> wf_run ps -> last_ok ps ->
  parse_props (norm (trim_space ([10] ++ body ps))) =
  Ok (map (fun p => mkProp (pkey p) (norm (pval p))) ps).
Proof.
  intros ps W R L.
  destruct (body_rend ps) as (pad & E & Hp). rewrite E.
  rewrite trim_space_pad by (auto; apply ents_trimmed; auto).
  assert (O : Forall ent_ok (ents_of ps)).
  { clear -W. induction W as [|q l (K & S & A & _) W IH]; cbn [ents_of]; constructor; auto. split; auto. }
  assert (G : Forall (fun e => gt_ok (norm4 (eval e))) (ents_of ps)).
  { clear -W. induction W as [|q l (K & S & A & G) W IH]; cbn [ents_of]; constructor; auto. }
  assert (S : Forall sep_ok (ents_of ps)).
  { clear. induction ps as [|p ps IH]; cbn [ents_of]; constructor; auto. unfold sep_ok. cbn [efl eval].
    destruct ps; [destruct (pval p)|]; auto; discriminate. }
  destruct (norm_rend _ O S G) as (es & E1 & O1 & S1 & M). rewrite E1, parse_props_flat.
  rewrite ents_props in M.
  rewrite flat_rend.
  - cbn [app]. rewrite M. reflexivity.
  - left; auto.
  - assert (A : Forall (fun e => Forall ascii (eval e)) es).
    { assert (A' : Forall (fun p => Forall ascii (pval p)) (map ent_prop es)).
      { rewrite M. clear -W. induction W as [|q l (K & S & A & _) W IH]; constructor; auto. cbn [pval]. apply norm_ascii; auto. }
      rewrite Forall_map in A'. exact A'. }
    clear -A O1 S1. induction es as [|e es IH]; constructor; inversion A; inversion O1; inversion S1; subst; auto.
    destruct H5. split; auto.
  - eapply wf_run_run; eauto.
Qed.

Theorem write_read : forall ps, Forall wf_prop ps -> wf_run ps -> last_ok ps ->
  no_occ stream_kw (setProperties ps) ->
  readProperties (setProperties ps) = Ok (map (fun p => mkProp (pkey p) (norm (pval p))) ps).
Proof.
  intros ps W R L NS. unfold readProperties.
  apply index_none in NS. rewrite NS.
  assert (E : setProperties ps = B"<<" ++ ([10] ++ body ps) ++ B">>" ++ [10]).
  { unfold setProperties. fold (body ps). now rewrite <- app_assoc. }
  assert (I : index (B"<<") (setProperties ps) = Some 0%nat) by (rewrite E; reflexivity).
  rewrite I.
  set (n := (3 + List.length (body ps))%nat).
  assert (LI : last_index (B">>") (setProperties ps) = Some n).
  { apply last_index_intro.
    - rewrite E. exists (B"<<" ++ [10] ++ body ps), [10]. split.
      + rewrite <- !app_assoc. reflexivity.
      + unfold n. rewrite app_length. reflexivity.
    - intros m Hm (a & b & Eb & La). rewrite E in Eb.
      assert (Hl : List.length (a ++ B">>" ++ b) = (n + 3)%nat).
      { rewrite <- Eb. unfold n. rewrite !app_length. cbn [List.length bytes_of_string]. cbn. lia. }
      rewrite !app_length in Hl. change (List.length (B">>")) with 2%nat in Hl.
      assert (b = []) by (destruct b; [auto|cbn in Hl; lia]). subst b.
      assert (Hr : last (B"<<" ++ ([10] ++ body ps) ++ B">>" ++ [10]) 0 = last (a ++ B">>" ++ []) 0) by (now rewrite Eb).
      rewrite !app_nil_r in Hr. rewrite !app_assoc in Hr. rewrite !last_app_nn in Hr by discriminate.
      cbn in Hr. discriminate. }
  rewrite LI.
  destruct (Nat.ltb_spec n 0); [lia|].
  assert (SL : slice (setProperties ps) (Z.of_nat 0 + 2) (Z.of_nat n) = Ok ([10] ++ body ps)).
  { rewrite E. apply slice_app; [reflexivity|]. unfold n, blen. change (List.length (B"<<")) with 2%nat. rewrite app_length. cbn [List.length]. lia. }
  rewrite SL. cbn [bind]. apply parse_body; auto.
Qed.
