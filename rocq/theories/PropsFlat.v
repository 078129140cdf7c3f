(** The recursive parser equals a flat state machine. *)
From Coq Require Import String List ZArith Lia Bool.
From Verif Require Import Base BaseProofs Props.
Open Scope Z_scope.
Open Scope list_scope.

Inductive mst := MNone | MKey | MVal (c1 c2 : Z).

Definition new_prop (ps : list prop) := ps ++ [mkProp [] []].

Fixpoint flat (s : bytes) (m : mst) (ps : list prop) : list prop :=
  match s with
  | [] => ps
  | r :: s' =>
    match m with
    | MNone => if r =? 47 then flat s' MKey (new_prop ps) else flat s' MNone ps
    | MKey =>
      if r =? 32 then flat s' (MVal 0 0) ps
      else if r =? 60 then flat s' (MVal 1 0) (add_val (go_char r) ps)
      else if r =? 91 then flat s' (MVal 0 1) (add_val (go_char r) ps)
      else if r =? 47 then flat s' MKey (new_prop ps)
      else flat s' MKey (add_key (go_char r) ps)
    | MVal c1 c2 =>
      let c1' := cnt1 r c1 in
      let c2' := cnt2 r c2 in
      let zero := (c1' =? 0) && (c2' =? 0) in
      if ((r =? 93) || (r =? 62)) && zero then flat s' MNone (add_val (go_char r) ps)
      else if (r =? 47) && zero then flat s' MKey (new_prop ps)
      else flat s' (MVal c1' c2') (add_val (go_char r) ps)
    end
  end.

Definition mst_of (st : status) (c1 c2 : Z) : mst :=
  match st with StNone => MNone | StKey => MKey | StVal => MVal c1 c2 end.

Lemma skipn_nth : forall (A : Type) (s : list A) i r, nth_error s i = Some r -> skipn i s = r :: skipn (S i) s.
Proof.
  induction s as [|x s IH]; intros [|i] r H; simpl in H; try discriminate.
  - inversion H; subst. reflexivity.
  - cbn [skipn]. rewrite (IH _ _ H). destruct s; reflexivity.
Qed.

Lemma skipn_none : forall (A : Type) (s : list A) i, nth_error s i = None -> skipn i s = [].
Proof. intros. apply skipn_all2. apply nth_error_None. auto. Qed.

Definition need (st : status) (n i : nat) : nat :=
  (3 * (n - i) + match st with StVal => 1 | _ => 2 end)%nat.

(** One lemma: the loop ends, makes progress, and the flat machine started in
    the same place gives the same as the flat machine continued after the
    point where the loop returned. *)
Lemma loop_spec : forall f str i st c1 c2 ps,
  (need st (List.length str) i <= f)%nat ->
  (st <> StNone -> (1 <= i)%nat) ->
  exists i' st' ps', loop f str i st c1 c2 ps = Some (i', st', ps') /\
    (i <= S i')%nat /\
    (st = StVal -> nth_error str i <> Some 47 -> (i <= i')%nat) /\
    (st = StNone -> (List.length str <= i')%nat) /\
    (st' <> StNone -> (List.length str <= i')%nat) /\
    flat (skipn i str) (mst_of st c1 c2) ps = flat (skipn (S i') str) (mst_of st' c1 c2) ps'.
Proof.
  induction f as [|f IH]; intros str i st c1 c2 ps Hf Hi.
  { unfold need in Hf. destruct st; lia. }
  cbn [loop]. destruct (nth_error str i) as [r|] eqn:E.
  2:{ exists i, st, ps. pose proof (skipn_none _ _ _ E) as S0. apply nth_error_None in E.
      repeat split; auto; try lia. rewrite S0. rewrite skipn_all2 by lia. reflexivity. }
  assert (Hlt : (i < List.length str)%nat) by (apply nth_error_Some; congruence).
  pose proof (skipn_nth _ _ _ _ E) as Sk.
  destruct st.
  - (* StNone *)
    destruct (Z.eqb_spec r 47) as [->|Hr].
    + destruct (IH str (S i) StKey 0 0 (ps ++ [mkProp [] []])) as (i1 & st1 & ps1 & L1 & P1 & _ & _ & E1 & F1).
      { unfold need in *. lia. } { lia. }
      rewrite L1.
      destruct st1.
      * destruct (IH str (S i1) StNone c1 c2 ps1) as (i2 & st2 & ps2 & L2 & P2 & _ & N2 & E2 & F2).
        { unfold need in *. lia. } { congruence. }
        exists i2, st2, ps2. rewrite L2. repeat split; auto; try lia; try congruence.
        rewrite Sk. cbn [mst_of flat Z.eqb Pos.eqb]. unfold new_prop.
        cbn [mst_of] in F1. rewrite F1. exact F2.
      * assert (Hend : (List.length str <= i1)%nat) by (apply E1; congruence).
        destruct f as [|f']; [unfold need in Hf; lia|].
        assert (L2 : forall st c1 c2 ps, loop (S f') str (S i1) st c1 c2 ps = Some (S i1, st, ps)).
        { intros. cbn [loop]. rewrite (proj2 (nth_error_None str (S i1))) by lia. auto. }
        rewrite L2. exists (S i1), StKey, ps1. repeat split; auto; try lia; try congruence.
        rewrite Sk. cbn [mst_of flat Z.eqb Pos.eqb]. unfold new_prop.
        cbn [mst_of] in F1. rewrite F1. rewrite !skipn_all2 by lia. reflexivity.
      * assert (Hend : (List.length str <= i1)%nat) by (apply E1; congruence).
        destruct f as [|f']; [unfold need in Hf; lia|].
        assert (L2 : forall st c1 c2 ps, loop (S f') str (S i1) st c1 c2 ps = Some (S i1, st, ps)).
        { intros. cbn [loop]. rewrite (proj2 (nth_error_None str (S i1))) by lia. auto. }
        rewrite L2. exists (S i1), StVal, ps1. repeat split; auto; try lia; try congruence.
        rewrite Sk. cbn [mst_of flat Z.eqb Pos.eqb]. unfold new_prop.
        cbn [mst_of] in F1. rewrite F1. rewrite !skipn_all2 by lia. reflexivity.
    + destruct (IH str (S i) StNone c1 c2 ps) as (i2 & st2 & ps2 & L2 & P2 & _ & N2 & E2 & F2).
      { unfold need in *. lia. } { congruence. }
      exists i2, st2, ps2. rewrite L2. repeat split; auto; try lia; try congruence.
      rewrite Sk. cbn [mst_of flat]. destruct (Z.eqb_spec r 47); [congruence|]. exact F2.
  - (* StKey *)
    assert (Hi1 : (1 <= i)%nat) by (apply Hi; congruence).
    assert (Cont : forall i1 st1 ps1,
      (i <= i1)%nat -> (st1 <> StNone -> (List.length str <= i1)%nat) ->
      flat (skipn i str) MKey ps = flat (skipn (S i1) str) (mst_of st1 0 0) ps1 ->
      exists i' st' ps', loop f str (S i1) st1 c1 c2 ps1 = Some (i', st', ps') /\
        (i <= S i')%nat /\ (StKey = StVal -> Some r <> Some 47 -> (i <= i')%nat) /\
        (StKey = StNone -> (List.length str <= i')%nat) /\
        (st' <> StNone -> (List.length str <= i')%nat) /\
        flat (skipn i str) (mst_of StKey c1 c2) ps = flat (skipn (S i') str) (mst_of st' c1 c2) ps').
    { intros i1 st1 ps1 P1 E1 F1.
      destruct st1.
      - destruct (IH str (S i1) StNone c1 c2 ps1) as (i2 & st2 & ps2 & L2 & P2 & _ & N2 & E2 & F2).
        { unfold need in *. lia. } { congruence. }
        exists i2, st2, ps2. rewrite L2. repeat split; auto; try lia; try congruence.
        cbn [mst_of] in *. rewrite F1. exact F2.
      - specialize (E1 ltac:(congruence)). destruct f as [|f']; [unfold need in Hf; lia|].
        assert (L2 : loop (S f') str (S i1) StKey c1 c2 ps1 = Some (S i1, StKey, ps1)).
        { cbn [loop]. rewrite (proj2 (nth_error_None str (S i1))) by lia. auto. }
        rewrite L2. exists (S i1), StKey, ps1. repeat split; auto; try lia; try congruence.
        cbn [mst_of] in *. rewrite F1. rewrite !skipn_all2 by lia. reflexivity.
      - specialize (E1 ltac:(congruence)). destruct f as [|f']; [unfold need in Hf; lia|].
        assert (L2 : loop (S f') str (S i1) StVal c1 c2 ps1 = Some (S i1, StVal, ps1)).
        { cbn [loop]. rewrite (proj2 (nth_error_None str (S i1))) by lia. auto. }
        rewrite L2. exists (S i1), StVal, ps1. repeat split; auto; try lia; try congruence.
        cbn [mst_of] in *. rewrite F1. rewrite !skipn_all2 by lia. reflexivity. }
    destruct (Z.eqb_spec r 32) as [->|H32].
    + destruct (IH str (S i) StVal 0 0 ps) as (i1 & st1 & ps1 & L1 & P1 & _ & _ & E1 & F1).
      { unfold need in *. lia. } { lia. }
      rewrite L1. apply Cont; auto; try lia.
      rewrite Sk. cbn [flat Z.eqb Pos.eqb]. cbn [mst_of] in F1. exact F1.
    + destruct ((r =? 60) || (r =? 91)) eqn:Hb.
      * destruct (IH str i StVal 0 0 ps) as (i1 & st1 & ps1 & L1 & P1 & P1' & _ & E1 & F1).
        { unfold need in *. lia. } { lia. }
        rewrite L1. apply Cont; auto.
        -- apply P1'; auto. rewrite E. intros HH. inversion HH. lia.
        -- rewrite <- F1. rewrite Sk. cbn [flat mst_of].
           destruct (Z.eqb_spec r 32); [congruence|].
           destruct (Z.eqb_spec r 60) as [->|H60].
           ++ reflexivity.
           ++ assert (r = 91) by lia. subst r. reflexivity.
      * apply orb_false_iff in Hb. destruct Hb as [Hb1 Hb2].
        destruct (Z.eqb_spec r 47) as [->|H47].
        -- exists (i - 1)%nat, StNone, ps. repeat split; auto; try lia; try congruence.
           replace (S (i - 1)) with i by lia. rewrite Sk. reflexivity.
        -- destruct (IH str (S i) StKey c1 c2 (add_key (go_char r) ps)) as (i2 & st2 & ps2 & L2 & P2 & _ & N2 & E2 & F2).
           { unfold need in *. lia. } { lia. }
           exists i2, st2, ps2. rewrite L2. repeat split; auto; try lia; try congruence.
           rewrite Sk. cbn [mst_of flat]. destruct (Z.eqb_spec r 32); [congruence|].
           rewrite Hb1, Hb2. destruct (Z.eqb_spec r 47); [congruence|]. exact F2.
  - (* StVal *)
    assert (Hi1 : (1 <= i)%nat) by (apply Hi; congruence).
    cbv zeta.
    destruct (((r =? 93) || (r =? 62)) && ((cnt1 r c1 =? 0) && (cnt2 r c2 =? 0))) eqn:Hc.
    + exists i, StNone, (add_val (go_char r) ps). repeat split; auto; try lia; try congruence.
      rewrite Sk. cbn [mst_of flat]. cbv zeta. rewrite Hc. reflexivity.
    + destruct ((r =? 47) && ((cnt1 r c1 =? 0) && (cnt2 r c2 =? 0))) eqn:Hs.
      * assert (r = 47) by lia. subst r.
        exists (i - 1)%nat, StNone, ps. repeat split; auto; try lia; try congruence.
        replace (S (i - 1)) with i by lia. rewrite Sk. cbn [mst_of flat]. cbv zeta. rewrite Hc, Hs. reflexivity.
      * destruct (IH str (S i) StVal (cnt1 r c1) (cnt2 r c2) (add_val (go_char r) ps))
          as (i2 & st2 & ps2 & L2 & P2 & _ & N2 & E2 & F2).
        { unfold need in *. lia. } { lia. }
        exists i2, st2, ps2. rewrite L2. repeat split; auto; try lia; try congruence.
        rewrite Sk. cbn [mst_of flat]. cbv zeta. rewrite Hc, Hs.
        cbn [mst_of] in F2. rewrite F2.
        destruct st2; [reflexivity|reflexivity|].
        specialize (E2 ltac:(congruence)). rewrite (skipn_all2 str (n := S i2)) by lia. reflexivity.
Qed.

Lemma parse_props_flat : forall str, parse_props str = Ok (flat str MNone []).
Proof.
  intros. unfold parse_props.
  destruct (loop_spec (3 * List.length str + 4) str 0 StNone 0 0 []) as (i' & st' & ps' & L & _ & _ & N & _ & F).
  { unfold need. lia. } { congruence. }
  rewrite L. change (skipn 0 str) with str in F. cbn [mst_of] in F. rewrite F. specialize (N eq_refl). rewrite skipn_all2 by lia. reflexivity.
Qed.

(** readProperties never panics and never runs forever: it gives entries or an error. *)
Lemma readProperties_total : forall raw,
  (exists ps, readProperties raw = Ok ps) \/ readProperties raw = Err EOther.
Proof.
  intros raw. unfold readProperties.
  set (tmp0 := match index stream_kw raw with Some n => firstn n raw | None => raw end).
  assert (Hp : exists t, raw = tmp0 ++ t).
  { unfold tmp0. destruct (index stream_kw raw) as [n|].
    - exists (skipn n raw). symmetry. apply firstn_skipn.
    - exists []. symmetry. apply app_nil_r. }
  destruct (index (B"<<") tmp0) as [s|] eqn:Es; [|auto].
  destruct (last_index (B">>") tmp0) as [e|] eqn:Ee; [|auto].
  destruct (Nat.ltb_spec e s); [auto|].
  left. pose proof (proj1 (index_some _ _ _ Es)) as O1. pose proof (last_index_some _ _ _ Ee) as O2.
  pose proof (occ_len _ _ _ O2) as L2. cbn in L2.
  (* the two markers cannot overlap *)
  assert (S (S s) <= e)%nat.
  { destruct (le_lt_dec (S (S s)) e); auto. exfalso.
    assert (Hn1 : nth_error tmp0 s = Some 60 /\ nth_error tmp0 (S s) = Some 60).
    { destruct O1 as (a & b & -> & <-). split.
      - rewrite nth_error_app2 by lia. rewrite Nat.sub_diag. reflexivity.
      - rewrite nth_error_app2 by lia. replace (S (List.length a) - List.length a)%nat with 1%nat by lia. reflexivity. }
    assert (Hn2 : nth_error tmp0 e = Some 62).
    { destruct O2 as (a & b & -> & <-). rewrite nth_error_app2 by lia. rewrite Nat.sub_diag. reflexivity. }
    assert (e = s \/ e = S s) as [->| ->] by lia; destruct Hn1; congruence. }
  destruct Hp as [t Ht].
  assert (Hr : (List.length tmp0 <= List.length raw)%nat) by (rewrite Ht, app_length; lia).
  unfold slice.
  destruct ((0 <=? Z.of_nat s + 2) && (Z.of_nat s + 2 <=? Z.of_nat e) && (Z.of_nat e <=? blen raw)) eqn:E.
  - cbn [bind]. rewrite parse_props_flat. eauto.
  - unfold blen in E. lia.
Qed.
