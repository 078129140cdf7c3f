(** What the reader returns is stable under rewriting. *)
From Coq Require Import String List ZArith Lia Bool Btauto.
From Verif Require Import Base BaseProofs Props PropsFlat PropsWrite PropsRead PropsNorm.
Open Scope Z_scope.
Open Scope list_scope.

(** Text handed to the parser: normalised, ASCII, no trailing white space, no
    "stream". *)
Definition text_ok (X : bytes) : Prop :=
  nrm X = true /\ (X = [] \/ is_space1 (last X 0) = false) /\ Forall ascii X /\ no_occ stream_kw X.

Lemma text_ok_suffix : forall a s, text_ok (a ++ s) -> text_ok s.
Proof.
  intros a s (N & L & A & S). repeat split.
  - unfold nrm in *. eapply nrm_suffix; eauto.
  - destruct s as [|c s]; auto. right. destruct L as [L|L]; [destruct a; discriminate|].
    rewrite last_app_nn in L by discriminate. exact L.
  - apply Forall_app in A. tauto.
  - eapply no_occ_suffix; eauto.
Qed.

Lemma space1_ws4 : forall c, is_space1 c = false -> is_ws4 c = false.
Proof. intros c. unfold is_space1, is_ws4. lia. Qed.

Lemma last_nws_last : forall X, X <> [] -> is_space1 (last X 0) = false -> last_nws X.
Proof.
  intros X Hn H. destruct (exists_last Hn) as (a & y & ->). rewrite last_app_nn in H by discriminate. cbn in H.
  unfold last_nws. rewrite rev_app_distr. cbn. apply space1_ws4. auto.
Qed.

Definition stable (p : prop) : Prop :=
  Forall key_char (pkey p) /\ shape (pval p) /\ Forall ascii (pval p) /\ gt_ok (pval p) /\
  nrm (pval p) = true /\ no_occ stream_kw (pkey p) /\ no_occ stream_kw (pval p).

Definition good (ps : list prop) : Prop := Forall stable ps /\ wf_run ps /\ last_ok ps.

Lemma good_nil : good [].
Proof. split; [constructor|split; [constructor|]]. intros [|q0 ps0] p E; discriminate. Qed.

Lemma last_ok_cons : forall p q ps, last_ok (q :: ps) -> last_ok (p :: q :: ps).
Proof.
  intros p q ps H ps0 p' E. destruct ps0 as [|x ps0]; [discriminate|]. inversion E. eapply H. eauto.
Qed.

Lemma good_cons : forall p out, stable p -> complete (norm (pval p)) -> good out ->
  (out = [] -> is_space1 (last (47 :: pkey p ++ pval p) 0) = false) -> good (p :: out).
Proof.
  intros p out S C (G1 & G2 & G3) L. split; [|split].
  - constructor; auto.
  - apply wr_cons; auto.
  - destruct out as [|q out]; [|apply last_ok_cons; auto].
    intros [|x ps0] p' E; inversion E; subst; auto. destruct ps0; discriminate.
Qed.

Lemma good_last : forall p, stable p -> not_stop (norm (pval p)) ->
  is_space1 (last (47 :: pkey p ++ pval p) 0) = false -> good [p].
Proof.
  intros p S C L. split; [|split].
  - constructor; auto.
  - constructor; auto.
  - intros [|x ps0] p' E; inversion E; subst; auto. destruct ps0; discriminate.
Qed.

Lemma vrun_snoc : forall v c1 c2 d1 d2 r, vrun c1 c2 v = VOpen d1 d2 ->
  vrun c1 c2 (v ++ [r]) =
  (if ((r =? 93) || (r =? 62)) && ((cnt1 r d1 =? 0) && (cnt2 r d2 =? 0)) then VClosed
   else if (r =? 47) && ((cnt1 r d1 =? 0) && (cnt2 r d2 =? 0)) then VStop
   else VOpen (cnt1 r d1) (cnt2 r d2)).
Proof.
  induction v as [|x v IH]; intros c1 c2 d1 d2 r H.
  - cbn in H. inversion H; subst. cbn [app vrun]. cbv zeta. reflexivity.
  - cbn [app vrun] in *. cbv zeta in *.
    destruct (((x =? 93) || (x =? 62)) && ((cnt1 x c1 =? 0) && (cnt2 x c2 =? 0))).
    + destruct v; discriminate.
    + destruct ((x =? 47) && ((cnt1 x c1 =? 0) && (cnt2 x c2 =? 0))); [discriminate|]. auto.
Qed.

(** First character of a value. *)
Definition start_ok (X : bytes) : Prop :=
  exists c X', X = c :: X' /\ is_ws4 c = false /\ c <> 47 /\ c <> 93 /\ gt_ok X.

Lemma gt_ok_app : forall a b, gt_ok (a ++ b) -> gt_ok a.
Proof.
  intros a b H. destruct a as [|c [|d a]]; cbn in *; auto.
  - destruct c as [|p|p]; auto. do 6 (destruct p as [p|p|]; auto).
Qed.

Lemma badA_slash : forall s, badA (47 :: s) = true.
Proof.
  intros. unfold badA, bad4, bad3, bad2, bad1. rewrite !orb_true_iff. do 4 left. right. reflexivity.
Qed.

(** The value part of [stable] for a value that ends before [s]. *)
Lemma stable_intro : forall k v s, Forall key_char k -> no_occ stream_kw k ->
  text_ok (v ++ s) -> start_ok (v ++ s) -> last_nws v -> v <> [] -> stable (mkProp k v).
Proof.
  intros k v s Hk Sk (N & L & A & S) (c & X' & E & Hc & H47 & H93 & G) Lv Hn.
  unfold stable. cbn [pkey pval]. repeat split; auto.
  - destruct v as [|c' v]; [congruence|]. cbn in E. inversion E; subst.
    right. exists c, v. auto.
  - apply Forall_app in A. tauto.
  - eapply gt_ok_app; eauto.
  - eapply nrm_prefix; eauto.
  - eapply no_occ_pre; eauto.
Qed.

Lemma last_app_space : forall k v, v <> [] -> last (47 :: k ++ v) 0 = last v 0.
Proof. intros. change (47 :: k ++ v) with ((47 :: k) ++ v). apply last_app_nn. auto. Qed.

Lemma flat_good : forall s,
  (text_ok s -> exists out, good out /\ forall ps, flat s MNone ps = ps ++ out) /\
  (forall c1 c2 k v, Forall key_char k -> no_occ stream_kw k -> text_ok (v ++ s) -> start_ok (v ++ s) ->
     vrun 0 0 v = VOpen c1 c2 ->
     exists out, good out /\ forall ps, flat s (MVal c1 c2) (ps ++ [mkProp k v]) = ps ++ out) /\
  (forall k, Forall key_char k -> text_ok (47 :: k ++ s) ->
     exists out, good out /\ forall ps, flat s MKey (ps ++ [mkProp k []]) = ps ++ out).
Proof.
  induction s as [|c s (IHn & IHv & IHk)].
  - split; [|split].
    + intros _. exists []. split; [apply good_nil|]. intros. cbn. now rewrite app_nil_r.
    + intros c1 c2 k v Hk Sk T St V. rewrite app_nil_r in *. exists [mkProp k v]. split; [|reflexivity].
      assert (Hn : v <> []) by (destruct St as (c & X & -> & _); discriminate).
      destruct T as (N & L & A & S). destruct L as [L|L]; [congruence|].
      assert (Sb : stable (mkProp k v)).
      { apply (stable_intro k v []); rewrite ?app_nil_r; auto; [repeat split; auto|apply last_nws_last; auto]. }
      apply good_last; auto.
      * cbn [pval]. rewrite nrm_norm_id by auto. unfold not_stop. rewrite V. discriminate.
      * cbn [pkey pval]. rewrite last_app_space by auto. auto.
    + intros k Hk T. rewrite app_nil_r in T. exists [mkProp k []]. split; [|reflexivity].
      apply good_last.
      * destruct T as (N & L & A & S). unfold stable. cbn [pkey pval]. repeat split; auto; try constructor; auto.
        -- apply (no_occ_suffix _ [47]). exact S.
        -- intros n (a & b & E & _). destruct a; discriminate.
      * cbn. discriminate.
      * cbn [pkey pval]. rewrite app_nil_r. destruct T as (_ & [L|L] & _); [discriminate|exact L].
  - assert (PV : forall c1 c2 k v, Forall key_char k -> no_occ stream_kw k -> text_ok (v ++ c :: s) -> start_ok (v ++ c :: s) ->
       vrun 0 0 v = VOpen c1 c2 ->
       exists out, good out /\ forall ps, flat (c :: s) (MVal c1 c2) (ps ++ [mkProp k v]) = ps ++ out).
    { intros c1 c2 k v Hk Sk T St V.
      assert (Ac : ascii c). { destruct T as (_ & _ & A & _). apply Forall_app in A. destruct A as [_ A]. inversion A; auto. }
      assert (T' : text_ok ((v ++ [c]) ++ s)) by (now rewrite <- app_assoc).
      assert (St' : start_ok ((v ++ [c]) ++ s)) by (now rewrite <- app_assoc).
      pose proof (vrun_snoc v 0 0 c1 c2 c V) as VS.
      destruct (((c =? 93) || (c =? 62)) && ((cnt1 c c1 =? 0) && (cnt2 c c2 =? 0))) eqn:Hc.
      - destruct IHn as (out & G & E); [eapply (text_ok_suffix (v ++ [c])); eauto|].
        assert (Lv : last_nws (v ++ [c])).
        { unfold last_nws. rewrite rev_app_distr. cbn. unfold is_ws4. lia. }
        assert (Sb : stable (mkProp k (v ++ [c]))).
        { eapply stable_intro; eauto. destruct v; discriminate. }
        exists (mkProp k (v ++ [c]) :: out). split.
        + apply good_cons; auto.
          * cbn [pval]. rewrite nrm_norm_id by apply Sb. left. exact VS.
          * intros _. cbn [pkey pval]. rewrite last_app_space by (destruct v; discriminate).
            rewrite last_app_nn by discriminate. cbn [last]. unfold is_space1. lia.
        + intros ps. cbn [flat]. cbv zeta. rewrite Hc. unfold add_val. rewrite upd_last_snoc, go_char_ascii by auto.
          rewrite E. rewrite <- app_assoc. reflexivity.
      - destruct ((c =? 47) && ((cnt1 c c1 =? 0) && (cnt2 c c2 =? 0))) eqn:Hs.
        + assert (c = 47) by lia. subst c.
          assert (c1 = 0 /\ c2 = 0) as [-> ->].
          { unfold cnt1, cnt2 in Hs. change (47 =? 60) with false in Hs. change (47 =? 62) with false in Hs.
            change (47 =? 91) with false in Hs. change (47 =? 93) with false in Hs. lia. }
          assert (Hn : v <> []).
          { intros ->. destruct St as (c & X & E & _ & H47 & _). cbn in E. congruence. }
          assert (Lv : last_nws v).
          { apply (nrm_last v (47 :: s)); auto; [apply T|apply badA_slash]. }
          assert (Sb : stable (mkProp k v)) by (eapply stable_intro; eauto).
          destruct (IHk []) as (out & G & E); [constructor|apply (text_ok_suffix v); exact T|].
          assert (On : out <> []).
          { specialize (E []). intros ->. cbn in E.
            assert (X : forall s m ps, (1 <= List.length ps)%nat -> (1 <= List.length (flat s m ps))%nat).
            { clear. assert (U : forall f ps, List.length (upd_last f ps) = List.length ps).
              { induction ps as [|p [|q ps] IH]; auto. cbn [upd_last List.length] in *. rewrite IH. auto. }
              induction s as [|c s IH]; intros m ps H; cbn [flat]; auto.
              destruct m; cbv zeta; repeat match goal with |- context [if ?b then _ else _] => destruct b end;
                apply IH; unfold new_prop, add_val, add_key; rewrite ?app_length, ?U; cbn; lia. }
            specialize (X s MKey [mkProp [] []] ltac:(cbn; lia)). rewrite E in X. cbn in X. lia. }
          exists (mkProp k v :: out). split.
          * apply good_cons; auto; [|congruence]. cbn [pval]. rewrite nrm_norm_id by apply Sb. right. exact V.
          * intros ps. cbn [flat]. cbv zeta. rewrite Hc, Hs. unfold new_prop. rewrite E. rewrite <- app_assoc. reflexivity.
        + destruct (IHv (cnt1 c c1) (cnt2 c c2) k (v ++ [c])) as (out & G & E); auto.
          exists out. split; [exact G|]. intros ps. cbn [flat]. cbv zeta. rewrite Hc, Hs.
          unfold add_val. rewrite upd_last_snoc, go_char_ascii by auto. cbn [pkey pval]. apply E. }
    split; [|split].
    + intros T. destruct (Z.eqb_spec c 47) as [->|Hc].
      * destruct (IHk []) as (out & G & E); [constructor|exact T|].
        exists out. split; [exact G|]. intros ps. cbn [flat]. change (47 =? 47) with true. cbn iota. apply E.
      * destruct IHn as (out & G & E); [apply (text_ok_suffix [c]); exact T|].
        exists out. split; [exact G|]. intros ps. cbn [flat]. destruct (Z.eqb_spec c 47); [congruence|]. apply E.
    + exact PV.
    + intros k Hk T.
      assert (Ac : ascii c). { destruct T as (_ & _ & A & _). inversion A; subst. apply Forall_app in H2. destruct H2 as [_ A2]. inversion A2; auto. }
      assert (Sk : no_occ stream_kw k). { destruct T as (_ & _ & _ & S). apply (no_occ_suffix _ [47]) in S. apply no_occ_pre in S. auto. }
      assert (Ts : text_ok (c :: s)) by (apply (text_ok_suffix (47 :: k)); exact T).
      destruct (Z.eqb_spec c 32) as [->|H32].
      { assert (St : start_ok s).
        { destruct Ts as (N & _). unfold nrm in N. cbn [nrmF] in N. change (is_ws4 32) with true in N. cbn iota in N.
          apply andb_true_iff in N. destruct N as [N _]. apply andb_true_iff in N. destruct N as [N1 N2].
          apply andb_true_iff in N1. destruct N1 as [_ N1]. destruct s as [|d s]; [discriminate|].
          cbn [nws_head] in N1. apply negb_true_iff in N1. apply negb_true_iff in N2.
          exists d, s. split; auto. split; auto.
          unfold badA, bad4, bad3, bad2, bad1 in N2. rewrite !orb_false_iff in N2.
          destruct N2 as (((((_ & B1) & B2) & B3) & B4) & B5).
          cbn [prefixb] in *. rewrite andb_true_r in *.
          split; [lia|]. split; [lia|]. destruct s as [|e s]; [unfold gt_ok; destruct d as [|p|p]; auto; do 6 (destruct p as [p|p|]; auto)|].
          unfold gt_ok. destruct d as [|p|p]; auto; do 6 (destruct p as [p|p|]; auto).
          destruct e as [|p|p]; auto; do 6 (destruct p as [p|p|]; auto). cbn in B5. discriminate. }
        destruct (IHv 0 0 k []) as (out & G & E); auto.
        { apply (text_ok_suffix [32]). exact Ts. }
        exists out. split; auto. }
      destruct (orb (c =? 60) (c =? 91)) eqn:Ho.
      { destruct (PV 0 0 k []) as (out & G & E); auto.
        { exists c, s. split; auto. split; [unfold is_ws4; lia|]. split; [lia|]. split; [lia|].
          assert (c = 60 \/ c = 91) as [-> | ->] by lia; exact I. }
        exists out. split; [exact G|]. intros ps. rewrite <- E.
        assert (c = 60 \/ c = 91) as [-> | ->] by lia; reflexivity. }
      destruct (Z.eqb_spec c 47) as [->|H47].
      { destruct (IHk []) as (out & G & E); [constructor|exact Ts|].
        assert (On : out <> []).
          { specialize (E []). intros ->. cbn in E.
            assert (X : forall s m ps, (1 <= List.length ps)%nat -> (1 <= List.length (flat s m ps))%nat).
            { clear. assert (U : forall f ps, List.length (upd_last f ps) = List.length ps).
              { induction ps as [|p [|q ps] IH]; auto. cbn [upd_last List.length] in *. rewrite IH. auto. }
              induction s as [|c s IH]; intros m ps H; cbn [flat]; auto.
              destruct m; cbv zeta; repeat match goal with |- context [if ?b then _ else _] => destruct b end;
                apply IH; unfold new_prop, add_val, add_key; rewrite ?app_length, ?U; cbn; lia. }
            specialize (X s MKey [mkProp [] []] ltac:(cbn; lia)). rewrite E in X. cbn in X. lia. }
        exists (mkProp k [] :: out). split.
        - apply good_cons; auto; [|right; reflexivity|congruence].
          unfold stable. cbn [pkey pval]. repeat split; auto; try constructor; auto.
          intros n (a & b & E' & _). destruct a; discriminate.
        - intros ps. change (flat (47 :: s) MKey (ps ++ [mkProp k []])) with (flat s MKey (new_prop (ps ++ [mkProp k []]))).
          unfold new_prop. rewrite E. rewrite <- app_assoc. reflexivity. }
      destruct (IHk (k ++ [c])) as (out & G & E).
      { apply Forall_app. split; auto. constructor; [|constructor].
        split; auto. split; [|lia].
        destruct Ts as (N & _). unfold nrm in N. cbn [nrmF] in N. destruct (is_ws4 c); auto. lia. }
      { now rewrite <- app_assoc. }
      exists out. split; [exact G|]. intros ps. cbn [flat].
      destruct (Z.eqb_spec c 32); [congruence|]. destruct (Z.eqb_spec c 60); [lia|].
      destruct (Z.eqb_spec c 91); [lia|]. destruct (Z.eqb_spec c 47); [congruence|].
      unfold add_key. rewrite upd_last_snoc, go_char_ascii by auto. cbn [pkey pval]. apply E.
Qed.

Definition clean (p : prop) : Prop := no_occ stream_kw (pkey p) /\ no_occ stream_kw (pval p).

Lemma clean_nostream : forall ps, Forall clean ps -> no_occ stream_kw (setProperties ps).
Proof.
  intros ps F. unfold setProperties.
  assert (NI : forall c, in_stream c = false -> ~ In c stream_kw).
  { intros c H C. cbn in C. unfold in_stream in H. lia. }
  assert (Sn : stream_kw <> []) by discriminate.
  assert (E0 : no_occ stream_kw []).
  { intros n (a & b & E & _). destruct a; discriminate. }
  assert (T : no_occ stream_kw (B">>" ++ [10])).
  { apply contains_false. reflexivity. }
  assert (G : forall l, Forall clean l ->
    no_occ stream_kw (flat_map (fun p => [47] ++ pkey p ++ [32] ++ pval p) l ++ B">>" ++ [10])).
  { induction 1 as [|p l Sp F' IH]; [exact T|].
    destruct Sp as (Sk & Sv).
    cbn [flat_map]. rewrite <- !app_assoc. cbn [app]. apply (no_occ_sep _ [] 47); auto.
    apply no_occ_sep; auto.
    destruct l as [|q l].
    - cbn [flat_map app]. change (B">>" ++ [10]) with (62 :: [62; 10]). apply no_occ_sep; auto.
      apply contains_false. reflexivity.
    - cbn [flat_map app] in *. rewrite <- !app_assoc in *. cbn [app] in *. apply no_occ_sep; auto.
      apply (no_occ_suffix _ [47]) in IH. exact IH. }
  specialize (G ps F). cbn [app].
  apply (no_occ_sep _ [] 60); auto. apply (no_occ_sep _ [] 60); auto. apply (no_occ_sep _ [] 10); auto.
Qed.

Lemma good_nostream : forall ps, Forall stable ps -> no_occ stream_kw (setProperties ps).
Proof.
  intros ps F. apply clean_nostream. eapply Forall_impl; [|exact F].
  intros p (_ & _ & _ & _ & _ & Sk & Sv). split; auto.
Qed.

(** The dictionary text between the brackets, as readProperties cuts it out. *)
Definition dict_part (raw d : bytes) : Prop :=
  exists s e, let tmp0 := match index stream_kw raw with Some n => firstn n raw | None => raw end in
    index (B"<<") tmp0 = Some s /\ last_index (B">>") tmp0 = Some e /\
    slice raw (Z.of_nat s + 2) (Z.of_nat e) = Ok d.

Lemma nonascii_trim : forall s, Forall ascii s -> Forall ascii (trim_space s).
Proof.
  intros s H. destruct (trim_space_sub s) as (a & b & E). rewrite E in H.
  apply Forall_app in H. destruct H as [_ H]. apply Forall_app in H. tauto.
Qed.

Lemma lone_app : forall x b, lone x = true -> lone (x ++ b) = true.
Proof. intros [|c [|d x]] b H; try discriminate. exact H. Qed.

Lemma lone_free_suffix : forall a s, lone_free (a ++ s) = true -> lone_free s = true.
Proof. induction a as [|c a IH]; intros s H; auto. cbn [app lone_free] in H. apply andb_true_iff in H. apply IH. tauto. Qed.

Lemma lone_free_prefix : forall s b, lone_free (s ++ b) = true -> lone_free s = true.
Proof.
  induction s as [|c s IH]; intros b H; auto. cbn [app lone_free] in *.
  apply andb_true_iff in H. destruct H as [H1 H2]. rewrite (IH b) by auto. rewrite andb_true_r.
  apply negb_true_iff. apply negb_true_iff in H1. destruct (is_ws4 c); auto. cbn [andb] in *.
  destruct (lone s) eqn:L; auto. apply (lone_app s b) in L. congruence.
Qed.

Lemma norm_last : forall s, s <> [] -> last_nws s -> norm s <> [] /\ last (norm s) 0 = last s 0.
Proof.
  intros s Hn Hl. unfold norm.
  assert (C : forall s, s <> [] -> last_nws s -> collapse s <> [] /\ last_nws (collapse s) /\ last (collapse s) 0 = last s 0).
  { clear. intros s Hn Hl. destruct (collapse_nonnil s Hn Hl) as [C1 C2]. split; auto. split; auto.
    clear C1 C2. induction s as [|c s IH]; [congruence|]. destruct s as [|d s].
    - apply last_nws_1 in Hl. cbn [collapse]. rewrite Hl. reflexivity.
    - specialize (IH ltac:(discriminate) (last_nws_tail _ _ Hl ltac:(discriminate))).
      destruct (collapse_nonnil (d :: s) ltac:(discriminate) (last_nws_tail _ _ Hl ltac:(discriminate))) as [C1 _].
      change (collapse (c :: d :: s)) with
        (if is_ws4 c then if is_ws4 d then collapse (d :: s) else 32 :: collapse (d :: s) else c :: collapse (d :: s)).
      change (last (c :: d :: s) 0) with (last (d :: s) 0). rewrite <- IH.
      destruct (is_ws4 c); [destruct (is_ws4 d)|]; auto; destruct (collapse (d :: s)); auto; congruence. }
  assert (S : forall pat s, s <> [] -> last_nws s -> strip pat s <> [] /\ last_nws (strip pat s) /\ last (strip pat s) 0 = last s 0).
  { clear. intros pat s Hn Hl. destruct (strip_nonnil pat s Hn Hl) as [C1 C2]. split; auto. split; auto.
    clear C1 C2. induction s as [|c s IH]; [congruence|]. destruct s as [|d s].
    - apply last_nws_1 in Hl. cbn [strip]. rewrite Hl. reflexivity.
    - specialize (IH ltac:(discriminate) (last_nws_tail _ _ Hl ltac:(discriminate))).
      destruct (strip_nonnil pat (d :: s) ltac:(discriminate) (last_nws_tail _ _ Hl ltac:(discriminate))) as [C1 _].
      change (strip pat (c :: d :: s)) with
        (if is_ws4 c && prefixb pat (skip_ws (d :: s)) then strip pat (d :: s) else c :: strip pat (d :: s)).
      change (last (c :: d :: s) 0) with (last (d :: s) 0). rewrite <- IH.
      destruct (is_ws4 c && prefixb pat (skip_ws (d :: s))); auto; destruct (strip pat (d :: s)); auto; congruence. }
  destruct (C s Hn Hl) as (C1 & C2 & C3). rewrite <- C3.
  destruct (S (B"/") _ C1 C2) as (S1 & T1 & U1). rewrite <- U1.
  destruct (S (B"[") _ S1 T1) as (S2 & T2 & U2). rewrite <- U2.
  destruct (S (B"]") _ S2 T2) as (S3 & T3 & U3). rewrite <- U3.
  destruct (S (B"<<") _ S3 T3) as (S4 & T4 & U4). rewrite <- U4.
  destruct (S (B">>") _ S4 T4) as (S5 & T5 & U5). rewrite <- U5. auto.
Qed.

Lemma trimmed_last : forall s, Forall ascii s -> trimmed s -> s <> [] -> is_space1 (last s 0) = false.
Proof.
  intros s A [_ T] Hn. destruct (exists_last Hn) as (a & y & ->).
  rewrite last_app_nn by discriminate. cbn. rewrite rev_app_distr in T. cbn [rev app] in T.
  destruct (is_space1 y) eqn:E; auto. unfold rspace_len in T. rewrite E in T. discriminate.
Qed.

(** What readProperties returns is in the stable form. *)
Lemma read_good : forall raw d ps, readProperties raw = Ok ps -> dict_part raw d ->
  Forall ascii d -> lone_free d = true -> good ps.
Proof.
  intros raw d ps R (s & e & D1 & D2 & D3) A L. unfold readProperties in R. rewrite D1, D2 in R.
  destruct (e <? s)%nat; [discriminate|]. rewrite D3 in R. cbn [bind] in R.
  rewrite parse_props_flat in R. inversion R as [E]. clear R.
  destruct (flat_good (norm (trim_space d))) as (P & _ & _).
  destruct P as (out & G & F).
  2:{ specialize (F []). cbn in F. rewrite F. exact G. }
  set (t := trim_space d).
  assert (At : Forall ascii t) by (apply nonascii_trim; auto).
  assert (Tt : trimmed t) by apply trim_space_trimmed.
  assert (Lt : t = [] \/ last_nws t).
  { destruct t eqn:Et; auto. right. rewrite <- Et in *. assert (t <> []) by congruence.
    apply last_nws_last; auto. apply trimmed_last; auto. }
  assert (Sub : exists a b, d = a ++ t ++ b) by apply trim_space_sub.
  destruct Sub as (a & b & Sub).
  repeat split.
  - apply nrm_norm; auto. rewrite Sub in L. apply lone_free_suffix in L. eapply lone_free_prefix; eauto.
  - destruct t eqn:Et; [left; reflexivity|]. rewrite <- Et in *. right.
    assert (Hn : t <> []) by congruence. destruct Lt as [|Lt]; [congruence|].
    destruct (norm_last t Hn Lt) as [_ ->]. apply trimmed_last; auto.
  - apply norm_ascii. auto.
  - apply no_occ_norm. intros n (x & y & Ex & _).
    destruct (slice_split _ _ _ _ D3) as (r1 & r2 & Er & L1 & L2).
    assert (Oc : occ stream_kw raw (List.length (r1 ++ a ++ x))).
    { exists (r1 ++ a ++ x), (y ++ b ++ r2). split; auto.
      fold t in Ex. rewrite Er, Sub, Ex, <- !app_assoc. reflexivity. }
    destruct (index stream_kw raw) as [m|] eqn:IS.
    + apply index_some in IS. destruct IS as [_ IS]. apply (IS _) in Oc; auto.
      apply last_index_some in D2. destruct D2 as (p & q & Ep & Lp).
      apply (f_equal (@List.length Z)) in Ep. rewrite !app_length in Ep.
      pose proof (firstn_le_length m raw). change (List.length (B">>")) with 2%nat in Ep.
      rewrite Sub, Ex in L2. unfold blen in *. rewrite !app_length in *.
      change (List.length stream_kw) with 6%nat in L2. lia.
    + apply (proj1 (index_none _ _)) with (m := List.length (r1 ++ a ++ x)) in IS. auto.
Qed.

Lemma stable_wf : forall ps, Forall stable ps -> Forall wf_prop ps.
Proof.
  intros ps F. eapply Forall_impl; [|exact F]. intros p (H1 & H2 & H3 & H4 & H5 & _).
  repeat split; auto. rewrite nrm_norm4_id; auto.
Qed.

Lemma stable_norm : forall ps, Forall stable ps -> map (fun p => mkProp (pkey p) (norm (pval p))) ps = ps.
Proof.
  induction 1 as [|p ps (H1 & H2 & H3 & H4 & H5 & _) F IH]; auto. cbn [map].
  rewrite IH, nrm_norm_id by auto. destruct p; auto.
Qed.

(** Rewriting what was read loses and changes nothing. *)
Theorem rewrite_stable : forall raw d ps, readProperties raw = Ok ps -> dict_part raw d ->
  Forall ascii d -> lone_free d = true -> readProperties (setProperties ps) = Ok ps.
Proof.
  intros raw d ps R D A L. destruct (read_good raw d ps R D A L) as (G1 & G2 & G3).
  rewrite write_read; auto using stable_wf, good_nostream. now rewrite stable_norm.
Qed.
