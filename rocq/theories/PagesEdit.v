From Coq Require Import String List ZArith Lia Bool.
From Verif Require Import Base BaseProofs Output Props PropsFlat PropsWrite PropsRead PropsNorm PropsStable PropsRefs PropsSpec PropsFinal PdfData PagesSpec PagesProofs.
Open Scope Z_scope.
Open Scope list_scope.

(** ** Setting an entry *)
Definition svalue (v : bytes) : Prop :=
  v <> [] /\ shape v /\ Forall ascii v /\ gt_ok v /\ nrm v = true /\ no_occ stream_kw v /\ complete v /\
  is_space1 (last v 0) = false.
Definition wvalue (v : bytes) : Prop :=
  v <> [] /\ shape v /\ Forall ascii v /\ gt_ok (norm4 v) /\ no_occ stream_kw v /\ complete (norm v) /\
  is_space1 (last v 0) = false.
Definition wlist (ps : list prop) : Prop :=
  Forall (fun p => wf_prop p /\ clean p) ps /\ wf_run ps /\ last_ok ps.

Lemma svalue_wvalue : forall v, svalue v -> wvalue v.
Proof.
  intros v (H1 & H2 & H3 & H4 & H5 & H6 & H7 & H8). unfold wvalue.
  rewrite nrm_norm4_id, nrm_norm_id by auto. tauto.
Qed.

Lemma good_wlist : forall ps, good ps -> wlist ps.
Proof.
  intros ps (H1 & H2 & H3). split; [|split; auto].
  apply Forall_forall. intros p Hp.
  pose proof (stable_wf ps H1) as W. rewrite Forall_forall in W, H1.
  split; auto. destruct (H1 p Hp) as (_ & _ & _ & _ & _ & A & C). split; auto.
Qed.

Lemma wlist_read : forall ps, wlist ps ->
  readProperties (setProperties ps) = Ok (map (fun p => mkProp (pkey p) (norm (pval p))) ps).
Proof.
  intros ps (H1 & H2 & H3). apply write_read; auto.
  - eapply Forall_impl; [|exact H1]. cbn beta. tauto.
  - apply clean_nostream. eapply Forall_impl; [|exact H1]. cbn beta. tauto.
Qed.

Lemma good_read : forall ps, good ps -> readProperties (setProperties ps) = Ok ps.
Proof. intros ps G. rewrite wlist_read by (apply good_wlist; auto). f_equal. apply stable_norm, G. Qed.

Lemma complete_not_stop : forall v, complete v -> not_stop v.
Proof. intros v [H|H]; unfold not_stop; rewrite H; discriminate. Qed.

Lemma wf_run_tail : forall p ps, wf_run (p :: ps) -> wf_run ps.
Proof. intros p ps H. inversion H; subst; auto. constructor. Qed.

Lemma last_ok_tail : forall p ps, last_ok (p :: ps) -> last_ok ps.
Proof. intros p ps H ps0 q E. apply (H (p :: ps0) q). subst. reflexivity. Qed.

Lemma run_set : forall k v ps, complete (norm v) -> wf_run ps -> wf_run (setPropByKey k v ps).
Proof.
  intros k v ps C R. induction R as [|p N|p ps N R IH]; cbn [setPropByKey]; [constructor| |].
  - destruct (beqb (pkey p) k); constructor; auto. cbn [pval]. apply complete_not_stop; auto.
  - destruct (beqb (pkey p) k); constructor; auto.
Qed.

Lemma last_ok_set : forall k v ps, v <> [] -> is_space1 (last v 0) = false -> last_ok ps -> last_ok (setPropByKey k v ps).
Proof.
  intros k v ps Hv L. induction ps as [|p ps IH]; intros O; cbn [setPropByKey]; auto.
  destruct (beqb (pkey p) k) eqn:E.
  - destruct ps as [|q ps].
    + intros [|x ps0] p' E'; inversion E'; subst; [|destruct ps0; discriminate].
      cbn [pkey pval]. rewrite last_app_space; auto.
    + apply last_ok_cons. apply last_ok_tail in O. auto.
  - specialize (IH (last_ok_tail _ _ O)). destruct (setPropByKey k v ps) as [|q ps'] eqn:S.
    + destruct ps as [|q ps]; [exact O|]. cbn [setPropByKey] in S. destruct (beqb (pkey q) k); discriminate.
    + apply last_ok_cons. auto.
Qed.

Lemma wlist_set : forall k v ps, wvalue v -> wlist ps -> wlist (setPropByKey k v ps).
Proof.
  intros k v ps (V1 & V2 & V3 & V4 & V5 & V6 & V7) (H1 & H2 & H3). split; [|split].
  - clear H2 H3. induction H1 as [|p ps [(W1 & W2) [C1 C2]] F IH]; cbn [setPropByKey]; [constructor|].
    destruct (beqb (pkey p) k); constructor; auto.
    + split; [split|split]; cbn [pkey pval]; auto.
    + split; [split|split]; auto.
  - apply run_set; auto.
  - apply last_ok_set; auto.
Qed.

Lemma good_set : forall k v ps, svalue v -> good ps -> good (setPropByKey k v ps).
Proof.
  intros k v ps (V1 & V2 & V3 & V4 & V5 & V6 & V7 & V8) (H1 & H2 & H3). split; [|split].
  - clear H2 H3. induction H1 as [|p ps S F IH]; cbn [setPropByKey]; [constructor|].
    destruct (beqb (pkey p) k); constructor; auto.
    destruct S as (S1 & _ & _ & _ & _ & S6 & _). split; [|split; [|split; [|split; [|split; [|split]]]]]; cbn [pkey pval]; auto.
  - apply run_set; auto. rewrite nrm_norm_id; auto.
  - apply last_ok_set; auto.
Qed.

Lemma map_norm_set : forall k v ps,
  map (fun p => mkProp (pkey p) (norm (pval p))) (setPropByKey k v ps) =
  setPropByKey k (norm v) (map (fun p => mkProp (pkey p) (norm (pval p))) ps).
Proof.
  intros k v ps. induction ps as [|p ps IH]; cbn [setPropByKey map]; auto. cbn [pkey].
  destruct (beqb (pkey p) k); cbn [map pkey pval]; auto. now rewrite IH.
Qed.

Lemma get_set_same : forall k v ps, has_key ps k -> getPropByKey k (setPropByKey k v ps) = Some (mkProp k v).
Proof.
  intros k v ps (w & H). induction ps as [|p ps IH]; [destruct H|]. cbn [setPropByKey].
  destruct (beqb (pkey p) k) eqn:E.
  - cbn [getPropByKey pkey]. rewrite E. apply beqb_eq in E. now rewrite E.
  - cbn [getPropByKey]. rewrite E. apply IH. destruct H as [->|H]; auto. cbn in E. rewrite beqb_refl in E. discriminate.
Qed.

Lemma get_set_other : forall k k' v ps, k' <> k -> getPropByKey k' (setPropByKey k v ps) = getPropByKey k' ps.
Proof.
  intros k k' v ps H. induction ps as [|p ps IH]; cbn [setPropByKey]; auto.
  destruct (beqb (pkey p) k) eqn:E; cbn [getPropByKey pkey].
  - destruct (beqb (pkey p) k') eqn:E'; auto. apply beqb_eq in E, E'. congruence.
  - now rewrite IH.
Qed.

Lemma keys_set : forall k v ps k', has_key (setPropByKey k v ps) k' <-> has_key ps k'.
Proof.
  intros k v ps k'. unfold has_key. induction ps as [|p ps IH]; cbn [setPropByKey]; [tauto|].
  destruct (beqb (pkey p) k) eqn:E.
  - split; intros (w & [H|H]).
    + inversion H; subst. exists (pval p). left. destruct p; auto.
    + exists w. right; auto.
    + subst p. exists v. left. auto.
    + exists w. right; auto.
  - split; intros (w & [H|H]).
    + exists w. left; auto.
    + destruct (proj1 IH (ex_intro _ w H)) as [u U]. exists u. right; auto.
    + exists w. left; auto.
    + destruct (proj2 IH (ex_intro _ w H)) as [u U]. exists u. right; auto.
Qed.

Lemma value_iff : forall ps k v, value ps k v <-> getPropByKey k ps = Some (mkProp k v).
Proof.
  intros. split; [apply value_get|]. intros H. apply get_value in H. destruct H as [_ H]. exact H.
Qed.

Lemma value_set_same : forall k v ps, has_key ps k -> value (setPropByKey k v ps) k v.
Proof. intros. apply value_iff, get_set_same. auto. Qed.

Lemma value_set_other : forall k k' v w ps, k' <> k -> (value (setPropByKey k v ps) k' w <-> value ps k' w).
Proof. intros. rewrite !value_iff, get_set_other by auto. tauto. Qed.

(** ** The three kinds of value the page functions write *)
Lemma num_run : forall s, Forall ref_char s -> vrun 0 0 s = VOpen 0 0.
Proof.
  induction 1 as [|c s H F IH]; [reflexivity|]. cbn [vrun]. cbv zeta.
  unfold cnt1, cnt2. unfold ref_char, num_char in H.
  destruct (Z.eqb_spec c 60); [lia|]. destruct (Z.eqb_spec c 62); [lia|].
  destruct (Z.eqb_spec c 91); [lia|]. destruct (Z.eqb_spec c 93); [lia|].
  destruct (Z.eqb_spec c 47); [lia|]. cbn [orb andb]. exact IH.
Qed.

Lemma ref_ascii : forall s, Forall ref_char s -> Forall ascii s.
Proof. intros s F. eapply Forall_impl; [|exact F]. intros c H. unfold ref_char, num_char, ascii in *. lia. Qed.

Lemma no_s_nostream : forall s, Forall (fun c => c <> 115) s -> no_occ stream_kw s.
Proof.
  intros s F n (a & b & E & _). rewrite E in F. apply Forall_app in F. destruct F as [_ F].
  inversion F; subst. congruence.
Qed.

Lemma ref_nostream : forall s, Forall ref_char s -> no_occ stream_kw s.
Proof. intros s F. apply no_s_nostream. eapply Forall_impl; [|exact F]. intros c H. unfold ref_char, num_char in H. lia. Qed.

Lemma ref_svalue : forall s c t u d, Forall ref_char s -> nrm s = true -> s = c :: t -> num_char c ->
  s = u ++ [d] -> is_space1 d = false -> svalue s.
Proof.
  intros s c t u d F N E1 C E2 D. unfold svalue.
  split; [rewrite E1; discriminate|].
  assert (L : last_nws s). { rewrite E2. unfold last_nws. rewrite rev_app_distr. cbn. apply space1_ws4; auto. }
  split.
  { right. exists c, t. unfold num_char in C. split; [auto|]. split; [unfold is_ws4; lia|]. split; [lia|]. split; [lia|auto]. }
  split; [apply ref_ascii; auto|].
  split. { rewrite E1. unfold num_char in C. unfold gt_ok. destruct c as [|q|q]; auto. do 6 (destruct q as [q|q|]; auto). lia. }
  split; [auto|]. split; [apply ref_nostream; auto|].
  split; [right; apply num_run; auto|]. rewrite E2, last_last. auto.
Qed.

Lemma itoa_ref_char : forall n, Forall ref_char (itoa n).
Proof. intros n. eapply Forall_impl; [|apply itoa_chars]. intros; left; auto. Qed.

Lemma itoa_svalue : forall n, svalue (itoa n).
Proof.
  intros n. pose proof (itoa_chars n) as C. pose proof (itoa_nonnil n) as Nn.
  destruct (itoa n) as [|c t] eqn:E; [congruence|].
  destruct (exists_last Nn) as (u & d & E2).
  assert (D : num_char d). { rewrite E2 in C. apply Forall_app in C. destruct C as [_ C]. inversion C; auto. }
  rewrite <- E in *.
  apply (ref_svalue (itoa n) c t u d); auto.
  - apply itoa_ref_char.
  - apply norm_plain; [apply itoa_ref_char| |].
    + intros a b E3. rewrite E3 in C. apply Forall_app in C. destruct C as [_ C]. inversion C; subst.
      unfold num_char in *. lia.
    + right. rewrite E2. unfold last_nws. rewrite rev_app_distr. cbn. unfold num_char, is_ws4 in *. lia.
  - inversion C; subst; auto. congruence. rewrite E in *. inversion H. subst. auto.
  - unfold num_char, is_space1 in *. lia.
Qed.

Lemma ref_svalue1 : forall id, svalue (refText id).
Proof.
  intros id. unfold refText. rewrite <- refs_one.
  destruct (refs_ends [id] ltac:(discriminate)) as (c & t & u & d & E1 & C & E2 & ->).
  apply (ref_svalue _ c t u 82); auto; [apply refs_chars|apply nrm_refs].
Qed.

Lemma arr_run : forall s, Forall ref_char s -> vrun 0 0 (91 :: s ++ [93]) = VClosed.
Proof.
  intros s F. change (vrun 0 0 (91 :: s ++ [93])) with (vrun 0 1 (s ++ [93])).
  induction F as [|c s H F IH]; [reflexivity|]. cbn [app vrun]. cbv zeta.
  unfold cnt1, cnt2. unfold ref_char, num_char in H.
  destruct (Z.eqb_spec c 60); [lia|]. destruct (Z.eqb_spec c 62); [lia|].
  destruct (Z.eqb_spec c 91); [lia|]. destruct (Z.eqb_spec c 93); [lia|].
  destruct (Z.eqb_spec c 47); [lia|]. cbn [orb andb]. exact IH.
Qed.

Lemma arr_common : forall s, Forall ref_char s -> let v := 91 :: s ++ [93] in
  v <> [] /\ shape v /\ Forall ascii v /\ no_occ stream_kw v /\ is_space1 (last v 0) = false.
Proof.
  intros s F v. split; [discriminate|]. split.
  { right. exists 91, (s ++ [93]). split; [auto|]. split; [reflexivity|]. split; [lia|]. split; [lia|].
    unfold last_nws. subst v. change (91 :: s ++ [93]) with ((91 :: s) ++ [93]). rewrite rev_app_distr. reflexivity. }
  split. { constructor; [unfold ascii; lia|]. apply Forall_app. split; [apply ref_ascii; auto|]. constructor; [unfold ascii; lia|constructor]. }
  split. { apply no_s_nostream. constructor; [lia|]. apply Forall_app. split; [|constructor; [lia|constructor]].
    eapply Forall_impl; [|exact F]. intros c H. unfold ref_char, num_char in H. lia. }
  subst v. change (91 :: s ++ [93]) with ((91 :: s) ++ [93]). rewrite last_last. reflexivity.
Qed.

Lemma arr_svalue : forall ids, svalue (norm (refArrText ids)).
Proof.
  intros ids. assert (E : norm (refArrText ids) = 91 :: refs_text ids ++ [93]).
  { destruct ids as [|i ids]; [reflexivity|]. rewrite norm_refArr by discriminate. reflexivity. }
  rewrite E. destruct (arr_common (refs_text ids) (refs_chars ids)) as (A1 & A2 & A3 & A4 & A5).
  split; [auto|]. split; [auto|]. split; [auto|]. split; [exact I|]. split.
  { apply nrm_brack; [apply nrm_refs| |apply refs_chars].
    destruct ids as [|i ids]; [left; reflexivity|right].
    destruct (refs_ends (i :: ids) ltac:(discriminate)) as (c & t & u & d & _ & _ & E2 & ->).
    rewrite E2. unfold last_nws. rewrite rev_app_distr. reflexivity. }
  split; [auto|]. split; [|auto]. left. apply arr_run, refs_chars.
Qed.

Lemma arr_wvalue : forall ids, wvalue (refArrText ids).
Proof.
  intros ids.
  assert (E : exists s, Forall ref_char s /\ refArrText ids = 91 :: s ++ [93]).
  { destruct ids as [|i ids]; [exists []; split; [constructor|reflexivity]|].
    exists (refs_text (i :: ids) ++ [32]). split.
    - apply Forall_app. split; [apply refs_chars|]. constructor; [right; left; auto|constructor].
    - rewrite refArr_refs by discriminate. rewrite <- app_assoc. reflexivity. }
  destruct E as (s & F & E). destruct (arr_common s F) as (A1 & A2 & A3 & A4 & A5). rewrite <- E in *.
  split; [auto|]. split; [auto|]. split; [auto|]. split; [|split; [auto|split; [|auto]]].
  - rewrite E. exact I.
  - apply (arr_svalue ids).
Qed.

Lemma arr_kids : forall ids, Forall is_int ids -> kid_numbers (norm (refArrText ids)) ids.
Proof.
  intros ids F. destruct ids as [|i ids].
  - right. split; auto. exists EOther. reflexivity.
  - left. apply readObjIDs_norm_refArr; [discriminate|]. eapply Forall_impl; [|exact F]. exact is_int_in.
Qed.
