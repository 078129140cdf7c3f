(** References and reference arrays survive writing and reading. *)
From Coq Require Import String List ZArith Lia Bool.
From Verif Require Import Base BaseProofs Props PropsFlat PropsWrite PropsRead PropsNorm.
Open Scope Z_scope.
Open Scope list_scope.

Definition in_int (n : Z) : Prop := int64_min <= n <= int64_max.

(** Characters of a printed number. *)
Definition num_char (c : Z) : Prop := 48 <= c <= 57 \/ c = 45.

Lemma itoa_chars : forall n, Forall num_char (itoa n).
Proof.
  intros n. unfold itoa. destruct (Z.ltb_spec n 0).
  - constructor; [right; auto|]. eapply Forall_impl; [|apply utoa_Forall; lia]. intros; left; auto.
  - eapply Forall_impl; [|apply utoa_Forall; lia]. intros; left; auto.
Qed.

Lemma itoa_nonnil : forall n, itoa n <> [].
Proof. intros n. unfold itoa. destruct (n <? 0); [discriminate|apply utoa_nonnil]. Qed.

Lemma num_trimmed : forall s, Forall num_char s -> trimmed s.
Proof.
  assert (H : forall c, num_char c -> ascii c /\ is_space1 c = false).
  { intros c Hc. unfold num_char, ascii, is_space1 in *. lia. }
  intros s F. destruct s as [|x s]; [split; reflexivity|].
  split.
  - inversion F; subst. apply space_len_cons; apply H; auto.
  - apply Forall_rev in F. destruct (rev (x :: s)) as [|y t] eqn:E; [reflexivity|].
    inversion F; subst. apply rspace_len_cons; apply H; auto.
Qed.

Lemma atoi_trim_itoa : forall n, in_int n -> atoi (trim_space (itoa n)) = Ok n.
Proof. intros n H. rewrite trim_space_id by (apply num_trimmed, itoa_chars). apply atoi_itoa. auto. Qed.

Lemma num_nosp : forall s, Forall num_char s -> Forall (fun c => c <> 32) s.
Proof. intros s F. eapply Forall_impl; [|exact F]. intros a H. unfold num_char in H. lia. Qed.

(** The tokens of a reference list. *)
Definition ref_tokens (ids : list Z) : list bytes := flat_map (fun id => [itoa id; B"0"; B"R"]) ids.

Lemma ref_tokens_nosp : forall ids, Forall (Forall (fun c => c <> 32)) (ref_tokens ids).
Proof.
  induction ids as [|i ids IH]; cbn [ref_tokens flat_map app]; [constructor|].
  constructor; [apply num_nosp, itoa_chars|]. constructor; [repeat constructor; cbn; lia|].
  constructor; [repeat constructor; cbn; lia|exact IH].
Qed.

Lemma readObjIDs_tokens : forall ids, Forall in_int ids -> readObjIDs_loop (ref_tokens ids) = Ok ids.
Proof.
  induction 1 as [|i ids Hi F IH]; [reflexivity|].
  cbn [ref_tokens flat_map app readObjIDs_loop]. fold (ref_tokens ids).
  rewrite atoi_trim_itoa by auto. cbn [bind].
  change (atoi (trim_space (B"0"))) with (Ok 0). cbn [bind].
  rewrite IH. reflexivity.
Qed.

(** Text of a reference list without brackets and without the final space. *)
Definition refs_text (ids : list Z) : bytes := join1 32 (ref_tokens ids).

Lemma join1_app : forall sep a b, a <> [] -> b <> [] -> join1 sep (a ++ b) = join1 sep a ++ sep :: join1 sep b.
Proof.
  intros sep a b Ha Hb. induction a as [|x a IH]; [congruence|].
  destruct a as [|y a].
  - cbn [app join1]. destruct b; [congruence|reflexivity].
  - change ((x :: y :: a) ++ b) with (x :: (y :: a) ++ b).
    change (join1 sep (x :: (y :: a) ++ b)) with (x ++ sep :: join1 sep ((y :: a) ++ b)).
    rewrite IH by discriminate. change (join1 sep (x :: y :: a)) with (x ++ sep :: join1 sep (y :: a)).
    rewrite <- app_assoc. reflexivity.
Qed.

Lemma refs_cons : forall i ids, ids <> [] -> refs_text (i :: ids) = itoa i ++ B" 0 R " ++ refs_text ids.
Proof.
  intros i ids H. unfold refs_text. cbn [ref_tokens flat_map]. fold (ref_tokens ids).
  rewrite join1_app; [|discriminate|destruct ids; [congruence|discriminate]].
  cbn [join1]. rewrite <- !app_assoc. cbn [app]. do 2 f_equal.
Qed.

Lemma refs_one : forall i, refs_text [i] = itoa i ++ B" 0 R".
Proof. reflexivity. Qed.

Lemma refArr_refs : forall ids, ids <> [] ->
  refArrText ids = B"[" ++ refs_text ids ++ B" ]".
Proof.
  intros ids H. unfold refArrText. f_equal.
  induction ids as [|i ids IH]; [congruence|].
  destruct ids as [|j ids].
  - cbn [flat_map]. rewrite refs_one, app_nil_r, <- !app_assoc. reflexivity.
  - rewrite refs_cons by discriminate. specialize (IH ltac:(discriminate)).
    remember (j :: ids) as l. cbn [flat_map]. rewrite <- !app_assoc. rewrite IH. reflexivity.
Qed.

(** Characters that occur in a reference list. *)
Definition ref_char (c : Z) : Prop := num_char c \/ c = 32 \/ c = 82.

Lemma refs_chars : forall ids, Forall ref_char (refs_text ids).
Proof.
  assert (N : forall n, Forall ref_char (itoa n)).
  { intros n. eapply Forall_impl; [|apply itoa_chars]. intros; left; auto. }
  assert (K : Forall ref_char (B" 0 R ")).
  { apply Forall_forall. intros c Hc. cbn in Hc. unfold ref_char, num_char. lia. }
  induction ids as [|i ids IH]; [constructor|].
  destruct ids as [|j ids].
  - rewrite refs_one. apply Forall_app. split; auto.
    apply Forall_forall. intros c Hc. cbn in Hc. unfold ref_char, num_char. lia.
  - rewrite refs_cons by discriminate. apply Forall_app. split; [auto|]. apply Forall_app. split; [exact K|exact IH].
Qed.

Lemma refs_ends : forall ids, ids <> [] -> exists c t u d, refs_text ids = c :: t /\ num_char c /\
  refs_text ids = u ++ [d] /\ d = 82.
Proof.
  intros ids H.
  assert (F : exists c t, refs_text ids = c :: t /\ num_char c).
  { destruct ids as [|i ids]; [congruence|]. pose proof (itoa_chars i) as C. pose proof (itoa_nonnil i) as Hn.
    destruct (itoa i) as [|c t] eqn:E; [congruence|]. inversion C; subst.
    destruct ids; [rewrite refs_one|rewrite refs_cons by discriminate]; rewrite E; cbn [app]; eauto. }
  assert (L : exists u, refs_text ids = u ++ [82]).
  { clear F. induction ids as [|i ids IH]; [congruence|]. destruct ids as [|j ids].
    - exists (itoa i ++ B" 0 "). rewrite refs_one, <- app_assoc. reflexivity.
    - rewrite refs_cons by discriminate. destruct IH as [u E]; [discriminate|].
      exists (itoa i ++ B" 0 R " ++ u). rewrite E, <- !app_assoc. reflexivity. }
  destruct F as (c & t & F1 & F2). destruct L as [u L]. exists c, t, u, 82. auto.
Qed.

Lemma refs_trimmed : forall ids, ids <> [] -> trimmed (refs_text ids).
Proof.
  intros ids H. destruct (refs_ends ids H) as (c & t & u & d & E1 & C & E2 & ->).
  split.
  - rewrite E1. apply space_len_cons; unfold num_char, ascii, is_space1 in *; lia.
  - rewrite E2, rev_app_distr. apply rspace_len_cons; unfold ascii; [lia|reflexivity].
Qed.

(** Any bracketed form of the list, with or without the trailing space. *)
Lemma readObjIDs_refs : forall ids sp, ids <> [] -> Forall in_int ids -> forallb is_space1 sp = true ->
  readObjIDs (B"[" ++ refs_text ids ++ sp ++ B"]") = Ok ids.
Proof.
  intros ids sp H F S. unfold readObjIDs.
  assert (Sp : Forall (fun c => c <> 91 /\ c <> 93) sp).
  { apply Forall_forall. intros c Hc. rewrite forallb_forall in S. apply S in Hc. unfold is_space1 in Hc. lia. }
  assert (R : Forall (fun c => c <> 91 /\ c <> 93) (refs_text ids)).
  { eapply Forall_impl; [|apply refs_chars]. intros a Ha. unfold ref_char, num_char in Ha. lia. }
  rewrite !replace1_app.
  change (replace1 93 [] (replace1 91 [] (B"["))) with (@nil Z).
  change (replace1 93 [] (replace1 91 [] (B"]"))) with (@nil Z).
  rewrite !(replace1_none 91), !(replace1_none 93);
    try (eapply Forall_impl; [|eassumption]; intros a [? ?]; auto).
  cbn [app]. rewrite app_nil_r.
  change (refs_text ids ++ sp) with ([] ++ refs_text ids ++ sp).
  rewrite trim_space_pad by (auto; apply refs_trimmed; auto).
  unfold refs_text. rewrite split1_join.
  - apply readObjIDs_tokens. auto.
  - destruct ids; [congruence|discriminate].
  - apply ref_tokens_nosp.
Qed.

Theorem readObjIDs_refArr : forall ids, ids <> [] -> Forall in_int ids -> readObjIDs (refArrText ids) = Ok ids.
Proof.
  intros ids H F. rewrite refArr_refs by auto. apply (readObjIDs_refs ids [32]); auto.
Qed.

(** Normalised reference lists. *)
Lemma norm_plain : forall s, Forall ref_char s -> (forall a b, s <> a ++ 32 :: 32 :: b) -> (s = [] \/ last_nws s) ->
  nrm s = true.
Proof.
  intros s F D L. unfold nrm. induction s as [|c s IH]; [reflexivity|].
  inversion F as [|? ? Hc F']; subst.
  assert (IH' : nrmF badA s = true).
  { apply IH; auto.
    - intros a b E. apply (D (c :: a) b). subst. reflexivity.
    - destruct s; auto. right. destruct L; [discriminate|]. eapply last_nws_tail; eauto. discriminate. }
  cbn [nrmF]. rewrite IH'. rewrite andb_true_r.
  destruct (is_ws4 c) eqn:E; auto.
  assert (c = 32) by (unfold ref_char, num_char, is_ws4 in *; lia). subst c.
  destruct s as [|d s].
  - destruct L as [|L]; [discriminate|]. apply last_nws_1 in L. discriminate.
  - inversion F' as [|? ? Hd _]; subst.
    assert (d <> 32) by (intros ->; apply (D [] s); reflexivity).
    cbn [nws_head]. replace (is_ws4 d) with false by (unfold ref_char, num_char, is_ws4 in *; lia).
    unfold badA, bad4, bad3, bad2, bad1, lone, prefixb.
    unfold ref_char, num_char in Hd. destruct s as [|e s]; lia.
Qed.

Lemma refs_nodouble : forall ids a b, refs_text ids <> a ++ 32 :: 32 :: b.
Proof.
  intros ids a b E.
  assert (S : split1 32 (refs_text ids) = ref_tokens ids \/ ids = []).
  { destruct ids; auto. left. unfold refs_text. rewrite split1_join; auto; [discriminate|apply ref_tokens_nosp]. }
  assert (Ne : Forall (fun w => w <> []) (ref_tokens ids)).
  { clear. induction ids; cbn [ref_tokens flat_map app]; repeat constructor; auto; try discriminate. apply itoa_nonnil. }
  assert (G : forall x, In [] (split1 32 (x ++ 32 :: 32 :: b))).
  { induction x as [|c x IH].
    - cbn. right. left. reflexivity.
    - cbn [app split1]. destruct (c =? 32); [right; exact IH|].
      assert (G2 : forall y, In [] (tl (split1 32 (y ++ 32 :: 32 :: b)))).
      { induction y as [|e y IHy]; [cbn; auto|]. cbn [app split1]. destruct (e =? 32).
        - cbn [tl]. pose proof (split1_nonnil 32 (y ++ 32 :: 32 :: b)).
          destruct (split1 32 (y ++ 32 :: 32 :: b)) as [|w ws]; [congruence|]. right. exact IHy.
        - destruct (split1 32 (y ++ 32 :: 32 :: b)) as [|w ws]; [destruct IHy|]. exact IHy. }
      specialize (G2 x). destruct (split1 32 (x ++ 32 :: 32 :: b)) as [|w ws]; [destruct G2|]. right. exact G2. }
  destruct S as [S| ->].
  - rewrite E in S. specialize (G a). rewrite S in G. rewrite Forall_forall in Ne. apply Ne in G. congruence.
  - cbn in E. destruct a; discriminate.
Qed.

Lemma nrm_refs : forall ids, nrm (refs_text ids) = true.
Proof.
  intros ids. apply norm_plain.
  - apply refs_chars.
  - intros. apply refs_nodouble.
  - destruct ids as [|i ids]; [left; reflexivity|]. right.
    destruct (refs_ends (i :: ids)) as (c & t & u & d & _ & _ & E & ->); [discriminate|].
    rewrite E. unfold last_nws. rewrite rev_app_distr. reflexivity.
Qed.

Lemma nrm_brack : forall s, nrm s = true -> (s = [] \/ last_nws s) -> Forall ref_char s -> nrm (91 :: s ++ [93]) = true.
Proof.
  intros s N L F. unfold nrm in *. cbn [nrmF]. change (is_ws4 91) with false. cbn iota. cbn [andb].
  induction s as [|c s IH]; [reflexivity|].
  cbn [app nrmF] in *. apply andb_true_iff in N. destruct N as [N1 N2]. inversion F as [|? ? Hc F']; subst.
  rewrite IH; auto.
  2:{ destruct s; auto. right. destruct L; [discriminate|]. eapply last_nws_tail; eauto. discriminate. }
  rewrite andb_true_r. destruct (is_ws4 c) eqn:E; auto.
  destruct s as [|d s]; [destruct L as [|L]; [discriminate|apply last_nws_1 in L; congruence]|].
  apply andb_true_iff in N1. destruct N1 as [N1 N3]. cbn [app nws_head] in *. rewrite N1. cbn [andb].
  inversion F' as [|? ? Hd _]; subst. unfold ref_char, num_char in Hd.
  unfold badA, bad4, bad3, bad2, bad1, lone, prefixb. destruct (s ++ [93]); lia.
Qed.

Lemma norm_refArr : forall ids, ids <> [] -> norm (refArrText ids) = B"[" ++ refs_text ids ++ B"]".
Proof.
  intros ids H. rewrite refArr_refs by auto.
  set (r := refs_text ids). pose proof (nrm_refs ids) as N. fold r in N.
  assert (Lr : last_nws r /\ r <> []).
  { destruct (refs_ends ids H) as (c & t & u & d & E1 & _ & E & ->). fold r in E, E1. split.
    - rewrite E. unfold last_nws. rewrite rev_app_distr. reflexivity.
    - rewrite E1. discriminate. }
  destruct Lr as [Lr Rn].
  assert (Fr : Forall ref_char r) by apply refs_chars.
  assert (S : forall p, (p = [47] \/ p = [91]) -> strip p (91 :: r ++ [32; 93]) = 91 :: r ++ [32; 93]).
  { intros p Hp. rewrite strip_hd by reflexivity. f_equal.
    rewrite strip_app by (auto; destruct Hp; subst; apply no_straddle_1).
    rewrite (nrm_strip_id badA p r); auto.
    - destruct Hp; subst; reflexivity.
    - intros t Ht. unfold badA, bad4, bad3, bad2, bad1. rewrite !orb_true_iff. destruct Hp; subst; auto 10. }
  assert (C : collapse (91 :: r ++ [32; 93]) = 91 :: r ++ [32; 93]).
  { rewrite collapse_hd by reflexivity. f_equal.
    replace (r ++ [32; 93]) with ((r ++ [32]) ++ [93]) by (rewrite <- app_assoc; reflexivity).
    rewrite collapse_app by reflexivity. rewrite <- app_assoc. 
    assert (G : forall x, last_nws x -> nrmF badA x = true -> collapse (x ++ [32]) = x ++ [32]).
    { clear. induction x as [|c x IH]; intros L N; [reflexivity|].
      cbn [nrmF] in N. apply andb_true_iff in N. destruct N as [N1 N2].
      destruct x as [|d x].
      - apply last_nws_1 in L. cbn [app collapse]. rewrite L. reflexivity.
      - cbn [app]. change (d :: x ++ [32]) with ((d :: x) ++ [32]).
        assert (IH' := IH (last_nws_tail _ _ L ltac:(discriminate)) N2).
        destruct (is_ws4 c) eqn:E.
        + assert (c = 32) by (unfold is_ws4 in *; destruct (c =? 32) eqn:Q; [lia|rewrite ?andb_false_l in N1; discriminate]).
          subst c. cbn [app] in *. change (collapse (32 :: d :: x ++ [32])) with
            (if is_ws4 d then collapse (d :: x ++ [32]) else 32 :: collapse (d :: x ++ [32])).
          cbn [nws_head] in N1. destruct (is_ws4 d); [rewrite andb_false_r in N1; discriminate|]. rewrite IH'. reflexivity.
        + rewrite collapse_hd by auto. rewrite IH'. reflexivity. }
    rewrite G by auto. rewrite <- app_assoc. reflexivity. }
  change (B"[" ++ r ++ B" ]") with (91 :: r ++ [32; 93]).
  unfold norm. rewrite C. rewrite (S (B"/")) by (left; reflexivity). rewrite (S (B"[")) by (right; reflexivity).
  assert (S3 : strip (B"]") (91 :: r ++ [32; 93]) = 91 :: r ++ [93]).
  { rewrite strip_hd by reflexivity. f_equal.
    rewrite strip_app by (auto; apply no_straddle_1).
    rewrite (nrm_strip_id badA (B"]") r); auto.
    intros t Ht. unfold badA, bad4, bad3, bad2, bad1. rewrite !orb_true_iff. left. left. right. exact Ht. }
  rewrite S3.
  pose proof (nrm_brack r N (or_intror Lr) Fr) as NB.
  rewrite (nrm_strip_id badA (B"<<") _); auto.
  - rewrite (nrm_strip_id badA (B">>") _); auto.
    intros t Ht. unfold badA. rewrite !orb_true_iff. right. exact Ht.
  - intros t Ht. unfold badA, bad4. rewrite !orb_true_iff. left. right. exact Ht.
Qed.

Theorem readObjIDs_norm_refArr : forall ids, ids <> [] -> Forall in_int ids ->
  readObjIDs (norm (refArrText ids)) = Ok ids.
Proof.
  intros ids H F. rewrite norm_refArr by auto. apply (readObjIDs_refs ids []); auto.
Qed.

Theorem readObjID_ref : forall id, in_int id -> readObjID (refText id) = Ok id.
Proof.
  intros id H. unfold readObjID, refText.
  assert (T : trim_space (itoa id ++ B" 0 R") = itoa id ++ B" 0 R").
  { apply trim_space_id. rewrite <- refs_one. apply refs_trimmed. discriminate. }
  rewrite T. pose proof (itoa_nonnil id).
  destruct (itoa id ++ B" 0 R") as [|x l] eqn:E; [destruct (itoa id); discriminate|]. rewrite <- E.
  rewrite <- refs_one. unfold refs_text. rewrite split1_join by (auto using ref_tokens_nosp; discriminate).
  cbn [ref_tokens flat_map app]. apply atoi_trim_itoa. auto.
Qed.

Lemma norm_ref : forall id, norm (refText id) = refText id.
Proof. intros id. apply nrm_norm_id. unfold refText. rewrite <- refs_one. apply nrm_refs. Qed.
