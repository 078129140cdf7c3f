(** Which collected items look like an inner node of the page tree. *)
From Coq Require Import String List ZArith Lia Bool Permutation.
From Verif Require Import Base BaseProofs Output Props PropsSpec PropsFlat PropsWrite PropsRead PropsNorm PropsStable PropsRefs PdfData PagesSpec PagesProofs PagesEdit
  Crawl Inject CrawlProofs Squeeze PiecesRead PiecesNest CrawlVisits PageCrawl InjectMaps InjectNames InjectItems InjectTexts InjectSpec.
Open Scope Z_scope.
Open Scope list_scope.

Definition solid (n : bytes) : Prop := n <> [] /\ ~ In 10 n /\ ~ In 32 n /\ hd 0 n = 47.

Lemma mentions_occ : forall ps n, mentions ps n <-> exists i, occ n (text_of ps) i.
Proof.
  intros ps n. split.
  - intros (a & b & E). exists (List.length a), a, b. auto.
  - intros (i & a & b & E & _). exists a, b. auto.
Qed.

Lemma quiet_iff : forall ps n, ~ mentions ps n <-> no_occ n (text_of ps).
Proof.
  intros ps n. rewrite mentions_occ. split; [intros H i O'; apply H; eauto|]. intros H (i & O'). eapply H; eauto.
Qed.

Lemma no_sep : forall n a c b, solid n -> c = 10 \/ c = 32 -> (no_occ n (a ++ c :: b) <-> no_occ n a /\ no_occ n b).
Proof.
  intros n a c b (Nn & N1 & N2 & _) C. split.
  - intros H. split; [eapply no_occ_cut; eauto|]. intros i O'. apply (H (List.length a + S i)%nat).
    apply occ_skip. apply occ_cons. auto.
  - intros (H1 & H2). apply no_occ_sep; auto. destruct C; subst; auto.
Qed.

Lemma text_cons : forall p ps, text_of (p :: ps) = (47 :: pkey p) ++ 32 :: pval p ++ 10 :: text_of ps.
Proof. intros. unfold text_of. cbn [flat_map app]. repeat (rewrite <- ?app_assoc; cbn [app]). reflexivity. Qed.

Lemma text_clear : forall n ps, solid n -> (no_occ n (text_of ps) <-> Forall (fun p => no_occ n (47 :: pkey p) /\ no_occ n (pval p)) ps).
Proof.
  intros n ps S. induction ps as [|p ps IH].
  - split; [constructor|]. intros _ i O'. apply occ_len in O'. destruct S as (Nn & _). destruct n; [congruence|]. cbn in O'. lia.
  - rewrite text_cons, !no_sep by auto. rewrite IH. split; [intros (H1 & H2 & H3); constructor; auto|]. intros H. inversion H; subst. tauto.
Qed.

Lemma strs_cons : forall p ps, items_text (strs (p :: ps)) = (47 :: pkey p) ++ 32 :: (match trim_space (pval p) with [] => [] | _ => pval p ++ [10] end) ++ items_text (strs ps).
Proof. intros. unfold strs, items_text. cbn [map flat_map item_text app]. repeat (rewrite <- ?app_assoc; cbn [app]). reflexivity. Qed.

Lemma occ_nil : forall n, n <> [] -> no_occ n [].
Proof. intros n Nn i O'. apply occ_len in O'. destruct n; [congruence|]. cbn in O'. lia. Qed.

Lemma strs_clear : forall n ps rest, solid n -> Forall (fun p => no_occ n (47 :: pkey p) /\ no_occ n (pval p)) ps ->
  no_occ n rest -> no_occ n (items_text (strs ps) ++ rest).
Proof.
  intros n ps rest S F R. induction F as [|p ps (H1 & H2) F IH]; [exact R|].
  rewrite strs_cons. rewrite <- app_assoc. cbn [app].
  match goal with |- no_occ n (47 :: pkey p ++ 32 :: ?x) => change (no_occ n ((47 :: pkey p) ++ 32 :: x)) end.
  apply no_sep; auto. split; auto. destruct (trim_space (pval p)); [exact IH|]. rewrite <- !app_assoc. cbn [app].
  apply no_sep; auto.
Qed.

Lemma strs_shown : forall n ps rest, solid n -> Forall visible ps -> no_occ n (items_text (strs ps) ++ rest) ->
  Forall (fun p => no_occ n (47 :: pkey p) /\ no_occ n (pval p)) ps.
Proof.
  intros n ps rest S V. induction V as [|p ps Vp V IH]; intros H; [constructor|].
  rewrite strs_cons in H. rewrite <- app_assoc in H. cbn [app] in H.
  match type of H with no_occ n (47 :: pkey p ++ 32 :: ?x) => change (no_occ n ((47 :: pkey p) ++ 32 :: x)) in H end.
  apply no_sep in H; auto. destruct H as (H1 & H2).
  destruct (trim_space (pval p)) as [|c t] eqn:T.
  - constructor; [|apply IH; exact H2]. split; auto. destruct Vp as [Vp|Vp]; [|congruence]. rewrite Vp. apply occ_nil. apply S.
  - rewrite <- !app_assoc in H2. cbn [app] in H2. apply no_sep in H2; auto. destruct H2 as (H2 & H3). constructor; auto.
Qed.

Lemma solid_pages : solid (B"/Pages").
Proof. repeat split; try discriminate; cbn; lia. Qed.
Lemma solid_parent : solid (B"/Parent").
Proof. repeat split; try discriminate; cbn; lia. Qed.

Lemma inner_no : forall n ps, n = B"/Pages" \/ n = B"/Parent" -> ~ mentions ps n -> is_inner (strs ps) = false.
Proof.
  intros n ps N H. assert (S : solid n) by (destruct N; subst; [apply solid_pages|apply solid_parent]).
  apply quiet_iff in H. apply text_clear in H; auto. pose proof (strs_clear n ps [] S H (occ_nil n (proj1 S))) as X. rewrite app_nil_r in X.
  apply contains_false in X. unfold is_inner. destruct N; subst n; rewrite X; [reflexivity|apply andb_false_r].
Qed.

Lemma inner_yes : forall ps, mentions ps (B"/Pages") -> mentions ps (B"/Parent") -> Forall visible ps -> is_inner (strs ps) = true.
Proof.
  intros ps H1 H2 V. assert (X : forall n, solid n -> mentions ps n -> contains n (items_text (strs ps)) = true).
  { intros n S H. destruct (contains n (items_text (strs ps))) eqn:E; [reflexivity|]. exfalso. apply contains_false in E.
    rewrite <- (app_nil_r (items_text (strs ps))) in E. apply strs_shown in E; auto. apply text_clear in E; auto.
    apply quiet_iff in E. contradiction. }
  unfold is_inner. rewrite (X _ solid_pages H1), (X _ solid_parent H2). reflexivity.
Qed.

(** Several copies. *)
Lemma copies_no : forall n ps k, n = B"/Pages" \/ n = B"/Parent" -> ~ mentions ps n -> is_inner (concat (repeat (strs ps) k)) = false.
Proof.
  intros n ps k N H. assert (S : solid n) by (destruct N; subst; [apply solid_pages|apply solid_parent]).
  apply quiet_iff in H. apply text_clear in H; auto.
  assert (X : no_occ n (items_text (concat (repeat (strs ps) k)))).
  { induction k as [|k IH]; [apply occ_nil; apply S|]. cbn [repeat concat]. rewrite items_app. apply strs_clear; auto. }
  apply contains_false in X. unfold is_inner. destruct N; subst n; rewrite X; [reflexivity|apply andb_false_r].
Qed.

(** A page with its resource dictionary in it. *)
Lemma page_no : forall a k sps b, ~ mentions (a ++ b) (B"/Pages") -> ~ mentions sps (B"/Pages") -> no_occ (B"/Pages") (47 :: k) ->
  is_inner (strs a ++ ICr k (strs sps) :: strs b) = false.
Proof.
  intros a k sps b H1 H2 Hk. pose proof solid_pages as S. apply quiet_iff in H1, H2. apply text_clear in H1, H2; auto.
  apply Forall_app in H1. destruct H1 as (Ha & Hb).
  assert (X : no_occ (B"/Pages") (items_text (strs a ++ ICr k (strs sps) :: strs b))).
  { rewrite items_app. apply strs_clear; auto.
    change (items_text (ICr k (strs sps) :: strs b)) with (item_text (ICr k (strs sps)) ++ items_text (strs b)). cbn [item_text].
    change (flat_map item_text (strs sps)) with (items_text (strs sps)).
    replace (([47] ++ k ++ [32] ++ [10; 9] ++ B"<<" ++ items_text (strs sps) ++ B">>" ++ [10]) ++ items_text (strs b))
      with ((47 :: k) ++ 32 :: [] ++ 10 :: [9; 60; 60] ++ items_text (strs sps) ++ [62; 62] ++ 10 :: items_text (strs b))
      by (repeat (rewrite <- ?app_assoc; cbn [app]); reflexivity).
    apply no_sep; auto. split; auto. apply no_sep; auto. split; [apply occ_nil; apply S|].
    assert (Step : forall c r, c <> 47 -> no_occ (B"/Pages") r -> no_occ (B"/Pages") (c :: r)).
    { intros c r C N i O'. destruct i as [|i].
      - destruct O' as (x & y & E & L). destruct x; [|discriminate]. cbn in E. inversion E. congruence.
      - rewrite occ_cons in O'. eapply N; eauto. }
    apply Step; [lia|]. apply Step; [lia|]. apply Step; [lia|]. cbn [app]. apply strs_clear; auto.
    apply Step; [lia|]. apply Step; [lia|]. apply Step; [lia|].
    rewrite <- (app_nil_r (items_text (strs b))). apply strs_clear; auto. apply occ_nil; apply S. }
  apply contains_false in X. unfold is_inner. rewrite X. reflexivity.
Qed.
