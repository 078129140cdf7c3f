(** The texts of resource dictionaries and pages after a dictionary in them,
    under any name, is rewritten or added. *)
From Coq Require Import String List ZArith Lia Bool Permutation.
From Verif Require Import Base BaseProofs Output Props PropsFlat PropsWrite PropsRead PropsNorm PropsStable PropsRefs PdfData PagesSpec PagesEdit
  Crawl Inject CrawlProofs Squeeze PiecesRead PiecesNest CrawlVisits PageCrawl InjectMaps InjectNames InjectItems InjectTexts.
Open Scope Z_scope.
Open Scope list_scope.

Lemma nrm_lone : forall s, nrm s = true -> lone_free s = true.
Proof.
  unfold nrm. induction s as [|c t IH]; intros H; [reflexivity|]. cbn [nrmF lone_free] in *. apply andb_true_iff in H. destruct H as (H & H2).
  rewrite IH by auto. rewrite andb_true_r. destruct (is_ws4 c); [|reflexivity]. cbn [andb]. rewrite !andb_true_iff in H. destruct H as (_ & H).
  unfold badA, bad4, bad3, bad2, bad1 in H. destruct (lone t); [discriminate|reflexivity].
Qed.

Lemma quiet_wrap : forall X, lone_free (B"<<" ++ X ++ B">>") = true -> quiet (B"<<" ++ X ++ B">>").
Proof.
  intros X H. unfold quiet. change (B"<<" ++ X ++ B">>") with (60 :: 60 :: X ++ [62; 62]) in *. cbn [lone_free app] in *.
  change (is_ws4 60) with false in *. change (is_ws4 32) with true. cbn [andb negb lone] in *. change (is_ws4 60) with false. rewrite andb_false_r. cbn [andb negb].
  replace ((X ++ [62; 62]) ++ [32]) with (X ++ 62 :: [62; 32]) by (rewrite <- app_assoc; reflexivity). rewrite lf_app by reflexivity.
  rewrite lf_app in H by reflexivity. apply andb_true_iff in H. destruct H as (H & _). rewrite H. reflexivity.
Qed.

Lemma norm_idem : forall lead X, wsp lead -> nestable X -> norm (norm (dtext lead X)) = norm (dtext lead X) /\ nrm (norm (dtext lead X)) = true.
Proof.
  intros lead X W N. destruct (nest_wvalue lead X W N) as ((V1 & V2 & _) & Q & _).
  assert (Nn : nrm (norm (dtext lead X)) = true).
  { apply nrm_norm.
    - unfold quiet in Q. apply (lone_free_suffix [32]) in Q. eapply lone_free_prefix. exact Q.
    - right. destruct V2 as [V2|(c & w & _ & _ & _ & _ & H)]; [congruence|exact H]. }
  split; [apply nrm_norm_id|]; exact Nn.
Qed.

Lemma stable_in_set : forall k v ps, Forall stable ps -> (forall q, In q ps -> pkey q = k -> stable (mkProp (pkey q) v)) -> Forall stable (setPropByKey k v ps).
Proof.
  intros k v ps F H. induction F as [|q ps Hq F IH]; [constructor|]. cbn [setPropByKey]. destruct (beqb (pkey q) k) eqn:E.
  - constructor; [|exact F]. apply H; [left; auto|apply beqb_eq; auto].
  - constructor; [exact Hq|]. apply IH. intros q' Hq'. apply H. right. auto.
Qed.

Section Value.
  Variable K : bytes.
  Variable lead : bytes.
  Variable X : list piece.
  Hypothesis W : wsp lead.
  Hypothesis NX : nestable X.
  Notation w := (dtext lead X).

  Lemma k_trim : trim_space (w ++ [10]) <> [].
  Proof. unfold dtext. rewrite (app_assoc lead). apply dict_trim. Qed.
  Lemma k_form : exists t, norm w = B"<<" ++ t ++ B">>".
  Proof. eexists. apply norm_dtext; auto. Qed.
  Lemma k_type : propertyType (norm w) = PObject.
  Proof. apply nest_type; auto. Qed.
  Lemma k_read : readProperties (norm w) = Ok (map nprop (map pc_prop X)).
  Proof. apply nest_read; auto. Qed.

  (** The value as it is read back. *)
  Lemma k_value : wvalue (norm w) /\ quiet (norm w) /\ bal 0 0 (norm w) = true /\ shape (norm w) /\ gt_ok (norm w) /\ Forall ascii (norm w) /\ no_occ stream_kw (norm w) /\
    trim_space (norm w) <> [].
  Proof.
    destruct (nest_wvalue lead X W NX) as ((V1 & V2 & V3 & V4 & V5 & V6 & V7) & Q & Bl). destruct (norm_idem lead X W NX) as (Id & Nn).
    pose proof (norm_dtext lead X W NX) as E. set (t := ntext (map pc_prop X)) in *.
    assert (L : exists u, norm w = u ++ [62]). { exists (B"<<" ++ t ++ [62]). rewrite E, <- !app_assoc. reflexivity. }
    assert (S : shape (norm w)).
    { right. exists 60, (60 :: t ++ B">>"). split; [exact E|]. split; [reflexivity|]. split; [lia|]. split; [lia|]. destruct L as (u & ->).
      unfold last_nws. rewrite rev_app_distr. reflexivity. }
    assert (G : gt_ok (norm w)) by (rewrite E; exact I).
    assert (A : Forall ascii (norm w)) by (apply norm_ascii; auto).
    assert (N : no_occ stream_kw (norm w)) by (apply no_occ_norm; auto).
    split.
    { split; [rewrite E; discriminate|]. split; [exact S|]. split; [exact A|]. split; [rewrite nrm_norm4_id by auto; exact G|]. split; [exact N|].
      split; [rewrite Id; exact V6|]. destruct L as (u & ->). rewrite last_last. reflexivity. }
    split. { rewrite E. apply quiet_wrap. rewrite <- E. apply nrm_lone. exact Nn. }
    split. { rewrite norm_sq, bal_sq by lia. exact Bl. }
    split; [exact S|]. split; [exact G|]. split; [exact A|]. split; [exact N|].
    rewrite E, trim_space_id by apply dict_trimmed. discriminate.
  Qed.

  (** A resource dictionary that is an object of its own. *)
  Lemma k_text : forall rps, good rps -> Forall visible rps ->
    readProperties (dictwrap (items_text (setValOf K (w ++ [10]) (strs rps)))) = Ok (setPropByKey K (norm w) rps).
  Proof.
    intros rps G V. rewrite setValOf_strs, spset_text by (auto using k_trim).
    set (L := spset K [32] w [10; 10] rps).
    replace (dictwrap (ptext L)) with (dtext [10] L ++ [10]) by (unfold dictwrap, dtext; rewrite <- !app_assoc; reflexivity).
    rewrite pieces_read; try (apply ws1; reflexivity).
    - unfold L. rewrite spset_props, set_norm by apply G. reflexivity.
    - apply spset_ok; [apply ws1; reflexivity|discriminate|]. repeat (constructor; [reflexivity|]). constructor.
    - unfold L. rewrite spset_props. apply wlist_set; [apply nest_wvalue; auto|apply good_wlist; auto].
  Qed.

  Lemma k_nestable : forall sps, good sps -> Forall nests sps -> nestable (spset K [32] w [10; 10] sps).
  Proof.
    intros sps G N. destruct (nest_wvalue lead X W NX) as (Wv & Q & Bl). unfold nestable. rewrite spset_props. split; [|split; [|split]].
    - apply spset_ok; [apply ws1; reflexivity|discriminate|]. repeat (constructor; [reflexivity|]). constructor.
    - apply wlist_set; auto. apply good_wlist; auto.
    - apply spset_bal; auto. eapply Forall_impl; [|exact N]. intros p H. apply H.
    - apply spset_quiet; auto. eapply Forall_impl; [|exact N]. intros p H. apply H.
  Qed.

  (** The entries after that. *)
  Lemma k_good : forall rps, good rps -> good (setPropByKey K (norm w) rps).
  Proof.
    intros rps (S & R & L). destruct k_value as ((V1 & V2 & V3 & V4 & V5 & V6 & V7) & Q & Bl & Sh & Gt & A & N & _). destruct (norm_idem lead X W NX) as (Id & Nn).
    split; [|split].
    - apply stable_in_set; [exact S|]. intros q Hq _. rewrite Forall_forall in S. destruct (S q Hq) as (S1 & _ & _ & _ & _ & S6 & _).
      unfold stable. cbn [pkey pval]. auto 10.
    - apply run_set; [exact V6|exact R].
    - apply last_ok_set; [exact V1|exact V7|exact L].
  Qed.
  Lemma k_visible : forall rps, Forall visible rps -> Forall visible (setPropByKey K (norm w) rps).
  Proof.
    intros rps F. destruct k_value as (_ & _ & _ & _ & _ & _ & _ & Tr). induction F as [|q ps Hq F IH]; [constructor|]. cbn [setPropByKey].
    destruct (beqb (pkey q) K); constructor; auto. right. exact Tr.
  Qed.
  Lemma k_nests : forall rps, Forall nests rps -> Forall nests (setPropByKey K (norm w) rps).
  Proof.
    intros rps F. destruct k_value as (_ & Q & Bl & _). induction F as [|q ps Hq F IH]; [constructor|]. cbn [setPropByKey].
    destruct (beqb (pkey q) K); constructor; auto. destruct Hq as ((H1 & H2) & H3). split; [split; auto|exact Q].
  Qed.

  (** A page with the resource dictionary in it. *)
  Definition kpage_items (ps : list prop) (sps : list prop) (l : list item) : Prop :=
    exists a p b, ps = a ++ p :: b /\ pkey p = B"Resources" /\ getPropByKey (B"Resources") a = None /\
      getPropByKey K a = None /\ l = strs a ++ ICr (pkey p) (strs sps) :: strs b.

  Lemma k_page_at : forall ps sps l, kpage_items ps sps l -> good ps -> Forall visible ps -> good sps -> Forall visible sps -> Forall nests sps ->
    let Y := spset K [32] w [10; 10] sps in nestable Y /\ map nprop (map pc_prop Y) = setPropByKey K (norm w) sps /\
      readProperties (dictwrap (items_text (setValOf K (w ++ [10]) l))) = Ok (setPropByKey (B"Resources") (norm (dtext [] Y)) ps).
  Proof.
    intros ps sps l (a & p & b & E & Kp & Na & Nf & ->) G V Gs Vs Ns. cbv zeta.
    set (S := spset K [32] w [10; 10] sps). pose proof (k_nestable sps Gs Ns) as NS. fold S in NS. assert (W0 : wsp []) by constructor.
    split; [exact NS|]. split; [unfold S; rewrite spset_props, set_norm by apply Gs; reflexivity|].
    rewrite setValOf_skip, setValOf_cr, setValOf_strs by auto.
    subst ps. apply Forall_app in V. destruct V as (Va & V). inversion V as [|? ? Vp Vb]; subst.
    assert (T : items_text (strs a ++ ICr (pkey p) (strs (setPropByKey K (w ++ [10]) sps)) :: strs b) =
      ptext (spset (B"Resources") [32; 10; 9] (dtext [] S) [10] (a ++ p :: b))).
    { rewrite spset_split by auto. rewrite ptext_app, ptext_cons. cbn [pc_key pc_gap pc_val pc_end].
      rewrite items_app, strs_text by auto. f_equal.
      match goal with |- items_text (?x :: ?y) = _ => change (items_text (x :: y)) with (item_text x ++ items_text y) end.
      rewrite (strs_text b) by auto. cbn [item_text].
      change (flat_map item_text (strs (setPropByKey K (w ++ [10]) sps))) with (items_text (strs (setPropByKey K (w ++ [10]) sps))).
      rewrite spset_text by (auto using k_trim). fold S. change (dtext [] S) with (B"<<" ++ ptext S ++ B">>"). cbn [app]. repeat (rewrite <- ?app_assoc; cbn [app]). reflexivity. }
    rewrite T. set (L := spset (B"Resources") [32; 10; 9] (dtext [] S) [10] (a ++ p :: b)).
    replace (dictwrap (ptext L)) with (dtext [10] L ++ [10]) by (unfold dictwrap, dtext; rewrite <- !app_assoc; reflexivity).
    rewrite pieces_read; try (apply ws1; reflexivity).
    - unfold L. rewrite spset_props, set_norm by apply G. reflexivity.
    - apply spset_ok; [|discriminate|apply ws1; reflexivity]. repeat (constructor; [reflexivity|]). constructor.
    - unfold L. rewrite spset_props. apply wlist_set; [apply nest_wvalue; auto|apply good_wlist; auto].
  Qed.

  Lemma k_page : forall ps sps l, kpage_items ps sps l -> good ps -> Forall visible ps -> good sps -> Forall visible sps -> Forall nests sps ->
    exists lead' Y, wsp lead' /\ nestable Y /\ map nprop (map pc_prop Y) = setPropByKey K (norm w) sps /\
      readProperties (dictwrap (items_text (setValOf K (w ++ [10]) l))) = Ok (setPropByKey (B"Resources") (norm (dtext lead' Y)) ps).
  Proof.
    intros ps sps l KI G V Gs Vs Ns. exists [], (spset K [32] w [10; 10] sps). split; [constructor|]. apply (k_page_at ps sps l); auto.
  Qed.

  (** An entry added at the end. *)
  Lemma k_added : forall rps, good rps -> Forall visible rps -> Forall (fun q => bal 0 0 (pval q) = true) rps -> Forall key_char K -> no_occ stream_kw K ->
    readProperties (dictwrap (items_text (strs rps ++ [IStr K (w ++ [10])]))) = Ok (rps ++ [mkProp K (norm w)]).
  Proof.
    intros rps G V Bl Kc Kn. pose proof (good_complete rps G Bl) as C. destruct (nest_wvalue lead X W NX) as ((V1 & V2 & V3 & V4 & V5 & V6 & V7) & Q & _).
    set (L := map sp rps ++ [mkPc K [32] w [10; 10]]).
    assert (T : items_text (strs rps ++ [IStr K (w ++ [10])]) = ptext L).
    { rewrite items_app, strs_text by auto. unfold L. rewrite ptext_app. f_equal. unfold ptext, items_text, pc_text. cbn [flat_map item_text pc_key pc_gap pc_val pc_end].
      pose proof k_trim as Tr. destruct (trim_space (w ++ [10])); [congruence|]. rewrite !app_nil_r. cbn [app]. do 3 f_equal. rewrite <- app_assoc. reflexivity. }
    assert (Pp : map pc_prop L = rps ++ [mkProp K w]) by (unfold L; rewrite map_app, sp_props; reflexivity).
    rewrite T. replace (dictwrap (ptext L)) with (dtext [10] L ++ [10]) by (unfold dictwrap, dtext; rewrite <- !app_assoc; reflexivity).
    rewrite pieces_read; try (apply ws1; reflexivity).
    - rewrite Pp, map_app. cbn [map]. f_equal. f_equal. change (map nprop rps) with (map (fun p => mkProp (pkey p) (norm (pval p))) rps). apply stable_norm. apply G.
    - apply Forall_app. split; [apply sps_ok|]. constructor; [|constructor]. split; [apply ws1; reflexivity|]. split; [discriminate|]. repeat (constructor; [reflexivity|]). constructor.
    - rewrite Pp. destruct (good_wlist rps G) as (F & _ & _). split; [|split].
      + apply Forall_app. split; [exact F|]. constructor; [|constructor]. split; [split; auto|split; auto].
      + apply wf_run_all. apply Forall_app. split; [exact C|]. constructor; [exact V6|constructor].
      + intros ps0 q E. apply app_inj_tail in E. destruct E as (_ & <-). cbn [pkey pval]. rewrite last_app_space by exact V1. exact V7.
  Qed.
End Value.
