(** Page contents: the final lemmas. *)
From Coq Require Import String List ZArith Lia Bool Permutation.
From Verif Require Import Base BaseProofs Output Props PropsRead PropsWrite PropsStable PropsRefs PropsSpec PropsFinal PdfData PagesSpec PagesProofs PagesEdit PagesOps PagesFinal Crawl Inject CrawlProofs ContentSpec ContentProofs.
Open Scope Z_scope.
Open Scope list_scope.

Lemma source_version : forall inflate os pid cid s, source inflate os pid (Some (cid, s)) -> exists co, version os cid co.
Proof. intros. inversion H; subst. eauto. Qed.

Lemma content_at : forall ord inflate p ids srcs ins f beyond, fair ord -> getPageObjIDs f p = Ok ids ->
  Forall2 (source inflate (objs p)) ids srcs ->
  exists p', injectContent ord inflate beyond f p (calls ins) = Ok p' /\ content_effect p p' srcs ins.
Proof.
  intros ord inflate p ids srcs ins f beyond F Hf Hs. unfold injectContent.
  destruct (pageBuffs_ok ins []) as (m & Em & Hm). rewrite Em. cbn [bind]. rewrite Hf. cbn [bind].
  rewrite (pagesLoop_ok ord inflate beyond (objs p) ins F srcs ids 1 m [] Hs) by (intros k _; rewrite Hm; reflexivity).
  cbn [bind]. set (must := lw ins 1 srcs []).
  pose proof (F [22] _ must) as P.
  assert (Nd : NoDup (map fst must)) by (apply lw_nodup; constructor).
  assert (Wr : forall id, In id (map fst must) -> exists k s, writes srcs ins k id s).
  { intros id H. apply lw_keys in H. destruct H as [[]|H]. exact H. }
  destruct (replaceAll_spec (fun s => s) (ord [22] _ must) (objs p)) as (os' & E & L & T).
  { eapply Permutation_NoDup; [symmetry; apply Permutation_map; exact P|auto]. }
  { intros id Hid. assert (Hi : In id (map fst must)) by (eapply Permutation_in; [apply Permutation_map; exact P|auto]).
    destruct (Wr id Hi) as (k & s & _ & Hk & _). apply nth_error_In in Hk.
    assert (exists pid, source inflate (objs p) pid (Some (id, s))) as (pid & Src).
    { clear - Hs Hk. induction Hs as [|x y l l' H Hs IH]; [destruct Hk|]. destruct Hk as [->|Hk]; eauto. }
    destruct (source_version _ _ _ _ _ Src) as (co & V). apply version_idx in V. destruct V as (i & G & _). congruence. }
  rewrite E. cbn [bind]. exists (mkPdf (root p) os'). split; [reflexivity|]. split; [reflexivity|]. split; [exact L|].
  intros a o b Eo. cbn [objs].
  assert (Hn : nth_error (objs p) (List.length a) = Some o) by (rewrite Eo, nth_error_app2, Nat.sub_diag by lia; reflexivity).
  destruct (T _ _ Hn) as (o' & Hn' & Ho' & H1 & H2). exists o'. split; [auto|]. split; [auto|]. split.
  - intros k s St W Last. rewrite (H1 (content_object (s ++ [10] ++ drawn ins k))).
    + apply content_plain.
    + eapply Permutation_in; [symmetry; exact P|]. apply get_in.
      apply (proj1 (lw_spec ins srcs 1 [] (oid o)) k s); auto.
    + rewrite Eo. apply stands_idx. auto.
  - intros [X|X]; apply H2.
    + left. rewrite Eo. intros G. apply X, stands_idx, G.
    + right. intros Hi. assert (Hi' : In (oid o) (map fst must)) by (eapply Permutation_in; [apply Permutation_map; exact P|auto]).
      destruct (Wr _ Hi') as (k & s & W). apply (X k s W).
Qed.

Theorem content_inserted : forall ord inflate p ids srcs ins, fair ord -> page_list p ids ->
  Forall2 (source inflate (objs p)) ids srcs ->
  exists f0, forall f beyond, (f0 <= f)%nat ->
    exists p', injectContent ord inflate beyond f p (calls ins) = Ok p' /\ content_effect p p' srcs ins.
Proof. intros ord inflate p ids srcs ins F (f0 & Hf) Hs. exists f0. intros f beyond Lf. eapply content_at; eauto. Qed.

(** ** Reading back *)
Lemma stream_back : forall os d body, plain_stream d body -> int64_min <= blen body <= int64_max ->
  stream_text os d [mkProp (B"Length") (itoa (blen body))] body.
Proof.
  intros os d body (head & E & BS & R) I. exists head, [10], [], []. split; [rewrite (app_nil_r (B"endstream")); exact E|]. split; [exact BS|].
  split; [left; reflexivity|]. split; [reflexivity|]. split; [exact R|]. apply dec_direct with (v := itoa (blen body)).
  - apply value_iff. reflexivity.
  - rewrite atoi_trim_itoa; auto.
Qed.

Theorem read_back : forall os d body beyond, plain_stream d body -> plain_start body -> blen body <= int64_max ->
  streamLength os d = Ok (blen body) /\ rawStream beyond d (blen body) = Ok body.
Proof.
  intros os d body beyond P S I. pose proof (blen_nonneg body) as N.
  assert (J : int64_min <= blen body <= int64_max) by (unfold int64_min in *; lia).
  pose proof (stream_back os d body P J) as ST. split.
  - destruct ST as (hd & eol & t & u & _ & _ & _ & _ & R & D). eapply streamLength_ok; eauto.
  - eapply rawStream_ok; eauto.
Qed.

(** ** Objects that are not written to *)
Lemma effect_pointwise : forall p p' srcs ins id, content_effect p p' srcs ins ->
  (forall k s, ~ writes srcs ins k id s) ->
  Forall2 (fun o o' => oid o' = oid o /\ (oid o = id -> o' = o)) (objs p) (objs p').
Proof.
  intros p p' srcs ins id (_ & L & H) No.
  assert (G : forall os os', List.length os' = List.length os ->
    (forall n o, nth_error os n = Some o -> exists o', nth_error os' n = Some o' /\ oid o' = oid o /\ (oid o = id -> o' = o)) ->
    Forall2 (fun o o' => oid o' = oid o /\ (oid o = id -> o' = o)) os os').
  { induction os as [|o os IH]; intros [|o' os'] Ln T; try discriminate; constructor.
    - destruct (T 0%nat o eq_refl) as (x & X & Y). cbn in X. inversion X; subst. auto.
    - apply IH; [cbn in Ln; lia|]. intros n q Hq. apply (T (S n) q Hq). }
  apply G; auto. intros n o Hn. apply nth_error_split in Hn. destruct Hn as (a & b & E & Ln).
  destruct (H a o b E) as (o' & Hn' & Ho & _ & H2). exists o'. subst n. split; [auto|]. split; [auto|].
  intros Hi. apply H2. right. intros k s. rewrite Hi. apply No.
Qed.

Lemma pointwise_version : forall id os os',
  Forall2 (fun o o' => oid o' = oid o /\ (oid o = id -> o' = o)) os os' -> forall o, version os id o <-> version os' id o.
Proof.
  intros id os os' F o.
  assert (G : getIdx id os = getIdx id os').
  { rewrite !getIdx_eq.
    assert (A : lastA id os = lastA id os').
    { induction F as [|x y l l' (H1 & H2) F IH]; cbn [lastA]; [reflexivity|]. rewrite IH. destruct (lastA id l'); [reflexivity|].
      rewrite H1. destruct (Z.eqb_spec (oid x) id) as [e|]; cbn [andb]; [|reflexivity]. rewrite (H2 e). reflexivity. }
    rewrite A. destruct (lastA id os'); [reflexivity|]. clear A.
    induction F as [|x y l l' (H1 & H2) F IH]; cbn [firstI]; [reflexivity|]. rewrite H1, IH. reflexivity. }
  assert (N : forall n q, oid q = id -> (nth_error os n = Some q <-> nth_error os' n = Some q)).
  { clear G. induction F as [|x y l l' (H1 & H2) F IH]; intros n q Hq.
    - reflexivity.
    - destruct n; cbn [nth_error]; [|apply IH; auto]. split; intros E; inversion E; subst; f_equal.
      + apply H2; auto. + symmetry. apply H2. congruence. }
  rewrite !version_idx. rewrite G. split; intros (i & Gi & Hn & Ho); exists i; repeat split; auto; apply N; auto.
Qed.

Theorem effect_elsewhere : forall p p' srcs ins id o, content_effect p p' srcs ins ->
  (forall k s, ~ writes srcs ins k id s) -> (version (objs p) id o <-> version (objs p') id o).
Proof. intros. apply pointwise_version. eapply effect_pointwise; eauto. Qed.

(** What the object that is written to holds afterwards. *)
Lemma plain_not_annotated : forall o s, plain_stream (odata o) s -> ~ annotated o.
Proof.
  intros o s (head & _ & _ & R) (ps & E & (v & H)). unfold entries in E. rewrite R in E. inversion E; subst ps.
  destruct H as [H|[]]. inversion H.
Qed.

Theorem effect_written : forall p p' srcs ins k cid s co, content_effect p p' srcs ins -> writes srcs ins k cid s ->
  (forall k' s', k < k' -> ~ writes srcs ins k' cid s') -> version (objs p) cid co -> ~ annotated co ->
  exists co', version (objs p') cid co' /\ plain_stream (odata co') (s ++ [10] ++ drawn ins k).
Proof.
  intros p p' srcs ins k cid s co (_ & L & H) W Last (a & b & E & Ho & V) NA.
  destruct V as [(A & _)|(N1 & N2)]; [contradiction|].
  assert (St : stands a co b) by (right; rewrite <- E, Ho; auto).
  destruct (H a co b E) as (co' & Hn' & Ho' & H1 & _). rewrite Ho in *.
  pose proof (H1 k s St W Last) as PS. exists co'. split; [|exact PS].
  apply nth_error_split in Hn'. destruct Hn' as (a' & b' & E' & L').
  exists a', b'. split; [auto|]. split; [auto|]. right.
  assert (Old : forall n q, nth_error (objs p') n = Some q -> oid q = cid ->
    exists o, nth_error (objs p) n = Some o /\ oid o = cid /\ (n <> List.length a -> q = o)).
  { intros n q Hq Hi. assert (Ln : (n < List.length (objs p))%nat) by (rewrite <- L; apply nth_error_Some; congruence).
    destruct (nth_error (objs p) n) as [o|] eqn:Hn; [|apply nth_error_None in Hn; lia].
    exists o. apply nth_error_split in Hn. destruct Hn as (x & y & Ex & Lx).
    destruct (H x o y Ex) as (o' & Hn2 & Ho2 & _ & H3). subst n.
    assert (o' = q) by congruence. subst o'. split; [auto|]. split; [congruence|].
    intros Ne. apply H3. left. intros St2. apply stands_idx in St, St2. rewrite <- Ex in St2. rewrite <- E in St.
    assert (oid o = oid co) by congruence. rewrite H0 in St2. congruence. }
  split.
  - intros q Hq Hi. destruct (In_nth_error _ _ Hq) as (n & Hn). destruct (Old n q Hn Hi) as (o & Hno & Hoo & Eq).
    destruct (Nat.eq_dec n (List.length a)) as [->|Ne].
    + assert (q = co') by (rewrite E', nth_error_app2, L', Nat.sub_diag in Hn by lia; cbn in Hn; congruence).
      subst. eapply plain_not_annotated; eauto.
    + rewrite (Eq Ne). apply N1; auto. eapply nth_error_In; eauto.
  - intros q Hq Hi. destruct (In_nth_error _ _ Hq) as (n & Hn).
    assert (Ln : (n < List.length a')%nat) by (apply nth_error_Some; congruence).
    destruct (Old n q) as (o & Hno & Hoo & _); [rewrite E', nth_error_app1; auto|auto|].
    apply (N2 o); auto. rewrite E, nth_error_app1 in Hno by lia. eapply nth_error_In; eauto.
Qed.

(** ** Duplicated pages *)
Definition spaceish (c : Z) : Prop := is_space1 c = true \/ 128 <= c.

Lemma space_len_ish : forall s, Forall spaceish (firstn (space_len s) s).
Proof.
  intros s. unfold space_len. destruct s as [|c s]; [constructor|]. destruct (is_space1 c) eqn:E1.
  { constructor; [left; auto|constructor]. }
  destruct s as [|d s]; [constructor|]. destruct (is_space2 c d) eqn:E2.
  { unfold is_space2 in E2. repeat (constructor; [right; lia|]). constructor. }
  destruct s as [|e s]; [constructor|]. destruct (is_space3 c d e) eqn:E3; [|constructor].
  unfold is_space3 in E3. repeat (constructor; [right; lia|]). constructor.
Qed.

Lemma rspace_len_ish : forall s, Forall spaceish (firstn (rspace_len s) s).
Proof.
  intros s. unfold rspace_len. destruct s as [|c s]; [constructor|]. destruct (is_space1 c) eqn:E1.
  { constructor; [left; auto|constructor]. }
  destruct s as [|d s]; [constructor|]. destruct (is_space2 d c) eqn:E2.
  { unfold is_space2 in E2. repeat (constructor; [right; lia|]). constructor. }
  destruct s as [|e s]; [constructor|]. destruct (is_space3 e d c) eqn:E3; [|constructor].
  unfold is_space3 in E3. repeat (constructor; [right; lia|]). constructor.
Qed.

Lemma drop_dropped : forall len, (forall s, Forall spaceish (firstn (len s) s)) -> forall f s,
  exists a, s = a ++ drop_runs len f s /\ Forall spaceish a.
Proof.
  intros len H. induction f; intros s; cbn [drop_runs].
  - exists []. auto.
  - pose proof (H s) as Hs. destruct (len s) eqn:E; [exists []; auto|].
    destruct (IHf (skipn (S n) s)) as (a & Ha & Fa).
    exists (firstn (S n) s ++ a). split; [|apply Forall_app; auto].
    rewrite <- app_assoc, <- Ha. symmetry. apply firstn_skipn.
Qed.

Lemma in_trim : forall s c, In c s -> ascii c -> is_space1 c = false -> In c (trim_space s).
Proof.
  intros s c Hc A S.
  assert (NI : ~ spaceish c) by (unfold spaceish, ascii in *; intros [X|X]; [congruence|lia]).
  assert (NF : forall a, Forall spaceish a -> ~ In c a) by (intros a F I; rewrite Forall_forall in F; auto).
  destruct (drop_dropped space_len space_len_ish (List.length s) s) as (a & Ea & Fa). fold (trim_left_space s) in Ea.
  rewrite Ea in Hc. apply in_app_or in Hc. destruct Hc as [Hc|Hc]; [exfalso; eapply NF; eauto|].
  unfold trim_space, trim_right_space. rewrite <- in_rev. set (t := trim_left_space s) in *.
  destruct (drop_dropped rspace_len rspace_len_ish (List.length t) (rev t)) as (b & Eb & Fb).
  apply in_rev in Hc. rewrite Eb in Hc. apply in_app_or in Hc. destruct Hc as [Hc|Hc]; [exfalso; eapply NF; eauto|auto].
Qed.

Lemma not_number : forall d n ps, atoi (trim_space d) = Ok n -> readProperties d = Ok ps -> False.
Proof.
  intros d n ps A R. apply atoi_chars in A. destruct A as (_ & F). unfold readProperties in R.
  set (t0 := match index stream_kw d with Some m => firstn m d | None => d end) in R.
  destruct (index (B"<<") t0) as [i|] eqn:I; [|discriminate].
  assert (H : In 60 d).
  { apply index_some in I. destruct I as ((u & v & E & _) & _).
    assert (H : In 60 t0) by (rewrite E; apply in_or_app; right; left; reflexivity).
    unfold t0 in H. destruct (index stream_kw d) as [m|]; auto. rewrite <- (firstn_skipn m d). apply in_or_app. auto. }
  apply in_trim in H; [|unfold ascii; lia|reflexivity]. rewrite Forall_forall in F. apply F in H. lia.
Qed.

(** Sources of pages after objects other than [rid] were kept. *)
Lemma declared_mono : forall os os' rid r ps n pss, (forall id q, id <> rid -> version os id q -> version os' id q) ->
  version os rid r -> entries r pss -> declared os ps n -> declared os' ps n.
Proof.
  intros os os' rid r ps n pss M V E D. destruct D as [v H A|v id o H I W A].
  - eapply dec_direct; eauto.
  - destruct (Z.eq_dec id rid) as [->|Ne].
    + exfalso. assert (o = r) by (eapply version_inj; eauto). subst. eapply not_number; eauto.
    + eapply dec_ref; eauto.
Qed.

Lemma source_mono : forall inflate os os' rid r pss pid src, (forall id q, id <> rid -> version os id q -> version os' id q) ->
  version os rid r -> entries r pss -> pid <> rid -> (forall cid s, src = Some (cid, s) -> cid <> rid) ->
  source inflate os pid src -> source inflate os' pid src.
Proof.
  intros inflate os os' rid r pss pid src M V E Np Nc S. inversion S; subst.
  - eapply src_none; eauto.
  - eapply src_some; [apply M; eauto|eassumption|eassumption|eassumption|apply M; eauto| |eassumption|eassumption].
    + destruct H4 as (hd & eol & t & u & X1 & X2 & X3 & X6 & X4 & X5). exists hd, eol, t, u. repeat (split; auto).
      eapply declared_mono; eauto.
Qed.

Lemma only_set : forall ps k v w, only ps k v -> only (setPropByKey k w ps) k w.
Proof.
  intros ps k v w (a & b & E & H). exists a, b. split; [|auto]. subst ps.
  assert (Ha : forall q, In q a -> pkey q <> k) by (intros; apply H, in_or_app; auto). clear H.
  induction a as [|q a IH]; cbn [app setPropByKey pkey].
  - rewrite beqb_refl. reflexivity.
  - destruct (beqb_spec (pkey q) k) as [e|]; [exfalso; eapply Ha; [left; reflexivity|auto]|].
    rewrite IH; [reflexivity|]. intros; apply Ha; right; auto.
Qed.

Lemma tree_leaf_holds : forall os n t, (depth t <= n)%nat -> holds os t -> forall id, In id (leaves t) ->
  exists o ps, version os id o /\ entries o ps /\ has_key ps (B"Page").
Proof.
  intros os. induction n; intros t D H id Hi; [destruct t; cbn in D; lia|].
  inversion H as [i o ps V E P|i o ps v ts V E P K F]; subst.
  - destruct Hi as [<-|[]]. exists o, ps. destruct P. auto.
  - cbn [leaves] in Hi. apply in_flat_map in Hi. destruct Hi as (t & Ht & Hi).
    rewrite Forall_forall in F. eapply IHn; [|apply F; exact Ht|exact Hi].
    cbn [depth] in D. apply le_S_n in D. clear - D Ht. induction ts as [|x ts IH]; [destruct Ht|].
    cbn [fold_right] in D. destruct Ht as [->|Ht]; [lia|]. apply IH; auto. lia.
Qed.

Lemma leaf_not_root : forall p rid ts id, page_tree p (Node rid ts) -> In id (leaves (Node rid ts)) -> id <> rid.
Proof.
  intros p rid ts id (_ & H) Hi ->.
  destruct (tree_leaf_holds (objs p) (depth (Node rid ts)) (Node rid ts) (le_n _) H rid Hi) as (o & ps & V & E & K).
  inversion H as [|i o' ps' v ts' V' E' (P1 & P2 & P3) K' F]; subst.
  assert (o = o') by (eapply version_inj; eauto). subst. unfold entries in *. assert (ps = ps') by congruence. subst. auto.
Qed.

Theorem duplicate_sources : forall inflate p rid ts f k pos srcs, editable p rid ts -> (depth (Node rid ts) <= f)%nat ->
  let ids := leaves (Node rid ts) in let n := Z.of_nat (List.length ids) in
  1 <= k <= n -> - n <= pos <= n - 1 -> numbers_left p 2 ->
  copyable (objs p) (nth (Z.to_nat (k - 1)) ids 0) ->
  Forall2 (source inflate (objs p)) ids srcs -> (forall cid s, In (Some (cid, s)) srcs -> cid <> rid) ->
  exists p' np nc c s, duplicatePageAfter f p k pos = Ok (p', None) /\
    nth_error srcs (Z.to_nat (k - 1)) = Some (Some (c, s)) /\
    (forall q, In q (objs p) -> oid q <> np /\ oid q <> nc) /\
    page_list p' (firstn (place n pos) ids ++ np :: skipn (place n pos) ids) /\
    Forall2 (source inflate (objs p')) (firstn (place n pos) ids ++ np :: skipn (place n pos) ids)
      (firstn (place n pos) srcs ++ Some (nc, s) :: skipn (place n pos) srcs).
Proof.
  intros inflate p rid ts f k pos srcs Hed D ids n Hk Hpos NL (o & ps & v & c & co & V & E & R & Cv & Rc & Vc) HS HR.
  pose proof (editable_pinv _ _ _ Hed) as H. pose proof (rewritable_good o ps E R) as G.
  destruct (duplicate_ok p rid ts f k pos H D Hk Hpos NL o ps v c co V E G Cv Rc Vc) as (p' & S & PI & PC & Ed & V1 & V2 & E' & G' & M).
  assert (Ln : List.length ids = List.length srcs) by (clear - HS; induction HS; cbn; auto).
  destruct (nth_error srcs (Z.to_nat (k - 1))) as [src|] eqn:Hsrc; [|apply nth_error_None in Hsrc; lia].
  assert (Hid : nth_error ids (Z.to_nat (k - 1)) = Some (nth (Z.to_nat (k - 1)) ids 0)) by (apply nth_error_nth'; lia).
  set (pid := nth (Z.to_nat (k - 1)) ids 0) in *.
  assert (Hsrc1 : source inflate (objs p) pid src).
  { clear - HS Hsrc Hid. revert Hsrc Hid. generalize (Z.to_nat (k - 1)). clearbody pid.
    induction HS as [|x y l l' Hxy HS IH]; intros [|m] A B'; cbn in *; try discriminate; [congruence|eauto]. }
  destruct Hed as (PT & _ & (r & rps & Vr & Er & _) & _).
  assert (MS : forall id s, In id ids -> In s srcs -> source inflate (objs p) id s -> source inflate (objs p') id s).
  { intros id s Hi Hs Hsr. eapply source_mono; eauto.
    - eapply leaf_not_root; eauto.
    - intros cid s0 ->. eapply HR; eauto. }
  inversion Hsrc1 as [o1 ps1 Va Ea N Eq|o1 ps1 v1 cid co1 cps raw s Va Ea O Ra Vca ST PS Dc Eq]; subst src.
  { exfalso. assert (o1 = o) by (eapply version_inj; eauto). subst. unfold entries in *. assert (ps1 = ps) by congruence. subst.
    apply N. exists v. destruct Cv as (x & y & -> & _). apply in_or_app. right. left. reflexivity. }
  assert (o1 = o) by (eapply version_inj; eauto). subst o1. unfold entries in Ea, E. assert (ps1 = ps) by congruence. subst ps1.
  assert (v1 = v). { pose proof (value_get _ _ _ Cv). pose proof (value_get _ _ _ (only_value _ _ _ O)). congruence. } subst v1.
  assert (cid = c) by congruence. subst cid. assert (co1 = co) by (eapply version_inj; eauto). subst co1.
  exists p', (maxID (objs p) + 2), (maxID (objs p) + 1), c, s.
  split; [exact S|]. split; [reflexivity|]. split.
  { intros q Hq. pose proof (maxID_ge _ _ Hq). lia. }
  split. { apply pinv_page_list in PI. rewrite leaves_leaves in PI. exact PI. }
  assert (New : source inflate (objs p') (maxID (objs p) + 2) (Some (maxID (objs p) + 1, s))).
  { eapply src_some; [exact V2|exact E'|eapply only_set; exact O| |exact V1| |exact PS|exact Dc].
    - pose proof (maxID_nonneg (objs p)). apply ref_roundtrip. unfold is_int.
      destruct (maxID_in (objs p)) as [X|(q & Hq & X)].
      + unfold int64_max. lia.
      + pose proof (NL q Hq). unfold int64_max. lia.
    - cbn [odata]. destruct ST as (hd & eol & t & u & X1 & X2 & X3 & X6 & X4 & X5). exists hd, eol, t, u. repeat (split; auto).
      eapply declared_mono; eauto. }
  assert (All : Forall2 (source inflate (objs p')) ids srcs).
  { clear - HS MS. assert (Hx : forall l l', incl l ids -> incl l' srcs -> Forall2 (source inflate (objs p)) l l' -> Forall2 (source inflate (objs p')) l l').
    { intros l l' I1 I2 F. induction F as [|x y l l' Hxy F IH]; constructor.
      - apply MS; [apply I1; left; auto|apply I2; left; auto|auto].
      - apply IH; intros z Hz; [apply I1|apply I2]; right; auto. }
    apply Hx; auto; apply incl_refl. }
  assert (Spl : forall m, Forall2 (source inflate (objs p')) (firstn m ids) (firstn m srcs) /\
                          Forall2 (source inflate (objs p')) (skipn m ids) (skipn m srcs)).
  { clear - All. induction All as [|x y l l' H F IH]; intros [|m]; cbn; auto.
    split; [constructor; [auto|]|]; apply IH. }
  destruct (Spl (place n pos)). apply Forall2_app; auto.
Qed.

Lemma nth_insert : forall A (l1 l2 : list A) x m y, nth_error (l1 ++ x :: l2) m = Some y ->
  (m = List.length l1 /\ y = x) \/ In y (l1 ++ l2).
Proof.
  intros A l1 l2 x m y H. destruct (Nat.lt_trichotomy m (List.length l1)) as [L|[L|L]].
  - right. rewrite nth_error_app1 in H by auto. apply nth_error_In in H. apply in_or_app. auto.
  - left. subst m. rewrite nth_error_app2, Nat.sub_diag in H by lia. cbn in H. split; congruence.
  - right. rewrite nth_error_app2 in H by lia. destruct (m - List.length l1)%nat eqn:E; [lia|]. cbn in H.
    apply nth_error_In in H. apply in_or_app. auto.
Qed.

Theorem duplicate_independent : forall ord inflate p rid ts f k pos srcs, fair ord ->
  editable p rid ts -> (depth (Node rid ts) <= f)%nat ->
  let ids := leaves (Node rid ts) in let n := Z.of_nat (List.length ids) in
  1 <= k <= n -> - n <= pos <= n - 1 -> numbers_left p 2 ->
  copyable (objs p) (nth (Z.to_nat (k - 1)) ids 0) ->
  Forall2 (source inflate (objs p)) ids srcs -> (forall cid s, In (Some (cid, s)) srcs -> cid <> rid) ->
  exists p' np nc c s, let copy := Z.of_nat (place n pos) + 1 in
    duplicatePageAfter f p k pos = Ok (p', None) /\
    page_list p' (firstn (place n pos) ids ++ np :: skipn (place n pos) ids) /\
    nth_error srcs (Z.to_nat (k - 1)) = Some (Some (c, s)) /\
    source inflate (objs p') np (Some (nc, s)) /\
    forall ins, exists f0, forall f1 beyond, (f0 <= f1)%nat ->
      exists p'', injectContent ord inflate beyond f1 p' (calls ins) = Ok p'' /\
        ((forall i, In i ins -> fst i = copy) ->
           forall cid s' o, In (Some (cid, s')) srcs -> (version (objs p') cid o <-> version (objs p'') cid o)) /\
        ((forall i, In i ins -> fst i <> copy) ->
           forall o, version (objs p') nc o <-> version (objs p'') nc o).
Proof.
  intros ord inflate p rid ts f k pos srcs F Hed D ids n Hk Hpos NL Cp HS HR.
  destruct (duplicate_sources inflate p rid ts f k pos srcs Hed D Hk Hpos NL Cp HS HR)
    as (p' & np & nc & c & s & S & Ns & Fresh & PL & HS').
  fold ids in PL, HS'. fold n in PL, HS'. exists p', np, nc, c, s. cbn zeta.
  split; [exact S|]. split; [exact PL|]. split; [exact Ns|].
  assert (Ln : List.length ids = List.length srcs) by (clear - HS; induction HS; cbn; auto).
  assert (Lp : (place n pos <= List.length srcs)%nat).
  { unfold place. destruct (Z.ltb_spec pos 0); unfold n in *; lia. }
  assert (Lf : List.length (firstn (place n pos) srcs) = place n pos) by (apply firstn_length_le; auto).
  assert (Lf' : List.length (firstn (place n pos) ids) = place n pos) by (apply firstn_length_le; lia).
  split.
  { assert (G : forall (l : list Z) l' x y a b, List.length l = List.length l' ->
      Forall2 (source inflate (objs p')) (l ++ x :: a) (l' ++ y :: b) -> source inflate (objs p') x y).
    { clear. induction l as [|z l IH]; intros [|z' l'] x y a b L H; cbn in *; try discriminate; inversion H; subst; auto.
      eapply IH; [|eassumption]. congruence. }
    eapply G; [|exact HS']. congruence. }
  assert (Srcs : forall cid s', In (Some (cid, s')) srcs -> cid <> nc).
  { intros cid s' Hi. assert (exists pid, source inflate (objs p) pid (Some (cid, s'))) as (pid & Sp).
    { clear - HS Hi. induction HS; [destruct Hi|]. destruct Hi as [->|Hi]; eauto. }
    destruct (source_version _ _ _ _ _ Sp) as (co & V). pose proof (version_in _ _ _ V) as In1.
    apply version_oid in V. destruct (Fresh co In1). congruence. }
  intros ins. destruct (content_inserted ord inflate p' _ _ ins F PL HS') as (f0 & Hf). exists f0. intros f1 beyond L1.
  destruct (Hf f1 beyond L1) as (p'' & I & Eff). exists p''. split; [exact I|]. split.
  - intros Only cid s' o Hi. eapply effect_elsewhere; [exact Eff|].
    intros k' s0 (K1 & K2 & (t & K3)). apply Only in K3. cbn [fst] in K3.
    assert (Z.to_nat (k' - 1) = place n pos) by lia. rewrite H, nth_error_app2, Lf, Nat.sub_diag in K2 by lia.
    cbn in K2. inversion K2. subst. eapply Srcs; eauto.
  - intros Not o. eapply effect_elsewhere; [exact Eff|].
    intros k' s0 (K1 & K2 & (t & K3)). apply Not in K3. cbn [fst] in K3. apply nth_insert in K2.
    destruct K2 as [(K2 & _)|K2]; [lia|]. rewrite firstn_skipn in K2. eapply Srcs; eauto.
Qed.

Theorem last_page_wins : forall ord inflate p ids srcs ins k cid s co, fair ord -> page_list p ids ->
  Forall2 (source inflate (objs p)) ids srcs -> writes srcs ins k cid s ->
  (forall k' s', k < k' -> ~ writes srcs ins k' cid s') -> version (objs p) cid co -> ~ annotated co ->
  exists f0, forall f beyond, (f0 <= f)%nat ->
    exists p' co', injectContent ord inflate beyond f p (calls ins) = Ok p' /\ version (objs p') cid co' /\
      plain_stream (odata co') (s ++ [10] ++ drawn ins k).
Proof.
  intros ord inflate p ids srcs ins k cid s co F PL HS W Last V NA.
  destruct (content_inserted ord inflate p ids srcs ins F PL HS) as (f0 & H). exists f0. intros f beyond L.
  destruct (H f beyond L) as (p' & E & Eff). destruct (effect_written _ _ _ _ _ _ _ _ Eff W Last V NA) as (co' & V' & PS).
  exists p', co'. auto.
Qed.

(** ** For the examples *)
Lemma before_stream_index : forall d head rest, d = head ++ B"stream" ++ rest ->
  index stream_kw d = Some (List.length head) -> before_stream d head.
Proof.
  intros d head rest E I. right. exists rest. split; [auto|]. intros a b H. apply index_some in I.
  destruct I as (_ & Min). destruct (Nat.le_gt_cases (List.length head) (List.length a)) as [L|L]; [auto|].
  exfalso. apply (Min _ L). exists a, b. split; [exact H|reflexivity].
Qed.

Lemma plain_stream_intro : forall d head body, d = head ++ B"stream" ++ [10] ++ body ++ B"endstream" ->
  index stream_kw d = Some (List.length head) ->
  readProperties d = Ok [mkProp (B"Length") (itoa (blen body))] -> plain_stream d body.
Proof. intros. exists head. split; [auto|]. split; [|auto]. eapply before_stream_index; eauto. Qed.

Lemma source_intro : forall inflate os pid o a v b cid co cps head eol raw t u s,
  getObj pid os = Ok o -> readProperties (odata o) = Ok (a ++ mkProp (B"Contents") v :: b) ->
  forallb (fun q => negb (beqb (pkey q) (B"Contents"))) (a ++ b) = true ->
  readObjID v = Ok cid -> getObj cid os = Ok co ->
  odata co = head ++ B"stream" ++ eol ++ raw ++ t ++ B"endstream" ++ u -> forallb is_space1 u = true ->
  index stream_kw (odata co) = Some (List.length head) -> line_end eol ->
  readProperties (odata co) = Ok cps -> declared os cps (blen raw) -> plain_start raw -> decodes inflate cps raw s ->
  source inflate os pid (Some (cid, s)).
Proof.
  intros inflate os pid o a v b cid co cps head eol raw t u s H1 H2 H3 H4 H5 H6 Hu H7 H8 H9 H10 H11 H12.
  eapply src_some; [apply get_version; exact H1|exact H2| |exact H4|apply get_version; exact H5| |exact H11|exact H12].
  - exists a, b. split; [reflexivity|]. intros q Hq E. rewrite forallb_forall in H3. apply H3 in Hq. rewrite E, beqb_refl in Hq. discriminate.
  - exists head, eol, t, u. split; [exact H6|]. split; [eapply before_stream_index; eauto|]. auto.
Qed.
