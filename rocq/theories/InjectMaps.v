(** What injectFontsToPDF assigns to which object. *)
From Coq Require Import String List ZArith Lia Bool Permutation.
From Verif Require Import Base BaseProofs Output Props PdfData PagesSpec PagesProofs Crawl Inject CrawlProofs CrawlVisits PageCrawl.
Open Scope Z_scope.
Open Scope list_scope.

(** ** Objects with distinct numbers *)
Lemma get_unique : forall os o, NoDup (map oid os) -> In o os -> getObj (oid o) os = Ok o.
Proof.
  intros os o N H. destruct (in_split _ _ H) as (a & b & ->).
  assert (Na : forall q, In q (a ++ b) -> oid q <> oid o).
  { rewrite map_app in N. cbn [map] in N. apply NoDup_remove_2 in N. intros q Hq E. apply N.
    rewrite <- map_app. rewrite <- E. apply in_map. auto. }
  assert (G : exists i, getIdx (oid o) (a ++ o :: b) = Some i).
  { rewrite getIdx_eq. destruct (lastA (oid o) (a ++ o :: b)) as [j|]; [eauto|].
    clear. induction a as [|q a IH]; cbn [app firstI]; [rewrite Z.eqb_refl; eauto|].
    destruct (oid q =? oid o); [eauto|]. destruct IH as (i & ->). cbn. eauto. }
  destruct G as (i & G). unfold getObj. rewrite G. destruct (getIdx_oid _ _ _ G) as (q & Nq & E). rewrite Nq. f_equal.
  apply nth_error_In in Nq. apply in_app_or in Nq. destruct Nq as [Nq|[<-|Nq]]; auto; exfalso; eapply Na; eauto; apply in_or_app; auto.
Qed.

Lemma get_none : forall os id, ~ In id (map oid os) -> forall o, getObj id os <> Ok o.
Proof.
  intros os id N o G. unfold getObj in G. destruct (getIdx id os) as [i|] eqn:E; [|discriminate].
  destruct (getIdx_oid _ _ _ E) as (q & Nq & Eq). apply N. rewrite <- Eq. apply in_map. eapply nth_error_In; eauto.
Qed.

Lemma setData_get : forall os id d os', NoDup (map oid os) -> setData id d os = Ok os' ->
  map oid os' = map oid os /\ has_obj os id = true /\ data_of os' id = d /\
  (forall j, has_obj os' j = has_obj os j) /\ (forall j, j <> id -> data_of os' j = data_of os j).
Proof.
  intros os id d os' N H. pose proof (setData_other _ _ _ _ H) as Ot. unfold setData in H.
  destruct (getIdx id os) as [i|] eqn:G; [|discriminate]. inversion H; subst os'. clear H.
  destruct (getIdx_oid os id i G) as (o & Hn & Ho). subst id.
  pose proof (nth_error_In _ _ Hn) as Hin. pose proof (get_unique os o N Hin) as Go.
  pose proof Hn as Hs. apply nth_error_split in Hs. destruct Hs as (a & b & Eo & L). subst i.
  subst os. rewrite set_nth_split in *.
  assert (Em : map oid (a ++ mkObj (oid o) d :: b) = map oid (a ++ o :: b)) by (rewrite !map_app; reflexivity).
  split; [exact Em|].
  assert (Gn : getObj (oid o) (a ++ mkObj (oid o) d :: b) = Ok (mkObj (oid o) d)).
  { change (oid o) with (oid (mkObj (oid o) d)) at 1. apply get_unique; [rewrite Em; auto|]. apply in_or_app. right. left. auto. }
  assert (Od : forall j, j <> oid o -> getObj j (a ++ mkObj (oid o) d :: b) = getObj j (a ++ o :: b)).
  { intros j Hj. unfold getObj. rewrite Ot by auto. destruct (getIdx j (a ++ o :: b)) as [n|] eqn:Gj; [|reflexivity].
    destruct (getIdx_oid _ _ _ Gj) as (q & Nq & Eq).
    assert (n <> List.length a).
    { intros ->. rewrite nth_error_app2, Nat.sub_diag in Nq by lia. cbn in Nq. congruence. }
    destruct (Nat.lt_ge_cases n (List.length a)).
    - rewrite !nth_error_app1 by lia. reflexivity.
    - rewrite !nth_error_app2 by lia. destruct (n - List.length a)%nat eqn:E; [lia|]. reflexivity. }
  split; [unfold has_obj; rewrite Go; reflexivity|]. split; [unfold data_of; rewrite Gn; reflexivity|]. split.
  - intros j. destruct (Z.eq_dec j (oid o)) as [->|Hj]; unfold has_obj; [rewrite Gn, Go; reflexivity|rewrite Od by auto; reflexivity].
  - intros j Hj. unfold data_of. rewrite Od by auto. reflexivity.
Qed.

Lemma replaceAll_data : forall wrap must os os', NoDup (map oid os) -> NoDup (map fst must) ->
  replaceAll wrap must os = Ok os' ->
  map oid os' = map oid os /\ (forall j, has_obj os' j = has_obj os j) /\
  forall j, data_of os' j = match map_get must j with Some s => wrap s | None => data_of os j end.
Proof.
  intros wrap. induction must as [|[id s] must IH]; intros os os' N Nm H.
  - cbn [replaceAll] in H. inversion H; subst. split; [reflexivity|]. split; [reflexivity|]. intros j. reflexivity.
  - cbn [replaceAll] in H. destruct (setData id (wrap s) os) as [os1|e| |] eqn:E; try discriminate. cbn [bind] in H.
    destruct (setData_get _ _ _ _ N E) as (M1 & H1 & D1 & O1 & T1). cbn [map fst] in Nm. inversion Nm as [|? ? Nn Nt]; subst.
    destruct (IH os1 os') as (M2 & O2 & T2); auto; [rewrite M1; auto|].
    split; [congruence|]. split; [intros j; rewrite O2, O1; reflexivity|].
    intros j. rewrite T2. cbn [map_get]. destruct (Z.eqb_spec j id) as [->|Hj].
    + destruct (map_get must id) eqn:G; [exfalso; apply Nn; apply get_in in G; apply (in_map fst) in G; exact G|exact D1].
    + rewrite T1 by auto. reflexivity.
Qed.

(** ** The replacements *)
Definition inline_text (new fs : list cfont) (l : list item) : bytes :=
  items_text (setValOf (B"Font") (B"<<" ++ [10] ++ cfonts_text (fs ++ new) ++ B">>" ++ [10]) l).

(** The items [l] collected for object [k] make [s] the text of object [id]. *)
Definition writes (os : list obj) (new : list cfont) (k : Z) (l : list item) (id : Z) (s : bytes) : Prop :=
  (exists fs, font_dict os l = Ok (FInline fs) /\ id = k /\ s = inline_text new fs l) \/
  (exists fs, font_dict os l = Ok (FObject id fs) /\ s = cfonts_text (fs ++ new)).

Lemma fontReplaces_spec : forall os new rs must0 must, fontReplaces os new rs must0 = Ok must -> NoDup (map fst must0) ->
  NoDup (map fst must) /\
  (forall id s, map_get must id = Some s -> map_get must0 id = Some s \/ exists k l, In (k, l) rs /\ writes os new k l id s) /\
  (forall id, In id (map fst must0) -> In id (map fst must)) /\
  (forall k l id s, In (k, l) rs -> writes os new k l id s -> In id (map fst must)).
Proof.
  intros os new. induction rs as [|[k l] rs IH]; intros must0 must H N.
  - cbn [fontReplaces] in H. inversion H; subst. repeat split; auto. intros k l id s [].
  - cbn [fontReplaces] in H. destruct (font_dict os l) as [d|e| |] eqn:D; try discriminate. cbn [bind] in H.
    assert (Put : forall i t, writes os new k l i t -> (forall i' t', writes os new k l i' t' -> i' = i) ->
      fontReplaces os new rs (set_key i t must0) = Ok must ->
      NoDup (map fst must) /\
      (forall id s, map_get must id = Some s -> map_get must0 id = Some s \/ exists k' l', In (k', l') ((k, l) :: rs) /\ writes os new k' l' id s) /\
      (forall id, In id (map fst must0) -> In id (map fst must)) /\
      (forall k' l' id s, In (k', l') ((k, l) :: rs) -> writes os new k' l' id s -> In id (map fst must))).
    { intros i t W U R. destruct (IH _ _ R (nodup_set _ _ _ _ N)) as (A1 & A2 & A3 & A4). split; [auto|]. split; [|split].
      - intros id s G. apply A2 in G. destruct G as [G|(k' & l' & Hin & W')].
        + rewrite get_set in G. destruct (Z.eqb_spec id i) as [->|]; [|left; auto]. right. inversion G; subst t. exists k, l. split; [left; auto|auto].
        + right. exists k', l'. split; [right; auto|auto].
      - intros id Hid. apply A3. apply get_key. rewrite get_set. apply get_key in Hid. destruct Hid as (v & Hv).
        destruct (id =? i); eauto.
      - intros k' l' id s [E|Hin] W'.
        + inversion E; subst k' l'. rewrite (U _ _ W'). apply A3. apply get_key. rewrite get_set, Z.eqb_refl. eauto.
        + eapply A4; eauto. }
    assert (Skip : (forall i t, ~ writes os new k l i t) -> fontReplaces os new rs must0 = Ok must ->
      NoDup (map fst must) /\
      (forall id s, map_get must id = Some s -> map_get must0 id = Some s \/ exists k' l', In (k', l') ((k, l) :: rs) /\ writes os new k' l' id s) /\
      (forall id, In id (map fst must0) -> In id (map fst must)) /\
      (forall k' l' id s, In (k', l') ((k, l) :: rs) -> writes os new k' l' id s -> In id (map fst must))).
    { intros Nw R. destruct (IH _ _ R N) as (A1 & A2 & A3 & A4). split; [auto|]. split; [|split; [auto|]].
      - intros id s G. apply A2 in G. destruct G as [G|(k' & l' & Hin & W')]; [left; auto|]. right. exists k', l'. split; [right; auto|auto].
      - intros k' l' id s [E|Hin] W'; [inversion E; subst; exfalso; eapply Nw; eauto|eapply A4; eauto]. }
    destruct d as [fs|i fs| |].
    + apply (Put k (inline_text new fs l)); auto.
      * left. exists fs. auto.
      * intros i' t' [(fs' & E & -> & _)|(fs' & E & _)]; [reflexivity|congruence].
    + apply (Put i (cfonts_text (fs ++ new))); auto.
      * right. exists fs. auto.
      * intros i' t' [(fs' & E & _)|(fs' & E & _)]; congruence.
    + apply Skip; auto. intros i t [(fs' & E & _)|(fs' & E & _)]; congruence.
    + apply Skip; auto. intros i t [(fs' & E & _)|(fs' & E & _)]; congruence.
Qed.

(** ** All steps together *)
Lemma fair_nodup : forall (ord : morder) t A (m : list (Z * A)), fair ord -> NoDup (map fst m) -> NoDup (map fst (ord t A m)).
Proof. intros ord t A m F N. eapply Permutation_NoDup; [|exact N]. apply Permutation_sym, Permutation_map, F. Qed.
Lemma fair_in : forall (ord : morder) t A (m : list (Z * A)) x, fair ord -> In x (ord t A m) <-> In x m.
Proof. intros ord t A m x F. split; apply Permutation_in; [apply F|apply Permutation_sym, F]. Qed.
Lemma fair_get : forall (ord : morder) t A (m : list (Z * A)) k, fair ord -> NoDup (map fst m) -> map_get (ord t A m) k = map_get m k.
Proof.
  intros ord t A m k F N. destruct (map_get m k) as [v|] eqn:E.
  - apply in_get; [apply fair_nodup; auto|]. apply fair_in; auto. apply get_in. auto.
  - destruct (map_get (ord t A m) k) as [v|] eqn:E2; [|reflexivity]. apply get_in in E2. apply fair_in in E2; auto.
    apply in_get in E2; auto. congruence.
Qed.

Lemma injectFonts_steps : forall ord p fonts p' idx, injectFonts ord p fonts = Ok (p', idx) ->
  exists rs max must, getPageCrawl ord [1] (objs p) (root p) fontPath = Ok rs /\
    findMaxFontIndex (objs p) (ord [2] _ rs) 0 = Ok max /\
    fontReplaces (objs p) (newFonts (ord [3] _ fonts) max) (ord [4] _ rs) [] = Ok must /\
    replaceAll dictwrap (ord [5] _ must) (objs p) = Ok (objs p') /\ root p' = root p /\
    idx = combine (map fst (ord [3] _ fonts)) (map cf_index (newFonts (ord [3] _ fonts) max)).
Proof.
  intros ord p fonts p' idx H. unfold injectFonts in H.
  destruct (getPageCrawl ord [1] (objs p) (root p) fontPath) as [rs|e| |] eqn:E1; try discriminate. cbn [bind] in H.
  destruct (findMaxFontIndex (objs p) (ord [2] _ rs) 0) as [max|e| |] eqn:E2; try discriminate. cbn [bind] in H.
  destruct (fontReplaces _ _ (ord [4] _ rs) []) as [must|e| |] eqn:E3; try discriminate. cbn [bind] in H.
  destruct (replaceAll _ _ _) as [os|e| |] eqn:E4; try discriminate. cbn [bind] in H. inversion H; subst. cbn [objs root].
  exists rs, max, must. auto 10.
Qed.

(** The objects after the fonts are added: each is either as before, and no
    items collected write to it, or as some of the items collected for it say. *)
Theorem injectFonts_objects : forall ord p fonts p' idx, fair ord -> NoDup (map oid (objs p)) ->
  all_smooth (objs p) (root p) fontPath -> injectFonts ord p fonts = Ok (p', idx) ->
  exists rs max, stage (objs p) (root p) fontPath (map fst (crawl_from (objs p) (root p) (B"Pages" :: fontPath))) rs /\
    findMaxFontIndex (objs p) (ord [2] _ rs) 0 = Ok max /\
    idx = combine (map fst (ord [3] _ fonts)) (map cf_index (newFonts (ord [3] _ fonts) max)) /\
    root p' = root p /\ map oid (objs p') = map oid (objs p) /\ (forall j, has_obj (objs p') j = has_obj (objs p) j) /\
    forall j, (data_of (objs p') j = data_of (objs p) j /\
                 forall k l s, map_get rs k = Some l -> ~ writes (objs p) (newFonts (ord [3] _ fonts) max) k l j s) \/
              (exists k l s, map_get rs k = Some l /\ writes (objs p) (newFonts (ord [3] _ fonts) max) k l j s /\
                 data_of (objs p') j = dictwrap s).
Proof.
  intros ord p fonts p' idx F N S H. destruct (injectFonts_steps _ _ _ _ _ H) as (rs & max & must & E1 & E2 & E3 & E4 & E5 & E6).
  destruct (page_crawl ord [1] (objs p) (root p) fontPath F S) as (m & Em & St). rewrite E1 in Em. inversion Em; subst m.
  exists rs, max. split; [exact St|]. split; [exact E2|]. split; [exact E6|]. split; [exact E5|].
  destruct (fontReplaces_spec _ _ _ _ _ E3) as (A1 & A2 & A3 & A4); [constructor|].
  destruct (replaceAll_data _ _ _ _ N (fair_nodup ord [5] _ must F A1) E4) as (B1 & B2 & B3).
  split; [exact B1|]. split; [exact B2|]. intros j. rewrite B3, fair_get by auto.
  destruct (map_get must j) as [s|] eqn:G.
  - right. apply A2 in G. destruct G as [G|(k & l & Hin & W)]; [discriminate|]. exists k, l, s. split; [|auto].
    apply fair_in in Hin; auto. apply in_get; auto. apply (st_nodup _ _ _ _ _ St).
  - left. split; [reflexivity|]. intros k l s G' W. apply get_in in G'.
    assert (Hj : In j (map fst must)) by (eapply A4; [apply fair_in; eauto|exact W]).
    apply get_key in Hj. destruct Hj as (v & Hv). congruence.
Qed.
