(** Adding fonts to a document succeeds. *)
From Coq Require Import String List ZArith Lia Bool Permutation.
From Verif Require Import Base BaseProofs Output Props PropsSpec PropsNorm PropsStable PropsRefs PropsFinal PdfData PagesSpec PagesProofs PagesEdit PagesOps
  PiecesRead PiecesNest Crawl Inject CrawlProofs CrawlVisits PageCrawl InjectMaps InjectNames InjectItems InjectTexts InjectSpec InjectMarks InjectVisits InjectPages InjectTidy InjectFonts SaveGoesSpec.
Open Scope Z_scope.
Open Scope list_scope.

(** ** Assignments to objects that are there *)
Lemma setData_goes : forall os id d, NoDup (map oid os) -> has_obj os id = true -> exists os', setData id d os = Ok os'.
Proof.
  intros os id d N H. unfold has_obj, getObj in H. unfold setData. destruct (getIdx id os) as [i|]; [eauto|discriminate].
Qed.
Lemma replaceAll_goes : forall wrap must os, NoDup (map oid os) -> (forall id, In id (map fst must) -> has_obj os id = true) ->
  exists os', replaceAll wrap must os = Ok os'.
Proof.
  intros wrap. induction must as [|[id s] must IH]; intros os N H; cbn [replaceAll]; [eauto|].
  destruct (setData_goes os id (wrap s) N) as (os1 & E); [apply H; left; reflexivity|]. rewrite E. cbn [bind].
  destruct (setData_get _ _ _ _ N E) as (M1 & _ & _ & O1 & _). apply IH; [rewrite M1; exact N|].
  intros j Hj. rewrite O1. apply H. right. exact Hj.
Qed.

(** ** Dictionaries that can be read *)
Lemma findMax_goes : forall os rs m, (forall k l, In (k, l) rs -> exists d, font_dict os l = Ok d /\ d <> FArray) -> exists max, findMaxFontIndex os rs m = Ok max.
Proof.
  intros os. induction rs as [|[k l] rs IH]; intros m H; cbn [findMaxFontIndex]; [eauto|].
  destruct (H k l (or_introl eq_refl)) as (d & -> & Nd). cbn [bind].
  assert (H' : forall k l, In (k, l) rs -> exists d, font_dict os l = Ok d /\ d <> FArray) by (intros; eapply H; right; eauto).
  destruct d; [apply IH|apply IH|congruence|apply IH]; exact H'.
Qed.
Lemma replaces_goes : forall os new rs must, (forall k l, In (k, l) rs -> exists d, font_dict os l = Ok d /\ d <> FArray) -> exists must', fontReplaces os new rs must = Ok must'.
Proof.
  intros os new. induction rs as [|[k l] rs IH]; intros must H; cbn [fontReplaces]; [eauto|].
  destruct (H k l (or_introl eq_refl)) as (d & -> & Nd). cbn [bind].
  assert (H' : forall k l, In (k, l) rs -> exists d, font_dict os l = Ok d /\ d <> FArray) by (intros; eapply H; right; eauto).
  destruct d; cbv zeta; apply IH; exact H'.
Qed.

Lemma numbered_trim : forall k, numbered_name k -> trim_space k = k.
Proof.
  intros k (p & n & -> & Hn & F). apply trim_space_id.
  assert (A : forall c, In c (p ++ itoa n) -> ascii c /\ is_space1 c = false).
  { intros c Hc. apply in_app_or in Hc. destruct Hc as [Hc|Hc].
    - rewrite Forall_forall in F. specialize (F c Hc). unfold ascii, is_space1. lia.
    - destruct (itoa_digits n ltac:(lia)) as (x & t & E & _ & G). rewrite E in Hc. rewrite Forall_forall in G. specialize (G c Hc). unfold is_digit in G. unfold ascii, is_space1. lia. }
  clear F. revert A. generalize (p ++ itoa n). clear. intros k A. destruct k as [|x k]; [split; reflexivity|].
  destruct (A x (or_introl eq_refl)) as (A1 & A2).
  destruct k as [|y k'] eqn:Ek using rev_ind; [apply trimmed_one; auto|]. destruct (A y) as (A3 & A4); [right; apply in_or_app; right; left; auto|].
  apply trimmed_ascii; auto.
Qed.
Lemma numbered_split : forall k, numbered_name k -> exists pi, splitFont k = Ok pi.
Proof.
  intros k (p & n & -> & Hn & F). exists (p, n). apply split_normal.
  - eapply Forall_impl; [|exact F]. cbv beta. intros c H. unfold is_digit. lia.
  - intros H. rewrite Forall_forall in F. specialize (F _ H). lia.
  - unfold int64_max. lia.
Qed.
Lemma cfonts_goes : forall fps, Forall readable_font fps -> exists fs, cfonts_of fps = Ok fs.
Proof.
  intros fps F. induction F as [|q fps (Nq & n & Rq) F (fs & IH)]; cbn [cfonts_of]; [eauto|].
  rewrite (numbered_trim _ Nq). destruct (numbered_split _ Nq) as ((pr & i) & ->). cbn [bind]. rewrite Rq. cbn [bind]. rewrite IH. cbn [bind]. eauto.
Qed.

Section Goes.
  Variable ord : morder.
  Variable p : pdf.
  Variable fonts : list (Z * Z).
  Variable rid : Z.
  Variable ts : list tree.
  Variable info : Z -> res_place.
  Hypothesis Fr : fair ord.
  Hypothesis T : tidy (B"Font") p rid ts info.
  Notation ids := (flat_map leaves ts).
  Hypothesis Rf : forall L fps, In L ids -> place_fonts (info L) = Some fps -> Forall readable_font fps.

  Lemma fd_goes : forall L fp, In L ids -> (exists rps, info L = ResIn rps fp) \/ (exists r rps, info L = ResAt r rps fp) -> exists d, fd fp = Ok d /\ d <> FArray.
  Proof.
    intros L fp HL H. destruct fp as [|fps|f fps]; cbn [fd]; [eexists; split; [reflexivity|discriminate]| |];
    (destruct (cfonts_goes fps) as (fs & ->);
     [apply (Rf L); [exact HL|]; destruct H as [(rps & ->)|(r & rps & ->)]; reflexivity|cbn [bind]; eexists; split; [reflexivity|discriminate]]).
  Qed.

  Lemma found_goes : forall rs k l, stage (objs p) (root p) fontPath (map fst (crawl_from (objs p) (root p) (B"Pages" :: fontPath))) rs ->
    map_get rs k = Some l -> exists d, font_dict (objs p) l = Ok d /\ d <> FArray.
  Proof.
    intros rs k l St G. pose proof (st_sound _ _ _ _ _ St _ _ G) as Sk. destruct (seen_is _ _ _ _ T _ _ Sk) as (C & X & n & HC & _ & K & En & E).
    destruct K as [k ps Hn R NF|L HL|L r rps fp HL Ei|f Hf].
    - subst l. unfold font_dict. apply key_none in NF. rewrite valOf_copies, NF. cbn. eexists; split; [reflexivity|discriminate].
    - rewrite (leaf_fd p rid ts info T rs St L l HL G). destruct (info L) as [|rps fp|r rps fp] eqn:EL; [eexists; split; [reflexivity|discriminate]| |eexists; split; [reflexivity|discriminate]].
      apply (fd_goes L); [exact HL|left; eauto].
    - rewrite (res_fd p rid ts info T rs St L r rps fp l HL Ei G). apply (fd_goes L); [exact HL|right; eauto].
    - subst l. rewrite copies_nil. cbn. eexists; split; [reflexivity|discriminate].
  Qed.

  Lemma write_there : forall rs new k l id s, stage (objs p) (root p) fontPath (map fst (crawl_from (objs p) (root p) (B"Pages" :: fontPath))) rs ->
    map_get rs k = Some l -> writes (objs p) new k l id s -> has_obj (objs p) id = true.
  Proof.
    intros rs new k l id s St G [(fs & D & -> & _)|(fs & D & _)].
    - destruct (found_cases p rid ts info T rs St k l _ G D) as [(rps & fp & HL & E & Ef)|(L & rps & fp & HL & E & Ef)]; [discriminate| |].
      + destruct (page_of _ _ _ _ T k HL) as (ps & (Dk & _) & _). apply dict_data in Dk. apply Dk.
      + apply (res_of _ _ _ _ T _ _ _ _ HL E).
    - destruct (writes_object p rid ts info T rs St _ _ _ _ G D) as ((L & HL & Hf) & _).
      destruct (font_here p rid ts info T L id HL Hf) as (fps & _ & Ho). exact Ho.
  Qed.

  Theorem injectFonts_goes : exists p' idx, injectFonts ord p fonts = Ok (p', idx).
  Proof.
    destruct (page_crawl ord [1] (objs p) (root p) fontPath Fr (tidy_smooth _ _ _ _ T)) as (rs & Ers & St). unfold injectFonts. rewrite Ers. cbn [bind].
    assert (A : forall t k l, In (k, l) (ord t _ rs) -> exists d, font_dict (objs p) l = Ok d /\ d <> FArray).
    { intros t k l H. apply fair_in in H; [|exact Fr]. apply in_get in H; [|apply (st_nodup _ _ _ _ _ St)]. eapply found_goes; eauto. }
    destruct (findMax_goes (objs p) (ord [2] _ rs) 0 (A [2])) as (max & ->). cbn [bind]. cbv zeta.
    destruct (replaces_goes (objs p) (newFonts (ord [3] _ fonts) max) (ord [4] _ rs) [] (A [4])) as (must & Em). rewrite Em. cbn [bind].
    destruct (fontReplaces_spec _ _ _ _ _ Em) as (Nm & Wm & _); [constructor|].
    destruct (replaceAll_goes dictwrap (ord [5] _ must) (objs p)) as (os & ->); [apply (td_unique _ _ _ _ T)| |cbn [bind]; eauto].
    intros id H. apply in_map_iff in H. destruct H as ((id' & s) & Ei & H). cbn [fst] in Ei. subst id'. apply fair_in in H; [|exact Fr]. apply in_get in H; [|exact Nm].
    destruct (Wm id s H) as [X|(k & l & Hk & W)]; [discriminate|]. apply fair_in in Hk; [|exact Fr]. apply in_get in Hk; [|apply (st_nodup _ _ _ _ _ St)].
    eapply write_there; eauto.
  Qed.
End Goes.
