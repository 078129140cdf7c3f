(** Names and objects of the fonts on a page, before and after. *)
From Coq Require Import String List ZArith Lia Bool Permutation.
From Verif Require Import Base BaseProofs Output Props PropsSpec PropsNorm PropsStable PropsRefs PropsFinal PdfData PagesSpec PagesProofs PagesEdit PagesOps
  PiecesRead PiecesNest Crawl Inject CrawlProofs CrawlVisits PageCrawl InjectMaps InjectNames InjectItems InjectTexts InjectSpec InjectMarks InjectVisits InjectPages InjectTidy InjectFonts.
Open Scope Z_scope.
Open Scope list_scope.

Lemma F_regular : forall i, 0 <= i -> regular_name (B"F" ++ itoa i).
Proof.
  intros i H. split.
  - change (B"F" ++ itoa i) with (70 :: itoa i). constructor; [lia|]. destruct (itoa_digits i H) as (c & t & -> & _ & F).
    eapply Forall_impl; [|exact F]. cbn beta. intros x Hx. unfold is_digit in Hx. lia.
  - intros a b E. destruct (name_plain (B"F") i F_plain) as (_ & N). apply (N (List.length a)). exists a, b. auto.
Qed.

Lemma split_F : forall i pr v, 0 <= i -> splitFont (B"F" ++ itoa i) = Ok (pr, v) -> v = i.
Proof.
  intros i pr v H E. destruct (Z_le_gt_dec i int64_max) as [Le|Gt].
  - rewrite split_new in E by lia. congruence.
  - exfalso. unfold splitFont in E. destruct (itoa_digits i H) as (c & t & Ei & Dc & F). rewrite Ei in E.
    rewrite first_digit_app in E; [|repeat constructor|auto].
    assert (Nu : ~ In 95 (B"F" ++ c :: t)).
    { rewrite in_app_iff. intros [X|X]; [destruct X as [X|[]]; discriminate|]. rewrite Forall_forall in F. apply F in X. discriminate. }
    rewrite replace1_none in E by auto. destruct (_ <? _)%nat in E; [discriminate|].
    change (skipn (List.length (B"F")) (B"F" ++ c :: t)) with (c :: t) in E. rewrite <- Ei in E.
    unfold itoa in E, Ei. replace (i <? 0) with false in E, Ei by lia. unfold atoi in E. rewrite Ei in E.
    assert (c <> 43 /\ c <> 45) by (unfold is_digit in Dc; lia). replace (c =? 43) with false in E by lia. replace (c =? 45) with false in E by lia.
    rewrite <- Ei, atou_utoa in E by lia. replace (i <=? int64_max) with false in E by lia. rewrite andb_false_r in E. discriminate.
Qed.

Lemma cfonts_each : forall fps fs, cfonts_of fps = Ok fs ->
  Forall2 (fun q f => splitFont (trim_space (pkey q)) = Ok (cf_prefix f, cf_index f) /\ readObjID (pval q) = Ok (cf_obj f)) fps fs.
Proof.
  induction fps as [|q fps IH]; intros fs H; cbn [cfonts_of] in H; [inversion H; constructor|].
  destruct (splitFont (trim_space (pkey q))) as [[pr i]| | |] eqn:Sp; cbn [bind] in H; try discriminate.
  destruct (readObjID (pval q)) as [id| | |] eqn:Ri; cbn [bind] in H; try discriminate.
  destruct (cfonts_of fps) as [fs'| | |]; cbn [bind] in H; try discriminate. inversion H; subst. constructor; auto.
Qed.
Lemma F2_in : forall A C (R : A -> C -> Prop) l m x, Forall2 R l m -> In x l -> exists y, In y m /\ R x y.
Proof. intros A C R l m x H. induction H as [|a b l m H0 H IH]; intros Hx; [destruct Hx|]. destruct Hx as [<-|Hx]; [exists b; split; [left; auto|auto]|]. destruct (IH Hx) as (y & Hy & Ry). exists y. split; [right; auto|auto]. Qed.
Lemma F2_in_r : forall A C (R : A -> C -> Prop) l m y, Forall2 R l m -> In y m -> exists x, In x l /\ R x y.
Proof. intros A C R l m y H. induction H as [|a b l m H0 H IH]; intros Hx; [destruct Hx|]. destruct Hx as [<-|Hx]; [exists a; split; [left; auto|auto]|]. destruct (IH Hx) as (x & Hy & Ry). exists x. split; [right; auto|auto]. Qed.

Lemma old_not_new : forall fps fs f n, cfonts_of fps = Ok fs -> In f fs -> 0 <= n -> cf_index f < n -> cf_name f <> B"F" ++ itoa n.
Proof.
  intros fps fs f n C Hf Hn Lt E. destruct (F2_in_r _ _ _ _ _ _ (cfonts_each _ _ C) Hf) as (q & _ & Sp & _).
  destruct (split_prefix _ _ _ Sp) as (Nd & _). destruct (name_new _ _ _ Nd Hn E) as (_ & E2). apply itoa_inj in E2. lia.
Qed.
Lemma old_keys : forall fps fs n, cfonts_of fps = Ok fs -> 0 <= n -> (forall f, In f fs -> cf_index f < n) -> ~ has_key fps (B"F" ++ itoa n).
Proof.
  intros fps fs n C Hn Lt (v & Hin). destruct (F2_in _ _ _ _ _ _ (cfonts_each _ _ C) Hin) as (f & Hf & Sp & _). cbn [pkey] in Sp.
  rewrite regular_trim in Sp by (apply F_regular; auto). apply split_F in Sp; [|auto]. specialize (Lt f Hf). lia.
Qed.

(** Names that are written as they were read. *)
Lemma numbered_same : forall k pr i, numbered_name k -> splitFont (trim_space k) = Ok (pr, i) -> k = pr ++ itoa i.
Proof.
  intros k pr i (q & n & -> & Hn & F) Sp. destruct (itoa_digits n ltac:(lia)) as (c & t & Ei & Dc & Fd).
  assert (Tr : trim_space (q ++ itoa n) = q ++ itoa n).
  { apply trim_space_id.
    assert (A : forall x, In x (q ++ itoa n) -> ascii x /\ is_space1 x = false).
    { intros x Hx. apply in_app_or in Hx. rewrite Ei in Hx. rewrite Forall_forall in F, Fd. unfold ascii, is_space1. destruct Hx as [Hx|Hx].
      - specialize (F x Hx). lia. - specialize (Fd x Hx). unfold is_digit in Fd. lia. }
    destruct (q ++ itoa n) as [|x k]; [split; reflexivity|]. destruct (A x (or_introl eq_refl)) as (A1 & A2).
    destruct k as [|y k'] eqn:Ek using rev_ind; [apply trimmed_one; auto|]. destruct (A y) as (A3 & A4); [right; apply in_or_app; right; left; auto|].
    apply trimmed_ascii; auto. }
  rewrite Tr, split_normal in Sp.
  - inversion Sp. reflexivity.
  - eapply Forall_impl; [|exact F]. cbn beta. intros x Hx. unfold is_digit. lia.
  - intros X. rewrite Forall_forall in F. specialize (F _ X). lia.
  - unfold int64_max. lia.
Qed.
Lemma numbered_all : forall fps fs, cfonts_of fps = Ok fs -> Forall (fun q => numbered_name (pkey q)) fps ->
  map cf_name fs = map pkey fps /\ Forall2 (fun q f => readObjID (pval q) = Ok (cf_obj f)) fps fs.
Proof.
  intros fps fs C. apply cfonts_each in C. induction C as [|q f fps fs (Sp & Ri) C IH]; intros F; [split; constructor|].
  inversion F; subst. destruct (IH H2) as (E & R). split; [|constructor; auto]. cbn [map]. rewrite E. f_equal.
  unfold cf_name. symmetry. apply numbered_same; auto.
Qed.

(** ** Looking a name up *)
Lemma value_app_r : forall a b k v, ~ has_key a k -> value b k v -> value (a ++ b) k v.
Proof.
  intros a b k v N (x & y & -> & H). exists (a ++ x), y. split; [now rewrite app_assoc|]. intros q Hq K. apply in_app_or in Hq. destruct Hq as [Hq|Hq].
  - apply N. exists (pval q). destruct q; cbn in *; subst; auto.
  - eapply H; eauto.
Qed.
Lemma value_app_l : forall a b k v, value a k v -> value (a ++ b) k v.
Proof. intros a b k v (x & y & -> & H). exists x, (y ++ b). split; [|auto]. rewrite <- app_assoc. reflexivity. Qed.
Lemma keys_has : forall ps k, has_key ps k <-> In k (map pkey ps).
Proof.
  intros ps k. rewrite in_map_iff. split.
  - intros (v & H). exists (mkProp k v). auto.
  - intros (q & E & H). exists (pval q). destruct q; cbn in *; subst; auto.
Qed.
Lemma fprop_keys : forall fs, map pkey (map fprop fs) = map cf_name fs.
Proof. intros. rewrite map_map. reflexivity. Qed.

Lemma find_unique : forall fs f, NoDup (map cf_name fs) -> In f fs -> value (map fprop fs) (cf_name f) (refText (cf_obj f)).
Proof.
  induction fs as [|g fs IH]; intros f N H; [destruct H|]. cbn [map] in N. inversion N; subst. destruct H as [->|H].
  - exists [], (map fprop fs). split; [reflexivity|]. intros ? [].
  - change (map fprop (g :: fs)) with ([fprop g] ++ map fprop fs). apply value_app_r; [|auto]. intros (v & [E|[]]). unfold fprop in E.
    apply H2. replace (cf_name g) with (cf_name f) by congruence. apply in_map. auto.
Qed.

(** The first one of a name, when the names are kept. *)
Lemma value_kept : forall fps fs k v n, map cf_name fs = map pkey fps -> Forall2 (fun q f => readObjID (pval q) = Ok (cf_obj f)) fps fs ->
  value fps k v -> readObjID v = Ok n -> value (map fprop fs) k (refText n).
Proof.
  intros fps fs k v n E R (a & b & -> & H) I'. revert fs E R. induction a as [|q a IH]; intros fs E R.
  - destruct fs as [|f fs]; [inversion R|]. cbn [app map] in *. inversion R; subst. inversion E. cbn [pkey pval] in *. exists [], (map fprop fs).
    split; [|intros ? []]. cbn [app]. f_equal. unfold fprop. assert (cf_obj f = n) by congruence. congruence.
  - destruct fs as [|f fs]; [inversion R|]. cbn [app map] in *. inversion R; subst. inversion E.
    change (fprop f :: map fprop fs) with ([fprop f] ++ map fprop fs). apply value_app_r.
    + intros (w & [X|[]]). unfold fprop in X. apply (H q); [left; auto|]. congruence.
    + apply IH; auto. intros q' Hq'. apply H. right. auto.
Qed.

(** ** The theorems *)
Lemma new_length : forall fonts max, List.length (newFonts fonts max) = List.length fonts.
Proof. induction fonts as [|[h id] fonts IH]; intros max; [reflexivity|]. cbn [newFonts List.length]. now rewrite IH. Qed.
Lemma new_pairs : forall fonts max, Forall2 (fun x f => cf_obj f = snd x) fonts (newFonts fonts max).
Proof. induction fonts as [|[h id] fonts IH]; intros max; cbn [newFonts]; constructor; auto. Qed.
Lemma combine_fst : forall A C (l : list A) (m : list C), List.length l = List.length m -> map fst (combine l m) = l.
Proof. intros A C. induction l as [|x l IH]; intros [|y m] H; try discriminate; [reflexivity|]. cbn [combine map fst]. f_equal. apply IH. auto. Qed.
Lemma combine_snd : forall A C (l : list A) (m : list C), List.length l = List.length m -> map snd (combine l m) = m.
Proof. intros A C. induction l as [|x l IH]; intros [|y m] H; try discriminate; [reflexivity|]. cbn [combine map snd]. f_equal. apply IH. auto. Qed.
Lemma combine_new : forall (fonts : list (Z * Z)) (fs : list cfont) (h i : Z), Forall2 (fun x f => cf_obj f = snd x) fonts fs -> In (h, i) (combine (map fst fonts) (map cf_index fs)) ->
  exists f, In f fs /\ cf_index f = i /\ In (h, cf_obj f) fonts.
Proof.
  intros fonts fs h i H. induction H as [|x f fonts fs E H IH]; intros Hin; [destruct Hin|]. cbn [map combine] in Hin. destruct Hin as [Hin|Hin].
  - inversion Hin; subst. exists f. split; [left; auto|]. split; [auto|]. left. rewrite E. destruct x; reflexivity.
  - destruct (IH Hin) as (g & Hg & Eg & Ho). exists g. split; [right; auto|]. split; [auto|right; auto].
Qed.

Section Run.
  Variable ord : morder.
  Variable p p' : pdf.
  Variable fonts idx : list (Z * Z).
  Variable rid : Z.
  Variable ts : list tree.
  Variable info : Z -> res_place.
  Hypothesis Fr : fair ord.
  Hypothesis T : tidy (B"Font") p rid ts info.
  Hypothesis Run : injectFonts ord p fonts = Ok (p', idx).
  Notation ids := (flat_map leaves ts).

  Lemma idx_facts : forall rs max new, ran ord p p' fonts idx rs max new ->
    Permutation (map fst idx) (map fst fonts) /\ NoDup (map snd idx) /\ NoDup (map cf_name new) /\
    (forall f, In f new -> cf_name f = B"F" ++ itoa (cf_index f) /\ max < cf_index f) /\
    forall h i, In (h, i) idx -> max < i /\ exists f, In f new /\ cf_index f = i /\ In (h, cf_obj f) fonts.
  Proof.
    intros rs max new Rn. destruct (new_indexes (ord [3] _ fonts) max) as (N1 & N2 & N3). rewrite <- (rn_new _ _ _ _ _ _ _ _ Rn) in N1, N2, N3.
    assert (Len : List.length (map fst (ord [3] _ fonts)) = List.length (map cf_index new)).
    { rewrite !map_length, (rn_new _ _ _ _ _ _ _ _ Rn), new_length. reflexivity. }
    rewrite (rn_idx _ _ _ _ _ _ _ _ Rn). rewrite combine_fst, combine_snd by auto. split; [apply Permutation_map, Fr|]. split; [auto|]. split; [|split].
    - clear - N1 N2. induction new as [|f l IH]; [constructor|]. cbn [map] in *. inversion N2; subst. constructor; [|apply IH; auto; intros; apply N1; right; auto].
      intros X. apply in_map_iff in X. destruct X as (g & E & Hg). apply H1. apply in_map_iff. exists g. split; [|auto].
      unfold cf_name in E. destruct (N1 f (or_introl eq_refl)) as (E1 & _). destruct (N1 g (or_intror Hg)) as (E2 & _). rewrite E1, E2 in E.
      apply app_inv_head in E. apply itoa_inj. auto.
    - intros f Hf. destruct (N1 f Hf) as (E & Lt). unfold cf_name. rewrite E. auto.
    - intros h i Hin. destruct (combine_new (ord [3] _ fonts) new h i) as (f & Hf & Ef & Ho); [rewrite (rn_new _ _ _ _ _ _ _ _ Rn); apply new_pairs|auto|].
      destruct (N1 f Hf) as (_ & Lt). split; [lia|]. exists f. split; [auto|]. split; [auto|]. apply (fair_in ord [3] _ fonts) in Ho; auto.
  Qed.

  Theorem names_fresh : Permutation (map fst idx) (map fst fonts) /\ NoDup (map snd idx) /\
    forall L fps h i, In L ids -> page_fonts (objs p) L fps -> In (h, i) idx -> ~ has_key fps (B"F" ++ itoa i).
  Proof.
    destruct (run_facts _ _ _ _ _ _ _ _ Fr T Run) as (rs & max & new & Rn). destruct (idx_facts rs max new Rn) as (I1 & I2 & _ & _ & I3).
    split; [auto|]. split; [auto|]. intros L fps h i HL Pf Hin. destruct (I3 h i Hin) as (Lt & _).
    destruct (page_of _ _ _ _ T L HL) as (ps & P & _). apply (page_place _ _ _ _ _ _ P) in Pf.
    destruct (page_counted _ _ _ _ _ _ _ _ T _ _ _ Rn L fps HL Pf) as (fs & C & M). pose proof (rn_pos _ _ _ _ _ _ _ _ Rn).
    eapply old_keys; eauto; [lia|]. intros f Hf. specialize (M f Hf). lia.
  Qed.

  Theorem new_reachable : Forall (fun x => is_int (snd x)) fonts ->
    forall L fps, In L ids -> writable_page (objs p) ids info L -> page_fonts (objs p) L fps ->
    exists fps', page_fonts (objs p') L fps' /\
      forall h i, In (h, i) idx -> exists id, In (h, id) fonts /\ font_named fps' (B"F" ++ itoa i) id.
  Proof.
    intros Fi L fps HL Wp Pf. destruct (run_facts _ _ _ _ _ _ _ _ Fr T Run) as (rs & max & new & Rn).
    destruct (idx_facts rs max new Rn) as (_ & _ & Nn & Nm & I3).
    destruct (page_of _ _ _ _ T L HL) as (ps & P & _). apply (page_place _ _ _ _ _ _ P) in Pf.
    destruct (page_after _ _ _ _ _ _ _ _ T _ _ _ Rn L fps HL Wp Pf) as (fs & C & M & Pa). exists (map fprop (fs ++ new)). split; [auto|].
    intros h i Hin. destruct (I3 h i Hin) as (Lt & f & Hf & Ef & Ho). exists (cf_obj f). split; [auto|].
    destruct (Nm f Hf) as (En & _). rewrite Ef in En. pose proof (rn_pos _ _ _ _ _ _ _ _ Rn).
    exists (refText (cf_obj f)). split.
    - rewrite map_app. apply value_app_r; [|rewrite <- En; apply find_unique; auto].
      rewrite keys_has, fprop_keys. intros X. apply in_map_iff in X. destruct X as (g & E & Hg).
      eapply (old_not_new fps fs g i); eauto; [lia|]. specialize (M g Hg). lia.
    - apply ref_roundtrip. rewrite Forall_forall in Fi. apply (Fi _ Ho).
  Qed.

  Theorem old_kept : forall L fps, In L ids -> writable_page (objs p) ids info L -> page_fonts (objs p) L fps ->
    Forall (fun q => numbered_name (pkey q)) fps ->
    exists fps', page_fonts (objs p') L fps' /\ List.length fps' = (List.length fps + List.length fonts)%nat /\
      forall k n, is_int n -> font_named fps k n -> font_named fps' k n.
  Proof.
    intros L fps HL Wp Pf Nu. destruct (run_facts _ _ _ _ _ _ _ _ Fr T Run) as (rs & max & new & Rn).
    destruct (page_of _ _ _ _ T L HL) as (ps & P & _). apply (page_place _ _ _ _ _ _ P) in Pf.
    destruct (page_after _ _ _ _ _ _ _ _ T _ _ _ Rn L fps HL Wp Pf) as (fs & C & M & Pa). exists (map fprop (fs ++ new)). split; [auto|].
    destruct (numbered_all fps fs C Nu) as (E & R). split.
    - rewrite map_length, app_length, (rn_new _ _ _ _ _ _ _ _ Rn), new_length. f_equal.
      + rewrite <- (map_length cf_name), E, map_length. reflexivity.
      + apply Permutation_length, Fr.
    - intros k n Hi (v & V & I'). exists (refText n). split; [|apply ref_roundtrip; auto]. rewrite map_app. apply value_app_l. eapply value_kept; eauto.
  Qed.

  (** ** Keys stay unique *)
  Lemma set_keys : forall k v ps, map pkey (setPropByKey k v ps) = map pkey ps.
  Proof. intros k v. induction ps as [|q ps IH]; [reflexivity|]. cbn [setPropByKey]. destruct (beqb (pkey q) k); cbn [map pkey]; [reflexivity|now rewrite IH]. Qed.

  Lemma nodup_app : forall A (a b : list A), NoDup a -> NoDup b -> (forall x, In x a -> ~ In x b) -> NoDup (a ++ b).
  Proof.
    intros A. induction a as [|x a IH]; intros b Na Nb D; [exact Nb|]. inversion Na; subst. cbn [app]. constructor.
    - intros X. apply in_app_or in X. destruct X as [X|X]; [auto|]. exact (D x (or_introl eq_refl) X).
    - apply IH; auto. intros y Hy. apply D. right. auto.
  Qed.

  Theorem keys_unique :
    (forall L fps, In L ids -> page_fonts (objs p) L fps -> writable_page (objs p) ids info L /\ unshared ids info L /\ Forall (fun q => numbered_name (pkey q)) fps) ->
    forall id ps, dict (objs p) id ps -> NoDup (map pkey ps) ->
    exists ps', dict (objs p') id ps' /\ NoDup (map pkey ps') /\ incl (map pkey ps) (map pkey ps').
  Proof.
    intros Ok_ id ps D N. destruct (run_facts _ _ _ _ _ _ _ _ Fr T Run) as (rs & max & new & Rn).
    destruct (idx_facts rs max new Rn) as (_ & _ & Nn & Nm & _). pose proof (rn_pos _ _ _ _ _ _ _ _ Rn) as Pos.
    destruct (rn_same _ _ _ _ _ _ _ _ Rn id) as [(E & _)|(k & l & s & G & W & Da)].
    { exists ps. split; [|split; [auto|apply incl_refl]]. apply (same_dict (objs p)); auto. apply (rn_has _ _ _ _ _ _ _ _ Rn). }
    assert (Ok2 : forall L fps, In L ids -> place_fonts (info L) = Some fps -> writable_page (objs p) ids info L /\ unshared ids info L /\ Forall (fun q => numbered_name (pkey q)) fps).
    { intros L fps HL E. apply Ok_; auto. destruct (page_of _ _ _ _ T L HL) as (ps0 & P & _). apply (page_place _ _ _ _ _ _ P). auto. }
    destruct W as [(fs & Dd & -> & ->)|(fs & Dd & ->)].
    - destruct (found_cases _ _ _ _ T rs (rn_stage _ _ _ _ _ _ _ _ Rn) k l _ G Dd) as [(rps & fp & HL & E & Ef)|(L & rps & fp & HL & E & Ef)]; [discriminate| |];
        destruct (fd_inline _ _ Ef) as (fps & -> & C).
      + destruct (Ok2 k fps HL) as (Wp & _); [rewrite E; reflexivity|].
        destruct (leaf_after _ _ _ _ _ _ _ _ T _ _ _ Rn k ps rps fps HL E Wp D) as (fs' & v & _ & _ & D' & _).
        eexists. split; [exact D'|]. rewrite set_keys. split; [auto|apply incl_refl].
      + destruct (Ok2 L fps HL) as (Wp & Un & _); [rewrite E; reflexivity|].
        destruct (res_after _ _ _ _ _ _ _ _ T _ _ _ Rn L k rps fps HL E Wp) as (fs' & n & _ & _ & N0 & _ & D' & _).
        rewrite (N0 Un) in D'. cbn [repeat concat] in D'. rewrite app_nil_r in D'.
        destruct (res_of _ _ _ _ T _ _ _ _ HL E) as (_ & R & _). apply dict_data in D. destruct D as (_ & R'). assert (ps = rps) by congruence. subst ps.
        eexists. split; [exact D'|]. rewrite set_keys. split; [auto|apply incl_refl].
    - assert (X : exists L fps, In L ids /\ In id (font_objects (info L)) /\ place_fonts (info L) = Some fps /\ dict (objs p) id fps).
      { destruct (found_cases _ _ _ _ T rs (rn_stage _ _ _ _ _ _ _ _ Rn) k l _ G Dd) as [(rps & fp & HL & E & Ef)|(L & rps & fp & HL & E & Ef)]; [discriminate| |].
        - destruct (page_of _ _ _ _ T k HL) as (ps0 & (_ & P) & _). rewrite E in P. destruct P as (v & _ & _ & _ & F).
          destruct (fd_object p _ _ _ _ F Ef) as (fps & -> & _). exists k, fps. rewrite E. split; [auto|]. split; [left; auto|]. split; [reflexivity|].
          destruct F as (w & _ & _ & F). auto.
        - destruct (res_of _ _ _ _ T _ _ _ _ HL E) as (_ & _ & F & _).
          destruct (fd_object p _ _ _ _ F Ef) as (fps & -> & _). exists L, fps. rewrite E. split; [auto|]. split; [left; auto|]. split; [reflexivity|].
          destruct F as (w & _ & _ & F). auto. }
      destruct X as (L & fps & HL & Hf & Ep & Df). assert (fps = ps) by (eapply dict_fun; eauto). subst fps.
      destruct (Ok2 L ps HL Ep) as (Wp & _ & Nu).
      assert (Reg : Forall (fun q => regular_name (pkey q)) ps).
      { unfold writable_page in Wp. destruct (info L) as [|rps fp|r rps fp]; [destruct Hf| |]; destruct fp; try contradiction; cbn in Ep; inversion Ep; subst; auto. }
      destruct (font_after _ _ _ _ _ _ _ _ T _ _ _ Rn L id ps HL Hf Ep Df Reg) as (fs' & C & D').
      destruct (numbered_all ps fs' C Nu) as (E & _). destruct (page_counted _ _ _ _ _ _ _ _ T _ _ _ Rn L ps HL Ep) as (fs2 & C2 & M).
      rewrite C in C2. inversion C2; subst fs2.
      eexists. split; [exact D'|]. rewrite fprop_keys, map_app, E. split; [|apply incl_appl, incl_refl].
      apply nodup_app; auto. intros x Hx Hy. rewrite <- E in Hx. apply in_map_iff in Hx, Hy. destruct Hx as (g & Eg & Hg). destruct Hy as (f & Ef & Hf').
      destruct (Nm f Hf') as (En & Lt). specialize (M g Hg). eapply (old_not_new ps fs' g (cf_index f)); eauto; [lia|lia|congruence].
  Qed.
End Run.
