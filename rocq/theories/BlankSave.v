(** A document with a page whose Contents entry is no reference is never saved. *)
From Coq Require Import String List ZArith Lia Bool Permutation.
From Coq.Floats Require Import SpecFloat.
From Verif Require Import Base BaseProofs Output OutputProofs Props PropsSpec PdfData PagesSpec PagesProofs PagesEdit Crawl Inject InjectSpec InjectPages InjectFonts InjectTidy ImgNames ImgSpec ImgPages
  Crypto Png Utf8 Float64 Ttf CharMap Subset Text Wrap Parse Api ApiSpec ApiProofs ApiIds ApiFrames ApiFresh ContentSpec ContentProofs ContentFinal FontChain
  SaveSpec SaveFrame SaveKeeps SaveFonts SaveImages SaveDraws SaveWhole SaveCalls SaveGoesSpec SaveGoesFonts SaveGoesImages SaveGoesStep SaveHeld SaveGoes ParsePages CrawlProofs.
Open Scope Z_scope.
Open Scope list_scope.

(** The one Contents entry of the page is read as the number of an object. *)
Definition contents_at (os : list obj) (L : Z) : Prop := exists ps v id, dict os L ps /\ only ps (B"Contents") v /\ readObjID v = Ok id /\ In id (map oid os).
(** It is taken for one, but is none. *)
Definition contents_bad (os : list obj) (L : Z) : Prop := exists ps v e, dict os L ps /\ only ps (B"Contents") v /\ propertyType v = PDictionary /\ readObjID v = Err e.

Lemma ids_get : forall os id, NoDup (map oid os) -> In id (map oid os) -> exists o, getObj id os = Ok o.
Proof. intros os id N H. apply in_map_iff in H. destruct H as (o & <- & H). exists o. apply getObj_one; assumption. Qed.
Lemma crawl_bad : forall os key pid o ps v e, version os pid o -> entries o ps -> only ps key v -> propertyType v = PDictionary -> readObjID v = Err e -> crawl_checked os pid [key] = Err e.
Proof.
  intros os key pid o ps v e V E (a & b & Ep & O) T R. unfold crawl_checked, crawl_run. rewrite (version_get _ _ _ V). cbn [next]. unfold entries in E. rewrite E.
  rewrite Ep. rewrite next_skip by (intros q Hq; apply O; apply in_or_app; auto). cbn [next_props pkey pval]. rewrite beqb_refl. cbn [negb]. rewrite T, R. reflexivity.
Qed.
Lemma results_on : forall inflate beyond os page rs buffs must x, (forall k l v, In (k, l) rs -> valOf (B"Contents") l = Some v -> exists id, readObjID v = Ok id) ->
  pageResults inflate beyond os page rs buffs must = Ok x -> snd x = false.
Proof.
  induction rs as [|[k l] rs IH]; intros buffs must x H E; cbn [pageResults] in E; [assert (x = (buffs, must, false)) by congruence; subst x; reflexivity|].
  assert (H' : forall k l v, In (k, l) rs -> valOf (B"Contents") l = Some v -> exists id, readObjID v = Ok id) by (intros k' l' v' Hi; apply (H k' l' v'); right; exact Hi).
  destruct (valOf (B"Contents") l) as [v|] eqn:Ev; [|eapply IH; eauto]. destruct (H k l v (or_introl eq_refl) Ev) as (id & R).
  unfold contentsID in E. rewrite (type_ref _ _ R), R in E. cbn [bind] in E. apply bind_ok in E as (o & _ & E). apply bind_ok in E as (f & _ & E). apply bind_ok in E as (n & _ & E). apply bind_ok in E as (stm & _ & E).
  destruct (map_get buffs page); eapply IH; eauto.
Qed.
Lemma loop_bad : forall ord inflate beyond os ids page buffs must, fair ord -> NoDup (map oid os) -> Forall (fun L => contents_at os L \/ contents_bad os L) ids -> Exists (contents_bad os) ids ->
  forall x, pagesLoop ord inflate beyond os page ids buffs must <> Ok x.
Proof.
  intros ord inflate beyond os ids page buffs must Fr Un All Bad. revert page buffs must. induction ids as [|L ids IH]; intros page buffs must x H; [inversion Bad|]. cbn [pagesLoop] in H.
  apply bind_ok in H as (rs & Er & H). inversion All as [|? ? A1 A2]; subst.
  assert (Nb : ~ contents_bad os L). { intros (ps & v & e & (o & V & E) & O & T & R). rewrite (crawl_bad _ _ _ _ _ _ _ V E O T R) in Er. discriminate. }
  inversion Bad as [? ? B1|? ? B2]; subst; [contradiction|]. destruct A1 as [(ps & v & id & (o & V & E) & O & R & I)|A1]; [|contradiction].
  apply bind_ok in H as ([[bf mu] stop] & Ep & H).
  destruct (crawl_page os (B"Contents") L o ps v V E O) as (rs' & Er' & Nd & Hin & Ho). { destruct (ids_get os id Un I) as (o' & G). exists id, o'. auto. }
  assert (rs' = rs) by congruence. subst rs'. apply results_on in Ep.
  - cbn [snd] in Ep. subst stop. eapply IH; eauto.
  - intros k l u Hk Hu. assert (Hk' : In (k, l) rs) by (eapply Permutation_in; [apply Fr|exact Hk]). destruct (Ho k l Hk') as [->| ->]; [|discriminate Hu].
    assert (l = strs ps). { clear -Nd Hin Hk'. induction rs as [|[a b] rs IH]; [contradiction|]. cbn [map fst] in Nd. inversion Nd as [|? ? N1 N2]; subst.
      destruct Hin as [X|X], Hk' as [Y|Y]; [congruence| | |auto]; exfalso; apply N1.
      - assert (a = L) by congruence. subst a. apply (in_map fst) in Y. exact Y.
      - assert (a = L) by congruence. subst a. apply (in_map fst) in X. exact X. }
    subst l. rewrite valOf_strs in Hu. apply only_value in O. rewrite (value_get _ _ _ O) in Hu. cbn [option_map pval] in Hu. exists id. congruence.
Qed.
Lemma build_next : forall w ids fs next fs1 n, build_fonts w ids fs next = (fs1, Ok n) -> n = next + 6 * Z.of_nat (List.length ids).
Proof.
  intros w. induction ids as [|id ids IH]; intros fs next fs1 n H; cbn [build_fonts] in H; [assert (n = next) by congruence; cbn [List.length]; lia|].
  destruct (nth_error fs id) as [f|]; [|discriminate]. destruct (font_build w f (next + 1)); try discriminate. apply IH in H. cbn [List.length]. lia.
Qed.

Theorem never_saved : forall w fuel ch s s' F rid ts fi xi, fair (ch_ord ch) -> NoDup (map snd (names_of s)) -> ready_document (d_pdf (s_doc s)) rid ts fi xi ->
  (depth (Node rid ts) <= fuel)%nat -> maxID (objs (d_pdf (s_doc s))) + 6 * Z.of_nat (List.length (names_of s)) + Z.of_nat (List.length (s_imgs s)) < 2 ^ 63 \/ blen F < 10 ^ 10 ->
  Forall (fun L => contents_at (objs (d_pdf (s_doc s))) L \/ contents_bad (objs (d_pdf (s_doc s))) L) (flat_map leaves ts) -> Exists (contents_bad (objs (d_pdf (s_doc s)))) (flat_map leaves ts) ->
  saveTo w fuel ch s <> Ok (s', Ok F).
Proof.
  intros w fuel ch s s' F rid ts fi xi Fr Names RD Deep Room All Bad Save.
  destruct (save_steps _ _ _ _ _ _ Save Fr) as (order & order2 & fs1 & next & p1 & idx & p4 & names & p5 & os & enc & St). cbv zeta in St.
  destruct St as (P1 & P2 & Eb & Ef & Ei & Ec & _ & EF & _). set (p0 := d_pdf (s_doc s)) in *.
  assert (NDo : NoDup order) by (eapply Permutation_NoDup; [symmetry; exact P1|exact Names]).
  assert (P21 : Permutation order2 order) by (rewrite P1; exact P2).
  pose proof (new_numbers w s rid ts fi xi RD _ _ _ _ _ _ NDo Eb Ef order2 P21) as N3.
  set (imgs := img_objs (s_imgs s) next) in *. set (new := flat_map (objs_at (fold_left set_index idx fs1)) order2) in *.
  pose proof (build_next _ _ _ _ _ _ Eb) as Enx.
  assert (Ii : Forall is_int (map oid imgs)).
  { apply Forall_forall. intros i Hi. destruct (img_objs_ids (s_imgs s) next) as [_ Fi]. rewrite Forall_forall in Fi. apply Fi in Hi. pose proof (maxID_nonneg (objs p0)) as Pos.
    assert (Lo : List.length order = List.length (names_of s)) by (apply Permutation_length in P1; rewrite map_length in P1; exact P1). assert (Li : List.length imgs = List.length (s_imgs s)) by apply img_objs_len. rewrite Lo in Enx. unfold is_int. assert (X : 10 ^ 10 < 2 ^ 63) by reflexivity. destruct Room as [Room|Small]; [lia|].
    assert (Lb : next + Z.of_nat (List.length imgs) < 10 ^ 10) by (apply (size_bound os _ (root p5) enc); [lia|rewrite <- EF; exact Small]). lia. }
  destruct (injectFonts_ids _ _ _ _ _ Ef) as [I1 R1]. destruct (injectImgs_ids _ _ _ _ _ Ei) as [I4 R4]. cbn [objs root] in I4, R4.
  pose proof (images_step _ _ _ _ _ RD _ _ _ _ Fr Ef _ _ _ _ N3 Ei Ii) as IA. pose proof (top04 _ _ _ _ _ RD _ _ _ _ Fr Ef _ _ _ _ N3 IA) as T04.
  assert (T4 : page_tree p4 (Node rid ts)) by (apply (tree_grown p0); [apply (rd_tree _ _ _ _ _ RD)|congruence|]; intros j Hj ps D; destruct (T04 j ps Hj D) as (ps' & D' & W' & _); exists ps'; auto).
  pose proof (getPageObjIDs_leaves p4 (Node rid ts) fuel T4 Deep) as Gp. cbn [leaves] in Gp.
  assert (Lt : forall L, In L (flat_map leaves ts) -> In L (root p0 :: rid :: flat_map tree_ids ts)) by (intros L HL; apply (leaf_in' _ _ _ _ (rd_fonts _ _ _ _ _ RD)); exact HL).
  assert (Ids : forall i, In i (map oid (objs p0)) -> In i (map oid (objs p4))) by (intros i Hi; rewrite I4, map_app, I1; apply in_or_app; left; exact Hi).
  assert (At4 : forall L, In L (flat_map leaves ts) -> contents_at (objs p0) L -> contents_at (objs p4) L).
  { intros L HL (ps & v & id & D & O & R & I). destruct (T04 L ps (Lt L HL) D) as (ps' & D' & _ & K). destruct (K HL) as (_ & K'). exists ps', v, id. auto. }
  assert (Bad4 : forall L, In L (flat_map leaves ts) -> contents_bad (objs p0) L -> contents_bad (objs p4) L).
  { intros L HL (ps & v & e & D & O & T & R). destruct (T04 L ps (Lt L HL) D) as (ps' & D' & _ & K). destruct (K HL) as (_ & K'). exists ps', v, e. auto. }
  unfold injectContent in Ec. apply bind_ok in Ec as (m & _ & Ec). rewrite Gp in Ec. cbn [bind] in Ec. apply bind_ok in Ec as (st & El & _).
  revert El. apply loop_bad; [exact Fr|rewrite I4; exact N3| |].
  - apply Forall_forall. rewrite Forall_forall in All. intros L HL. destruct (All L HL); [left; auto|right; auto].
  - apply Exists_exists in Bad. destruct Bad as (L & HL & B1). apply Exists_exists. exists L. auto.
Qed.
