(** Adding images to a document succeeds. *)
From Coq Require Import String List ZArith Lia Bool Permutation.
From Verif Require Import Base BaseProofs Output Props PropsSpec PdfData PagesSpec PagesProofs PagesEdit
  Crawl Inject CrawlProofs CrawlVisits PageCrawl InjectMaps InjectNames InjectItems InjectTexts InjectSpec InjectMarks InjectVisits InjectPages InjectTidy
  InjectFonts InjectFinal ImgNames ImgSpec ImgCrawl ImgPages SaveGoesFonts.
Open Scope Z_scope.
Open Scope list_scope.

(** ** What is visited is there *)
Lemma visits_there : forall os path data i q, walk os path data = true -> In (i, q) (visits os path data) -> has_obj os i = true.
Proof.
  intros os. induction path as [|key path IH]; intros data i q W H; [destruct H|]. cbn [walk visits] in *.
  destruct (readProperties data) as [ps| | |]; try contradiction. apply in_flat_map in H. destruct H as (pr & Hp & H). rewrite forallb_forall in W. specialize (W pr Hp).
  destruct (negb (beqb (pkey pr) key)); [destruct H|]. destruct (propertyType (pval pr)).
  - destruct path as [|k path]; [destruct H|]. eapply IH; eauto.
  - destruct (readObjIDs (pval pr)) as [ids| | |]; try contradiction. apply in_flat_map in H. destruct H as (id & Hid & H). rewrite forallb_forall in W. specialize (W id Hid).
    apply andb_true_iff in W. destruct W as (W1 & W2). destruct H as [E|H]; [inversion E; subst; exact W1|eapply IH; eauto].
  - destruct H.
  - destruct (readObjID (pval pr)) as [id| | |]; try contradiction. apply andb_true_iff in W. destruct W as (W1 & W2). destruct H as [E|H]; [inversion E; subst; exact W1|eapply IH; eauto].
Qed.
Lemma crawl_there : forall os id path i, smooth os id path -> vis i (crawl_from os id path) = true -> has_obj os i = true.
Proof.
  intros os id path i (H & W & _) V. apply vis_in in V. apply in_map_iff in V. destruct V as ((i' & q) & E & V). cbn [fst] in E. subst i'.
  destruct V as [E|V]; [inversion E; subst; exact H|eapply visits_there; eauto].
Qed.
Lemma seen_there : forall os root path i l, all_smooth os root path -> seen os root path i l -> has_obj os i = true.
Proof.
  intros os root path i l (S0 & S1) H. destruct H as [i H|k l0 i Hk Sk Ik Hi]; [eapply crawl_there; eauto|]. eapply crawl_there; [|exact Hi]. eapply S1; eauto.
Qed.

(** ** A longer path *)
Lemma visits_len : forall os path data i q, In (i, q) (visits os path data) -> (List.length q < List.length path)%nat.
Proof.
  intros os. induction path as [|key path IH]; intros data i q H; [destruct H|]. cbn [visits] in H.
  destruct (readProperties data) as [ps| | |]; try contradiction. apply in_flat_map in H. destruct H as (pr & Hp & H). cbn [List.length].
  destruct (negb (beqb (pkey pr) key)); [destruct H|]. destruct (propertyType (pval pr)).
  - destruct path as [|k path]; [destruct H|]. apply IH in H. lia.
  - destruct (readObjIDs (pval pr)) as [ids| | |]; try contradiction. apply in_flat_map in H. destruct H as (id & Hid & H).
    destruct H as [E|H]; [inversion E; subst; lia|apply IH in H; lia].
  - destruct H.
  - destruct (readObjID (pval pr)) as [id| | |]; try contradiction. destruct H as [E|H]; [inversion E; subst; lia|apply IH in H; lia].
Qed.
Lemma visits_shorter : forall os q2 q1 data i q, In (i, q ++ q2) (visits os (q1 ++ q2) data) -> In (i, q) (visits os q1 data).
Proof.
  intros os q2. induction q1 as [|key q1 IH]; intros data i q H.
  - exfalso. cbn [app] in H. apply visits_len in H. rewrite app_length in H. lia.
  - cbn [app visits] in *.
    destruct (readProperties data) as [ps| | |]; try contradiction.
    apply in_flat_map in H. destruct H as (pr & Hp & H). apply in_flat_map. exists pr. split; [auto|].
    destruct (negb (beqb (pkey pr) key)); [auto|]. destruct (propertyType (pval pr)).
    + destruct q1 as [|k q1].
      * exfalso. cbn [app] in H. destruct q2 as [|k q2]; [destruct H|]. apply visits_len in H. rewrite app_length in H. lia.
      * cbn [app] in *. apply IH. exact H.
    + destruct (readObjIDs (pval pr)) as [ids| | |]; try contradiction. apply in_flat_map in H. destruct H as (id & Hid & H). apply in_flat_map. exists id. split; [auto|].
      destruct H as [E|H]; [|right; auto]. injection E as E1 E2. apply app_inv_tail in E2. subst. left. reflexivity.
    + destruct H.
    + destruct (readObjID (pval pr)) as [id| | |]; try contradiction. destruct H as [E|H]; [|right; auto]. injection E as E1 E2. apply app_inv_tail in E2. subst. left. reflexivity.
Qed.
Lemma crawl_shorter : forall os q2 id q1 i q, In (i, q ++ q2) (crawl_from os id (q1 ++ q2)) -> In (i, q) (crawl_from os id q1).
Proof.
  intros os q2 id q1 i q [E|H]; [|right; eapply visits_shorter; eauto]. injection E as E1 E2. apply app_inv_tail in E2. subst. left. reflexivity.
Qed.

Lemma first_goes : forall rs, (forall k l v, In (k, l) rs -> valOf (B"Resources") l = Some v -> (exists r, readObjID v = Ok r) \/ readObjID v = Err EObjNotFound) ->
  (exists k l v, In (k, l) rs /\ valOf (B"Resources") l = Some v) -> exists rx embed, firstResources rs = Ok (Some (rx, embed)).
Proof.
  induction rs as [|[k l] rs IH]; intros H (k0 & l0 & v0 & Hin & V0); [destruct Hin|]. cbn [firstResources].
  destruct (valOf (B"Resources") l) as [v|] eqn:V.
  - destruct (H k l v (or_introl eq_refl) V) as [(r & ->)| ->]; eauto.
  - apply IH; [intros; eapply H; [right|]; eauto|]. exists k0, l0, v0. split; [|exact V0]. destruct Hin as [E|Hin]; [inversion E; subst; congruence|exact Hin].
Qed.
Lemma embed_goes : forall xs rs, (forall k l v, In (k, l) rs -> valOf (B"Resources") l = Some v -> 4 <= blen (trim_space v)) ->
  exists must, imgReplacesEmbed xs rs = Ok must /\ forall j, In j (map fst must) -> In j (map fst rs).
Proof.
  intros xs. induction rs as [|[k l] rs IH]; intros H; cbn [imgReplacesEmbed]; [exists []; auto|].
  destruct IH as (must & E & Sub); [intros; eapply H; [right|]; eauto|].
  destruct (valOf (B"Resources") l) as [v|] eqn:V.
  - pose proof (H k l v (or_introl eq_refl) V) as Hv. cbv zeta. unfold slice.
    replace ((0 <=? 2) && (2 <=? blen (trim_space v) - 2) && (blen (trim_space v) - 2 <=? blen (trim_space v))) with true by lia.
    cbn [bind]. rewrite E. cbn [bind]. eexists. split; [reflexivity|]. cbn [map fst]. intros j [<-|Hj]; [left; reflexivity|right; auto].
  - exists must. split; [exact E|]. intros j Hj. right. auto.
Qed.
Lemma found_keys : forall xs rs j, In j (map fst (imgReplacesFound xs rs)) -> In j (map fst rs).
Proof.
  intros xs rs j H. apply in_map_iff in H. destruct H as ((j' & s) & E & H). cbn [fst] in E. subst j'. unfold imgReplacesFound in H. apply in_flat_map in H.
  destruct H as ((k & l) & Hk & H). cbn [fst snd] in H. destruct (valOf (B"XObject") l); [|destruct H]. destruct H as [E|[]]. inversion E; subst. apply (in_map fst) in Hk. exact Hk.
Qed.
Lemma plain_keys : forall xs rs, map fst (imgReplacesPlain xs rs) = map fst rs.
Proof. intros xs rs. unfold imgReplacesPlain. rewrite map_map. apply map_ext. reflexivity. Qed.

Section Goes.
  Variables (ord : morder) (p : pdf) (imgs : list Z) (rid : Z) (ts : list tree) (info : Z -> res_place).
  Hypothesis Fr : fair ord.
  Hypothesis T : tidy XO p rid ts info.
  Hypothesis Top : bare_top p rid.
  Notation os := (objs p).
  Notation ids := (flat_map leaves ts).
  Notation spath := [B"Kids"; B"Resources"].
  Notation kpath := (@kpath XO).
  Notation RF := (@RF XO).
  Hypothesis NoAt : forall L, In L ids -> match info L with ResIn _ (FontAt _ _) | ResAt _ _ (FontAt _ _) => False | _ => True end.
  Hypothesis Said : forall L rps fp ps v, In L ids -> info L = ResIn rps fp -> dict os L ps -> value ps (B"Resources") v -> readObjID v = Err EObjNotFound.
  Hypothesis Some_res : exists L, In L ids /\ info L <> NoRes.
  Hypothesis Shape : (exists L rps xps, In L ids /\ info L = ResIn rps (FontIn xps)) \/
    (forall L rps fp, In L ids -> info L <> ResIn rps fp) \/
    forall L ps v, In L ids -> info L <> NoRes -> dict os L ps -> value ps (B"Resources") v -> 4 <= blen (trim_space v).

  (** A value of Resources collected is that of a page. *)
  Lemma short_value : forall i X n v, scontent p rid ts info i X -> valOf (B"Resources") (concat (repeat X n)) = Some v ->
    In i ids /\ exists ps, dict os i ps /\ value ps (B"Resources") v /\ info i <> NoRes.
  Proof.
    intros i X n v K V. destruct n as [|n]; [discriminate|]. destruct K as [k ps Hn R Nr|L ps HL R|r Hr].
    - rewrite valOf_copies in V. apply key_none in Nr. rewrite Nr in V. discriminate.
    - rewrite valOf_copies in V. split; [exact HL|]. exists ps. destruct (page_of _ _ _ _ T L HL) as (ps' & (D & P) & _). pose proof D as D2. apply dict_data in D. destruct D as (_ & R').
      rewrite R in R'. inversion R'; subst ps'. split; [exact D2|]. destruct (getPropByKey (B"Resources") ps) as [q|] eqn:Gq; [|discriminate]. cbn in V. inversion V; subst.
      split; [apply (get_value ps (B"Resources") q Gq)|]. intros E. rewrite E in P. apply key_none in P. congruence.
    - rewrite copies_nil in V. discriminate.
  Qed.
  Lemma value_said : forall L ps v, In L ids -> info L <> NoRes -> dict os L ps -> value ps (B"Resources") v -> (exists r, readObjID v = Ok r) \/ readObjID v = Err EObjNotFound.
  Proof.
    intros L ps v HL Nr D V. destruct (page_of _ _ _ _ T L HL) as (ps' & (D' & P) & _). assert (ps' = ps) by (eapply dict_fun; eauto). subst ps'.
    destruct (info L) as [|rps fp|r rps fp] eqn:E; [congruence|right; eapply Said; eauto|].
    left. destruct P as (v' & O' & I' & _). assert (v = v') by (eapply value_fun; eauto using once_value). subst. eauto.
  Qed.

  (** The pages are found. *)
  Lemma node_short : forall k kids, In (Node k kids) ts -> forall l, seen os (root p) spath k l -> is_inner l = true.
  Proof.
    intros k kids H l Sk.
    assert (A : exists ps n, readProperties (data_of os k) = Ok ps /\ is_inner (strs ps) = true /\ l = concat (repeat (strs ps) (Datatypes.S n))).
    { destruct (node_step _ _ _ _ T k kids H) as (ps & v & R & _ & _ & _ & _ & _ & _ & _ & _ & Ii & _). exists ps.
      assert (G : forall C, scrawls p ts C -> vis k C = true -> l = collect os k C -> exists n, readProperties (data_of os k) = Ok ps /\ is_inner (strs ps) = true /\ l = concat (repeat (strs ps) (Datatypes.S n))).
      { intros C HC V El. destruct (cnt_some _ _ V) as (n & En). exists n. split; [exact R|]. split; [exact Ii|]. rewrite El, <- En. apply collect_same. intros q Hq.
        pose proof (short_visit p rid ts info T Top k q (scrawl_visit p rid ts info T C k q HC Hq)) as K1.
        destruct (td_inner _ _ _ _ T k kids H) as (ps' & v' & D & _ & _ & _ & _ & _ & _ & NR & _). apply dict_data in D. destruct D as (_ & R'). rewrite R in R'. inversion R'; subst ps'.
        eapply (scontent_fun p rid ts info T); [exact K1|]. apply sc_node; auto. right. right. eauto. }
      destruct Sk as [i V|k' l0 i Hk' Sk' Ik' V]; [apply (G (crawl_from os (root p) (B"Pages" :: spath))); auto; left; reflexivity|].
      destruct (sseen_is p rid ts info T Top k' l0 Sk') as (X & n & K1 & ->). destruct (sinner p rid ts info T _ _ _ K1 Ik') as (kids' & Hn).
      apply (G (crawl_from os k' spath)); auto. right. eauto. }
    destruct A as (ps & n & _ & Ii & ->). apply copies_yes. exact Ii.
  Qed.
  Lemma short_found : forall rs L, stage os (root p) spath (map fst (crawl_from os (root p) (B"Pages" :: spath))) rs -> In L ids -> exists l, map_get rs L = Some l.
  Proof.
    intros rs L St HL. apply get_key. apply in_flat_map in HL. destruct HL as (t & Ht & HL).
    assert (Tv : forall i, In (i, [B"Resources"] ++ [XO]) (flat_map (@tv XO info) ts) -> In (i, [B"Resources"]) (crawl_from os (root p) (B"Pages" :: spath))).
    { intros i Hi. apply (crawl_shorter os [XO]). change ((B"Pages" :: spath) ++ [XO]) with (B"Pages" :: kpath). rewrite (crawl_root _ _ _ _ T). right. right. exact Hi. }
    destruct (tree_cases _ _ _ _ T _ Ht) as [(j & ->)|(k & l & ->)].
    - destruct HL as [<-|[]]. apply (st_first _ _ _ _ _ St). apply vis_in. apply in_map_iff. exists (j, [B"Resources"]). split; [reflexivity|]. apply Tv.
      apply in_flat_map. exists (Leaf j). split; [exact Ht|]. left. reflexivity.
    - cbn [leaves] in HL. rewrite leaf_leaves in HL. apply (st_done _ _ _ _ _ St k).
      + apply in_map_iff. exists (k, [B"Resources"]). split; [reflexivity|]. apply Tv. apply in_flat_map. eexists; split; [exact Ht|]. left. reflexivity.
      + intros l' H'. eapply node_short; eauto.
      + apply vis_in. apply in_map_iff. exists (L, [B"Resources"]). split; [reflexivity|]. apply (crawl_shorter os [XO]). change (spath ++ [XO]) with kpath.
        destruct (crawlK_is _ _ _ _ T k l Ht) as (Ec & _). rewrite Ec. right. apply in_flat_map. exists L. split; [exact HL|]. left. reflexivity.
  Qed.
  Lemma page_short : forall rs L l, stage os (root p) spath (map fst (crawl_from os (root p) (B"Pages" :: spath))) rs -> In L ids -> info L <> NoRes -> map_get rs L = Some l ->
    exists v, valOf (B"Resources") l = Some v.
  Proof.
    intros rs L l St HL Nr G. pose proof (st_sound _ _ _ _ _ St _ _ G) as Sk.
    destruct (page_of _ _ _ _ T L HL) as (ps & (D & P) & _). apply dict_data in D. destruct D as (_ & R).
    assert (A : forall C, scrawls p ts C -> vis L C = true -> exists n, collect os L C = concat (repeat (strs ps) (Datatypes.S n))).
    { intros C HC V. destruct (cnt_some _ _ V) as (n & En). exists n. rewrite <- En. apply collect_same. intros q Hq.
      eapply (scontent_fun p rid ts info T); [apply (short_visit p rid ts info T Top L q (scrawl_visit p rid ts info T C L q HC Hq))|]. apply sc_leaf; auto. }
    assert (Bx : exists n, l = concat (repeat (strs ps) (Datatypes.S n))).
    { destruct Sk as [i V|k' l0 i Hk' Sk' Ik' V]; [apply (A _ (or_introl eq_refl) V)|].
      destruct (sseen_is p rid ts info T Top k' l0 Sk') as (X & n & K1 & ->). destruct (sinner p rid ts info T _ _ _ K1 Ik') as (kids' & Hn).
      apply A; [|exact V]. right. eauto. }
    destruct Bx as (n & ->). rewrite valOf_copies.
    destruct (info L) as [|rps fp|r rps fp]; [congruence| |]; destruct P as (v & O' & _); apply once_value, value_get in O'; rewrite O'; cbn; eauto.
  Qed.

  Lemma second_goes : forall L, In L ids -> match info L with
      | NoRes => True
      | ResIn _ _ => exists ps, crawl_checked os L [XO] = Ok [(L, strs ps)] /\ valOf XO (strs ps) = None
      | ResAt r rps fp => exists X, crawl_checked os r [XO] = Ok [(r, X)] /\ has_obj os r = true
      end.
  Proof.
    intros L HL. pose proof (NoAt L HL) as N. destruct (page_of _ _ _ _ T L HL) as (ps & (D & P) & _). apply dict_data in D. destruct D as (Ho & R).
    destruct (info L) as [|rps fp|r rps fp] eqn:E; [exact Logic.I| |].
    - exists ps. destruct (second_page p rid ts info T L ps rps fp HL E R) as (E1 & E2). split; [exact E1|]. rewrite valOf_strs, E2. reflexivity.
    - exists (strs rps). destruct (res_of _ _ _ _ T L r rps fp HL E) as (Hr & _). split; [|exact Hr]. apply (second_res p rid ts info T L r rps fp HL E). destruct fp; [reflexivity|reflexivity|contradiction].
  Qed.

  Theorem injectImgs_goes : exists p' names, injectImgs ord p imgs = Ok (p', names).
  Proof.
    destruct (page_crawl ord [11] os (root p) spath Fr (short_smooth p rid ts info T Top)) as (rsRes & E1 & St1).
    assert (F1 : exists rx embed, firstResources (ord [12] _ rsRes) = Ok (Some (rx, embed))).
    { apply first_goes.
      - intros k l v H V. apply fair_in in H; [|exact Fr]. apply in_get in H; [|apply (st_nodup _ _ _ _ _ St1)]. apply (st_sound _ _ _ _ _ St1) in H.
        destruct (sseen_is p rid ts info T Top k l H) as (X & n & K & ->). destruct (short_value k X n v K V) as (HL & ps & D & Vl & Nr). eapply value_said; eauto.
      - destruct Some_res as (L & HL & Nr). destruct (short_found rsRes L St1 HL) as (l & G). destruct (page_short rsRes L l St1 HL Nr G) as (v & V). exists L, l, v. split; [|exact V].
        apply fair_in; [exact Fr|]. apply get_in. exact G. }
    destruct F1 as (rx & embed & F1). destruct (first_page p rid ts info T Top ord [11] rsRes rx embed Fr E1 F1) as (L & HL & M).
    destruct (page_crawl ord [13] os (root p) kpath Fr (tidy_smooth _ _ _ _ T)) as (cw2 & E3 & St3). change kpath with [B"Kids"; B"Resources"; XO] in E3.
    unfold injectImgs. cbv zeta. rewrite E1. cbn [bind]. rewrite F1. cbn [bind].
    assert (C1 : exists cw1, crawl_checked os rx [XO] = Ok cw1 /\ (forall j, In j (map fst cw1) -> has_obj os j = true) /\ (embed = true -> xobjectVals cw1 = [])).
    { pose proof (second_goes L HL) as G. destruct (page_of _ _ _ _ T L HL) as (ps & (D & _) & _). apply dict_data in D. destruct D as (Ho & _).
      destruct (info L) as [|rps fp|r rps fp]; [destruct M| |]; destruct M as (-> & ->).
      - destruct G as (ps1 & -> & N). eexists. split; [reflexivity|]. split; [cbn [map fst]; intros j [<-|[]]; exact Ho|]. intros _. cbn [xobjectVals flat_map fst snd]. rewrite N. reflexivity.
      - destruct G as (X & -> & Hr). eexists. split; [reflexivity|]. split; [cbn [map fst]; intros j [<-|[]]; exact Hr|discriminate]. }
    destruct C1 as (cw1 & -> & H1 & Em1). cbn [bind].
    assert (H2 : forall j, In j (map fst cw2) -> has_obj os j = true).
    { intros j Hj. apply get_key in Hj. destruct Hj as (l & G). apply (st_sound _ _ _ _ _ St3) in G. eapply seen_there; [|exact G]. apply (tidy_smooth _ _ _ _ T). }
    assert (Fin : forall cw vals, (forall j, In j (map fst cw) -> has_obj os j = true) -> (embed = true -> vals = [] -> exists must, forall old new,
        exists must', (do cw01 <- crawl_checked os (root p) [B"Pages"; B"Kids"; B"Resources"]; imgReplacesEmbed (old ++ new) (ord [15] _ cw01)) = Ok must' /\ forall j, In j (map fst must') -> In j must /\ has_obj os j = true) ->
      exists p' names, (let '(old, ch, idx) := scanXobjs (ord [14] _ vals) [] (B"I") 0 in
        do must <- match vals with
                   | _ :: _ => Ok (imgReplacesFound (old ++ newXobjs imgs ch idx) cw)
                   | [] => if embed then do cw01 <- crawl_checked os (root p) [B"Pages"; B"Kids"; B"Resources"]; imgReplacesEmbed (old ++ newXobjs imgs ch idx) (ord [15] _ cw01)
                           else Ok (imgReplacesPlain (old ++ newXobjs imgs ch idx) cw)
                   end;
        do os' <- replaceAll dictwrap (ord [16] _ must) os;
        Ok (mkPdf (root p) os', map (fun x => (xo_char x, xo_index x)) (newXobjs imgs ch idx))) = Ok (p', names)).
    { intros cw vals Hc He. destruct (scanXobjs (ord [14] _ vals) [] (B"I") 0) as [[old ch] idx].
      assert (Ms : exists must, match vals with
                   | _ :: _ => Ok (imgReplacesFound (old ++ newXobjs imgs ch idx) cw)
                   | [] => if embed then do cw01 <- crawl_checked os (root p) [B"Pages"; B"Kids"; B"Resources"]; imgReplacesEmbed (old ++ newXobjs imgs ch idx) (ord [15] _ cw01)
                           else Ok (imgReplacesPlain (old ++ newXobjs imgs ch idx) cw)
                   end = Ok must /\ forall j, In j (map fst must) -> has_obj os j = true).
      { destruct vals as [|v0 vals].
        - destruct embed.
          + destruct (He eq_refl eq_refl) as (m0 & He'). destruct (He' old (newXobjs imgs ch idx)) as (must & -> & Hm). exists must. split; [reflexivity|]. intros j Hj. apply Hm. exact Hj.
          + eexists. split; [reflexivity|]. rewrite plain_keys. exact Hc.
        - eexists. split; [reflexivity|]. intros j Hj. apply found_keys in Hj. auto. }
      destruct Ms as (must & -> & Hm). cbn [bind].
      destruct (replaceAll_goes dictwrap (ord [16] _ must) os) as (os' & ->); [apply (td_unique _ _ _ _ T)| |cbn [bind]; eauto].
      intros j Hj. apply Hm. apply in_map_iff in Hj. destruct Hj as (x & <- & Hj). apply fair_in in Hj; [|exact Fr]. apply in_map. exact Hj. }
    assert (Emb : embed = true -> xobjectVals cw2 = [] -> exists must, forall old new,
        exists must', (do cw01 <- crawl_checked os (root p) [B"Pages"; B"Kids"; B"Resources"]; imgReplacesEmbed (old ++ new) (ord [15] _ cw01)) = Ok must' /\ forall j, In j (map fst must') -> In j must /\ has_obj os j = true).
    { intros Ee Ev. destruct Shape as [(L2 & rps & xps & HL2 & EL2)|[No|Sh]].
      - exfalso. destruct (leaf_found _ _ _ _ T cw2 St3 L2 L2 HL2 (x_head info L2)) as (l & G). pose proof (leaf_val p rid ts info T cw2 St3 L2 l HL2 G) as Vl. rewrite EL2 in Vl.
        destruct (page_of _ _ _ _ T L2 HL2) as (ps & (_ & P2) & _). rewrite EL2 in P2. destruct P2 as (v' & _ & _ & _ & (xv & Al & Tx & Rx)).
        pose proof (alike_value _ _ _ Al) as Vx. apply value_get in Vx. rewrite Vx in Vl. cbn [option_map pval] in Vl.
        assert (In (L2, xv) (xobjectVals cw2)) by (apply vals_in; exists l; split; [apply get_in; exact G|exact Vl]). rewrite Ev in *. contradiction.
      - exfalso. specialize (No L). destruct (info L) as [|rps fp|r rps fp]; [destruct M|exact (No rps fp HL eq_refl)|]. destruct M as (_ & M). congruence.
      - destruct (short_smooth p rid ts info T Top) as (S0 & _). destruct (crawl_walk os (root p) _ S0) as (cw01 & Ec & Nc & Gc).
        exists (map fst cw01). intros old new. unfold crawl_checked. rewrite Ec. cbn [bind].
        destruct (embed_goes (old ++ new) (ord [15] _ cw01)) as (must & -> & Sub).
        { intros k l v H V. apply fair_in in H; [|exact Fr]. apply in_get in H; [|exact Nc]. rewrite Gc in H. destruct (vis k (crawl_from os (root p) (B"Pages" :: spath))) eqn:Vs; [|discriminate].
          destruct (scollected p rid ts info T Top _ k (or_introl eq_refl) Vs) as (X & n & K & El). assert (El2 : l = collect os k (crawl_from os (root p) (B"Pages" :: spath))) by congruence. rewrite El in El2. subst l.
          destruct (short_value k X n v K V) as (HLk & ps & D & Vl & Nr). eapply Sh; eauto. }
        exists must. split; [reflexivity|]. intros j Hj. apply Sub in Hj. apply in_map_iff in Hj. destruct Hj as ((j' & l) & E0 & Hj). cbn [fst] in E0. subst j'. apply fair_in in Hj; [|exact Fr].
        split; [apply (in_map fst) in Hj; exact Hj|]. apply in_get in Hj; [|exact Nc]. rewrite Gc in Hj. destruct (vis j (crawl_from os (root p) (B"Pages" :: spath))) eqn:Vs; [|discriminate].
        eapply crawl_there; [exact S0|exact Vs]. }
    destruct (xobjectVals cw1) as [|v0 vl] eqn:Ev1.
    - rewrite E3. cbn [bind]. apply Fin; [exact H2|exact Emb].
    - assert (Ne : embed = true -> v0 :: vl = [] -> exists must, forall old new,
        exists must', (do cw01 <- crawl_checked os (root p) [B"Pages"; B"Kids"; B"Resources"]; imgReplacesEmbed (old ++ new) (ord [15] _ cw01)) = Ok must' /\ forall j, In j (map fst must') -> In j must /\ has_obj os j = true) by discriminate.
      exact (Fin cw1 (v0 :: vl) H1 Ne).
  Qed.
End Goes.
