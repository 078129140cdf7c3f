(** The font dictionaries of a tidy document after the fonts are added. *)
From Coq Require Import String List ZArith Lia Bool Permutation.
From Verif Require Import Base BaseProofs Output Props PropsSpec PdfData PagesSpec PagesProofs PagesEdit
  Crawl Inject CrawlProofs CrawlVisits PageCrawl InjectMaps InjectNames InjectItems InjectTexts InjectSpec InjectMarks InjectVisits InjectPages.
Open Scope Z_scope.
Open Scope list_scope.

Lemma get_app : forall k a b, getPropByKey k (a ++ b) = match getPropByKey k a with Some q => Some q | None => getPropByKey k b end.
Proof. intros k. induction a as [|p a IH]; intros b; [reflexivity|]. cbn [app getPropByKey]. destruct (beqb (pkey p) k); auto. Qed.

Lemma valOf_copies : forall k ps n, valOf k (concat (repeat (strs ps) (S n))) = option_map pval (getPropByKey k ps).
Proof.
  intros k ps n. assert (E : forall n, concat (repeat (strs ps) n) = strs (concat (repeat ps n))).
  { induction n0 as [|m IH]; [reflexivity|]. cbn [repeat concat]. rewrite IH. unfold strs. now rewrite map_app. }
  rewrite E, valOf_strs. f_equal. induction n as [|n IH]; cbn [repeat concat] in *; [now rewrite app_nil_r|].
  rewrite get_app. destruct (getPropByKey k ps) eqn:G; [reflexivity|]. exact IH.
Qed.

Lemma copies_nil : forall A n, concat (repeat (@nil A) n) = [].
Proof. intros A. induction n as [|n IH]; [reflexivity|]. exact IH. Qed.

Lemma copies_yes : forall l n, is_inner l = true -> is_inner (concat (repeat l (S n))) = true.
Proof.
  intros l n H. unfold is_inner in *. apply andb_true_iff in H. destruct H as (H1 & H2). cbn [repeat concat]. rewrite items_app.
  assert (A : forall m x y, contains m x = true -> contains m (x ++ y) = true).
  { intros m x y H. apply contains_true in H. destruct H as (i & O'). apply contains_true. exists i. apply occ_app_l. auto. }
  rewrite !A by auto. reflexivity.
Qed.

Section Tidy.
  Context {ky : bytes}.
  Notation RF := (@RF ky).
  Notation kpath := (@kpath ky).
  Notation pv := (@pv ky).
  Variable p : pdf.
  Variable rid : Z.
  Variable ts : list tree.
  Variable info : Z -> res_place.
  Hypothesis T : tidy ky p rid ts info.
  Let os := objs p.
  Let ids := flat_map leaves ts.
  Notation lv := (@InjectPages.lv ky).
  Notation tv := (@InjectPages.tv ky).
  Notation isNode := (isNode p rid ts).
  Notation isLeaf := (isLeaf ts).
  Notation inR := (inR ts info).
  Notation inF := (inF ts info).
  Notation crawl0 := (@InjectPages.crawl0 ky p rid ts info).
  Notation crawlK := (@InjectPages.crawlK ky info).
  Notation crawls := (@InjectPages.crawls ky p rid ts info).
  Notation content := (@InjectPages.content ky p rid ts info).

  Lemma lv_tree : forall L i, isLeaf L -> vis i (lv info L) = true -> i = L \/ inR i \/ inF i.
  Proof.
    intros L i HL H. unfold lv in H. cbn [vis existsb fst] in H. apply orb_true_iff in H. destruct H as [H|H].
    - left. apply Z.eqb_eq in H. auto.
    - right. eapply pv_kind; eauto.
  Qed.
  Lemma tail_tree : forall i, vis i (flat_map (tv info) ts) = true -> In i (flat_map tree_ids ts) \/ inR i \/ inF i.
  Proof.
    intros i H. apply vis_in in H. apply in_map_iff in H. destruct H as ((i' & q) & E & H). cbn [fst] in E. subst i'.
    apply in_flat_map in H. destruct H as (t & Ht & H). destruct t as [L|k kids]; cbn [tv] in H.
    - assert (HL : isLeaf L) by (apply in_flat_map; exists (Leaf L); split; [auto|left; auto]).
      destruct (lv_tree L i HL) as [->|K]; [apply vis_in; apply (in_map fst) in H; exact H| |auto]. left. eapply leaf_in; eauto.
    - destruct H as [E|[]]. inversion E; subst. left. apply in_flat_map. eexists; split; [exact Ht|left; auto].
  Qed.

  Lemma crawls_acyc : forall C, crawls C -> acyc os C.
  Proof.
    intros C HC i q H. pose proof (crawl_visit _ _ _ _ C i q HC H) as V. destruct (kinds _ _ _ _ T) as (N & Nr & R1 & R2).
    assert (Out : forall V0, ~ vis i V0 = true -> vis i V0 = false) by (intros V0 X; destruct (vis i V0); congruence).
    apply Out. clear Out. intros Vi. destruct V as [| |k kids Hk|k kids Hk|L HL|L r rps fp HL E|f Hf].
    - destruct (root_step _ _ _ _ T) as (ps & _ & _ & _ & _ & _ & E & _). unfold crawl_from, InjectPages.crawl0 in E.
      apply (f_equal (@tl _)) in E. cbn [tl] in E. fold os in E. rewrite E in Vi. cbn [vis existsb fst] in Vi. apply orb_true_iff in Vi. destruct Vi as [Vi|Vi].
      + apply Z.eqb_eq in Vi. auto.
      + destruct (tail_tree _ Vi) as [X|[X|X]]; [auto|eapply R_tree; eauto; left; auto|eapply F_tree; eauto; left; auto].
    - destruct (rid_step _ _ _ _ T) as (ps & _ & _ & _ & _ & _ & E & _). fold os in E. rewrite E in Vi.
      destruct (tail_tree _ Vi) as [X|[X|X]]; [auto|eapply R_tree; eauto; right; left; auto|eapply F_tree; eauto; right; left; auto].
    - destruct (node_step _ _ _ _ T k kids Hk) as (ps & v & _ & _ & _ & _ & _ & E & _). fold os in E. rewrite E in Vi. discriminate.
    - assert (Kn : isNode k) by (right; right; eauto).
      destruct (tree_cases _ _ _ _ T _ Hk) as [(j & E)|(j & l & E)]; [discriminate|]. inversion E; subst j kids.
      destruct (crawlK_is _ _ _ _ T k l Hk) as (Ec & _). unfold crawl_from, InjectPages.crawlK in Ec. apply (f_equal (@tl _)) in Ec. cbn [tl] in Ec.
      fold os in Ec. rewrite Ec in Vi. apply vis_in in Vi. apply in_map_iff in Vi. destruct Vi as ((i' & q) & E' & Hv). cbn [fst] in E'. subst i'.
      apply in_flat_map in Hv. destruct Hv as (L & HL & Hv). assert (HL' : isLeaf L) by (eapply leaves_sub; eauto).
      destruct (lv_tree L k HL') as [->|[X|X]].
      + apply vis_in. apply (in_map fst) in Hv. exact Hv.
      + eapply node_leaf; eauto.
      + eapply R_tree; eauto. apply node_in. auto.
      + eapply F_tree; eauto. apply node_in. auto.
    - destruct (leaf_step _ _ _ _ T L HL) as (E & _). unfold lv in E. apply (f_equal (@tl _)) in E. cbn [tl] in E. fold os in E. rewrite E in Vi.
      rewrite (pv_tree _ _ _ _ T L L HL) in Vi; [discriminate|]. apply (leaf_in' _ _ _ _ T). auto.
    - destruct (res_of _ _ _ _ T L r rps fp HL E) as (_ & R & F & X & _). destruct (font_all _ _ _ _ R F) as (Ev & _). fold os in Ev. rewrite Ev in Vi.
      destruct fp as [|fps|f fps]; cbn [fv] in Vi; try discriminate. cbn [vis existsb fst] in Vi. rewrite orb_false_r in Vi. apply Z.eqb_eq in Vi. subst f.
      eapply R_F; eauto. exists L. split; [auto|]. rewrite E. left. auto.
    - discriminate.
  Qed.

  (** ** Inner nodes and others *)
  Lemma in_crawl : forall C i, vis i C = true -> exists q, In (i, q) C.
  Proof. intros C i H. apply vis_in in H. apply in_map_iff in H. destruct H as ((i' & q) & E & H). cbn in E. subst. eauto. Qed.

  Lemma collected : forall C i, crawls C -> vis i C = true ->
    exists X n, content i X /\ cnt i C = S n /\ collect os i C = concat (repeat X (S n)).
  Proof.
    intros C i HC H. destruct (in_crawl _ _ H) as (q & Hq). destruct (cnt_some _ _ H) as (n & En).
    exists (img q (data_of os i)), n. assert (K : content i (img q (data_of os i))) by (apply visit_content; [exact T|]; eapply crawl_visit; eauto).
    split; [auto|]. split; [auto|]. rewrite <- En. apply (crawl_content _ _ _ _ T); auto.
  Qed.

  Lemma leaf_not_inner : forall L, isLeaf L -> is_inner (img RF (data_of os L)) = false.
  Proof.
    intros L HL. destruct (page_of _ _ _ _ T L HL) as (ps & P & _ & M & Mr). destruct (page_all _ _ _ _ P) as (_ & _ & _ & E). fold os in E.
    destruct (info L) as [|rps fp|r rps fp]; [rewrite E; apply (inner_no (B"/Pages")); auto| |rewrite E; apply (inner_no (B"/Pages")); auto].
    destruct E as (a & v & b & Ep & _ & E). rewrite E. apply page_no; auto.
    - subst ps. apply (proj1 (quiet_iff _ _)) in M. apply (proj2 (quiet_iff _ _)). apply text_clear; [apply solid_pages|]. apply text_clear in M; [|apply solid_pages].
      apply Forall_app in M. destruct M as (M1 & M2). inversion M2; subst. apply Forall_app. auto.
    - apply contains_false. reflexivity.
  Qed.

  Lemma inner_node : forall C i X n, crawls C -> content i X -> cnt i C = S n -> is_inner (concat (repeat X (S n))) = true ->
    exists kids, In (Node i kids) ts.
  Proof.
    intros C i X n HC K En H. destruct K as [i ps Hn R _|L HL|L r rps fp HL E|f Hf].
    - destruct Hn as [->|[->|Hn]]; [exfalso|exfalso|auto].
      + destruct (root_step _ _ _ _ T) as (ps' & R' & _ & _ & M & _). unfold os in R. rewrite R in R'. inversion R'; subst ps'.
        rewrite (copies_no (B"/Parent") ps (S n)) in H; auto. discriminate.
      + destruct (rid_step _ _ _ _ T) as (ps' & R' & _ & _ & M & _). unfold os in R. rewrite R in R'. inversion R'; subst ps'.
        rewrite (copies_no (B"/Parent") ps (S n)) in H; auto. discriminate.
    - exfalso. pose proof (page_once _ _ _ _ T C L HC HL) as Le. assert (n = 0%nat) by lia. subst n. cbn [repeat concat] in H. rewrite app_nil_r in H.
      change (data_of (objs p) L) with (data_of os L) in H. rewrite leaf_not_inner in H by auto. discriminate.
    - exfalso. destruct (res_of _ _ _ _ T _ _ _ _ HL E) as (_ & _ & _ & _ & M). rewrite (copies_no (B"/Pages") rps (S n)) in H; auto. discriminate.
    - exfalso. rewrite copies_nil in H. discriminate.
  Qed.

  Lemma crawl_root : crawl_from os (root p) (B"Pages" :: kpath) = crawl0.
  Proof. destruct (root_step _ _ _ _ T) as (ps & _ & _ & _ & _ & _ & E & _). exact E. Qed.
  Lemma crawls0 : crawls crawl0.
  Proof. left. reflexivity. Qed.

  Lemma seen_is : forall i l, seen os (root p) kpath i l -> exists C X n, crawls C /\ vis i C = true /\ content i X /\ cnt i C = S n /\ l = concat (repeat X (S n)).
  Proof.
    intros i l H. destruct H as [i H|k l0 i Hk Sk Ik Hi].
    - rewrite crawl_root in *. destruct (collected _ _ crawls0 H) as (X & n & K & En & E). exists crawl0, X, n.
      repeat (split; [solve [auto using crawls0]|]). exact E.
    - assert (Hn : exists kids, In (Node k kids) ts).
      { clear i Hi. revert Ik. induction Sk as [k H|k' l1 k Hk' Sk' IH Ik' Hk1]; intros Ik.
        - rewrite crawl_root in *. destruct (collected _ _ crawls0 H) as (X & n & K & En & E). rewrite E in Ik. eapply inner_node; eauto using crawls0.
        - destruct (IH Hk' Ik') as (kids & Hn). destruct (tree_cases _ _ _ _ T _ Hn) as [(j & E)|(j & l & E)]; [discriminate|]. inversion E; subst j kids.
          destruct (crawlK_is _ _ _ _ T k' l Hn) as (Ec & _). fold os in Ec. rewrite Ec in *.
          assert (HC : crawls (crawlK k' l)) by (right; eauto).
          destruct (collected _ _ HC Hk1) as (X & n & K & En & E'). rewrite E' in Ik. eapply (inner_node (crawlK k' l)); eauto. }
      destruct Hn as (kids & Hn). destruct (tree_cases _ _ _ _ T _ Hn) as [(j & E)|(j & l & E)]; [discriminate|]. inversion E; subst j kids.
      destruct (crawlK_is _ _ _ _ T k l Hn) as (Ec & _). fold os in Ec. rewrite Ec in *. assert (HC : crawls (crawlK k l)) by (right; eauto).
      destruct (collected _ _ HC Hi) as (X & n & K & En & E'). exists (crawlK k l), X, n. repeat (split; [solve [auto]|]). exact E'.
  Qed.

  Lemma tidy_smooth : all_smooth os (root p) kpath.
  Proof.
    destruct (root_step _ _ _ _ T) as (ps & _ & Ho & _ & _ & _ & E & W). split.
    - split; [exact Ho|]. split; [exact W|]. rewrite crawl_root. apply crawls_acyc. apply crawls0.
    - intros k l _ Sk Ik. destruct (seen_is k l Sk) as (C & X & n & HC & _ & K & En & ->). destruct (inner_node _ _ _ _ HC K En Ik) as (kids & Hn).
      destruct (tree_cases _ _ _ _ T _ Hn) as [(j & E')|(j & l & E')]; [discriminate|]. inversion E'; subst j kids.
      destruct (crawlK_is _ _ _ _ T k l Hn) as (Ec & Wk & Hk). split; [exact Hk|]. split; [exact Wk|]. fold os in Ec. rewrite Ec. apply crawls_acyc. right. eauto.
  Qed.

  (** ** Which objects are collected *)
  Lemma node_inner : forall k kids, In (Node k kids) ts -> forall l, seen os (root p) kpath k l -> is_inner l = true.
  Proof.
    intros k kids H l Sk. destruct (seen_is k l Sk) as (C & X & n & HC & _ & K & En & ->). apply copies_yes.
    destruct (node_step _ _ _ _ T k kids H) as (ps & v & R & _ & _ & _ & _ & _ & _ & _ & _ & Ii & F & _).
    assert (K' : content k (strs ps)) by (apply co_node; auto; right; right; eauto).
    rewrite (content_fun _ _ _ _ T _ _ _ K K'). exact Ii.
  Qed.

  Variable rs : results.
  Hypothesis St : stage os (root p) kpath (map fst (crawl_from os (root p) (B"Pages" :: kpath))) rs.

  Lemma leaf_found : forall L i, isLeaf L -> vis i (lv info L) = true -> exists l, map_get rs i = Some l.
  Proof.
    intros L i HL Hi. apply get_key. apply in_flat_map in HL. destruct HL as (t & Ht & HL).
    destruct (tree_cases _ _ _ _ T _ Ht) as [(j & ->)|(k & l & ->)].
    - destruct HL as [<-|[]]. apply (st_first _ _ _ _ _ St). rewrite crawl_root. unfold InjectPages.crawl0. cbn [vis existsb].
      apply orb_true_iff. right. apply orb_true_iff. right. apply vis_in. apply vis_in in Hi. rewrite in_map_iff in *. destruct Hi as (v & E & Hv).
      exists v. split; [auto|]. apply in_flat_map. exists (Leaf j). auto.
    - cbn [leaves] in HL. rewrite leaf_leaves in HL. apply (st_done _ _ _ _ _ St k).
      + rewrite crawl_root. unfold InjectPages.crawl0. cbn [map fst]. right. right. apply in_map_iff. exists (k, RF). split; [auto|]. apply in_flat_map. eexists; split; [exact Ht|]. left. auto.
      + intros l' H'. eapply node_inner; eauto.
      + destruct (crawlK_is _ _ _ _ T k l Ht) as (Ec & _). fold os in Ec. rewrite Ec. unfold InjectPages.crawlK. cbn [vis existsb].
        apply orb_true_iff. right. apply vis_in. apply vis_in in Hi. rewrite in_map_iff in *. destruct Hi as (v & E & Hv).
        exists v. split; [auto|]. apply in_flat_map. eauto.
  Qed.

  Lemma leaf_items : forall L l, isLeaf L -> map_get rs L = Some l -> l = img RF (data_of os L).
  Proof.
    intros L l HL G. apply (st_sound _ _ _ _ _ St) in G. destruct (seen_is _ _ G) as (C & X & n & HC & _ & K & En & ->).
    pose proof (page_once _ _ _ _ T C L HC HL) as Le. assert (n = 0%nat) by lia. subst n. cbn [repeat concat]. rewrite app_nil_r.
    eapply (content_fun _ _ _ _ T); [exact K|]. apply co_leaf. auto.
  Qed.
  Lemma res_items : forall L r rps fp l, isLeaf L -> info L = ResAt r rps fp -> map_get rs r = Some l ->
    exists n, l = concat (repeat (strs rps) (S n)) /\
      ((forall L', In L' ids -> In r (res_objects (info L')) -> L' = L) -> n = 0%nat).
  Proof.
    intros L r rps fp l HL E G. apply (st_sound _ _ _ _ _ St) in G. destruct (seen_is _ _ G) as (C & X & n & HC & _ & K & En & ->).
    exists n. split.
    - f_equal. f_equal. eapply (content_fun _ _ _ _ T); [exact K|]. eapply co_res; eauto.
    - intros Al. pose proof (res_once _ _ _ _ T C L r rps fp HC HL E Al). lia.
  Qed.

End Tidy.

Section Fonts.
  Variable p : pdf.
  Variable rid : Z.
  Variable ts : list tree.
  Variable info : Z -> res_place.
  Notation ky := (B"Font").
  Hypothesis T : tidy ky p rid ts info.
  Let os := objs p.
  Let ids := flat_map leaves ts.
  Notation RF := (@RF ky).
  Notation isLeaf := (isLeaf ts).
  Notation inR := (inR ts info).
  Notation inF := (inF ts info).
  Variable rs : results.
  Hypothesis St : stage os (root p) fontPath (map fst (crawl_from os (root p) (B"Pages" :: fontPath))) rs.

  (** ** The fonts found *)
  Definition fd (fp : font_place) : res fontdict :=
    match fp with
    | NoFont => Ok FAbsent
    | FontIn fps => do fs <- cfonts_of fps; Ok (FInline fs)
    | FontAt f fps => do fs <- cfonts_of fps; Ok (FObject f fs)
    end.
  Lemma fd_is : forall rps fp l, font_is ky os rps fp -> valOf (B"Font") l = option_map pval (getPropByKey (B"Font") rps) -> font_dict os l = fd fp.
  Proof.
    intros rps fp l F E. unfold font_dict. rewrite E. destruct fp as [|fps|f fps]; cbn [font_is fd] in *.
    - apply key_none in F. rewrite F. reflexivity.
    - destruct F as (v & O' & Ty & R). apply alike_value, value_get in O'. rewrite O'. cbn [option_map pval]. rewrite Ty. unfold cfonts_parse. rewrite R. reflexivity.
    - destruct F as (v & O' & I' & D). apply once_value, value_get in O'. rewrite O'. cbn [option_map pval]. rewrite (type_ref _ _ I'), I'. cbn [bind].
      apply dict_data in D. destruct D as (Ho & R). unfold has_obj, data_of in *. destruct (getObj f os) as [o| | |]; try discriminate. cbn [bind].
      unfold cfonts_parse. rewrite R. reflexivity.
  Qed.
  Lemma leaf_fd : forall L l, isLeaf L -> map_get rs L = Some l ->
    font_dict os l = match info L with ResIn rps fp => fd fp | _ => Ok FAbsent end.
  Proof.
    intros L l HL G. rewrite (leaf_items _ _ _ _ T rs St L l HL G). fold os. destruct (page_of _ _ _ _ T L HL) as (ps & P & NF & _). pose proof P as (_ & P2).
    destruct (page_all _ _ _ _ P) as (_ & _ & _ & E). fold os in E. apply key_none in NF.
    assert (Ab : img RF (data_of os L) = strs ps -> font_dict os (img RF (data_of os L)) = Ok FAbsent).
    { intros E'. rewrite E'. unfold font_dict. rewrite valOf_strs, NF. reflexivity. }
    destruct (info L) as [|rps fp|r rps fp]; auto.
    destruct E as (a & v & b & Ep & _ & E). rewrite E. destruct P2 as (v' & _ & _ & _ & F). apply (fd_is rps); [exact F|].
    subst ps. rewrite get_app in NF. rewrite valOf_skip, valOf_cr, valOf_strs; [reflexivity|]. destruct (getPropByKey (B"Font") a); congruence.
  Qed.
  Lemma res_fd : forall L r rps fp l, isLeaf L -> info L = ResAt r rps fp -> map_get rs r = Some l -> font_dict os l = fd fp.
  Proof.
    intros L r rps fp l HL E G. destruct (res_items _ _ _ _ T rs St L r rps fp l HL E G) as (n & -> & _). destruct (res_of _ _ _ _ T _ _ _ _ HL E) as (_ & _ & F & _).
    apply (fd_is rps); [exact F|]. apply valOf_copies.
  Qed.

  (** Who writes to whom. *)
  Lemma found_cases : forall k l d, map_get rs k = Some l -> font_dict os l = Ok d -> d <> FAbsent ->
    (exists rps fp, isLeaf k /\ info k = ResIn rps fp /\ fd fp = Ok d) \/
    (exists L rps fp, isLeaf L /\ info L = ResAt k rps fp /\ fd fp = Ok d).
  Proof.
    intros k l d G D Nd. pose proof (st_sound _ _ _ _ _ St _ _ G) as Sk. destruct (seen_is _ _ _ _ T _ _ Sk) as (C & X & n & HC & _ & K & En & E).
    destruct K as [k ps Hn R NF|L HL|L r rps fp HL Ei|f Hf].
    - exfalso. apply Nd. subst l. unfold font_dict in D. apply key_none in NF. rewrite valOf_copies, NF in D. cbn in D. congruence.
    - left. rewrite (leaf_fd L l HL G) in D. destruct (info L) as [|rps fp|r rps fp]; [congruence| |congruence]. exists rps, fp. auto.
    - right. exists L, rps, fp. split; [auto|]. split; [auto|]. rewrite <- D. symmetry. eapply res_fd; eauto.
    - exfalso. apply Nd. subst l. rewrite copies_nil in D. cbn in D. congruence.
  Qed.

  Lemma fd_object : forall rps fp f fs, font_is ky os rps fp -> fd fp = Ok (FObject f fs) -> exists fps, fp = FontAt f fps /\ cfonts_of fps = Ok fs.
  Proof.
    intros rps fp f fs F H. destruct fp as [|fps|f' fps]; cbn [fd] in H; [discriminate| |]; destruct (cfonts_of fps) eqn:E; cbn [bind] in H; try discriminate.
    inversion H; subst. eauto.
  Qed.
  Lemma fd_inline : forall fp fs, fd fp = Ok (FInline fs) -> exists fps, fp = FontIn fps /\ cfonts_of fps = Ok fs.
  Proof.
    intros fp fs H. destruct fp as [|fps|f' fps]; cbn [fd] in H; [discriminate| |]; destruct (cfonts_of fps) eqn:E; cbn [bind] in H; try discriminate.
    inversion H; subst. eauto.
  Qed.

  Lemma font_here : forall L f, isLeaf L -> In f (font_objects (info L)) -> exists fps, readProperties (data_of os f) = Ok fps /\ has_obj os f = true.
  Proof.
    intros L f HL H. destruct (page_of _ _ _ _ T L HL) as (ps & (_ & P) & _).
    destruct (info L) as [|rps fp|r rps fp]; [destruct H| |].
    - destruct fp as [|fps|f' fps]; try contradiction. destruct H as [->|[]]. destruct P as (v & _ & _ & _ & (w & _ & _ & D)). apply dict_data in D. destruct D. eauto.
    - destruct fp as [|fps|f' fps]; try contradiction. destruct H as [->|[]]. destruct P as (v & _ & _ & _ & (w & _ & _ & D)). apply dict_data in D. destruct D. eauto.
  Qed.

  Variable new : list cfont.

  (** An object a font dictionary is kept in. *)
  Lemma writes_object : forall k l f fs, map_get rs k = Some l -> font_dict os l = Ok (FObject f fs) ->
    inF f /\ exists fps, readProperties (data_of os f) = Ok fps /\ cfonts_of fps = Ok fs.
  Proof.
    intros k l f fs G D. destruct (found_cases k l _ G D) as [(rps & fp & HL & E & Ef)|(L & rps & fp & HL & E & Ef)]; [discriminate| |].
    - destruct (page_of _ _ _ _ T k HL) as (ps & (_ & P) & _). rewrite E in P. destruct P as (v & _ & _ & _ & F).
      destruct (fd_object rps fp f fs F Ef) as (fps & -> & C). split; [exists k; split; [auto|]; rewrite E; left; auto|].
      destruct F as (w & _ & _ & Dd). apply dict_data in Dd. destruct Dd. eauto.
    - destruct (res_of _ _ _ _ T _ _ _ _ HL E) as (_ & _ & F & _). destruct (fd_object rps fp f fs F Ef) as (fps & -> & C).
      split; [exists L; split; [auto|]; rewrite E; left; auto|]. destruct F as (w & _ & _ & Dd). apply dict_data in Dd. destruct Dd. eauto.
  Qed.

  Lemma writes_leaf : forall k l L s, isLeaf L -> map_get rs k = Some l -> writes os new k l L s ->
    k = L /\ exists rps fps fs, info L = ResIn rps (FontIn fps) /\ cfonts_of fps = Ok fs /\ s = inline_text new fs l.
  Proof.
    intros k l L s HL G [(fs & D & -> & ->)|(fs & D & _)].
    - split; [auto|]. rewrite (leaf_fd k l HL G) in D. destruct (info k) as [|rps fp|r rps fp]; try discriminate.
      destruct (fd_inline _ _ D) as (fps & -> & C). eauto 6.
    - exfalso. destruct (writes_object _ _ _ _ G D) as (X & _). eapply (F_tree _ _ _ _ T); eauto. apply (leaf_in' _ _ _ _ T). auto.
  Qed.
  Lemma writes_res : forall k l L r rps fp s, isLeaf L -> info L = ResAt r rps fp -> map_get rs k = Some l -> writes os new k l r s ->
    k = r /\ exists fps fs, fp = FontIn fps /\ cfonts_of fps = Ok fs /\ s = inline_text new fs l.
  Proof.
    intros k l L r rps fp s HL E G [(fs & D & -> & ->)|(fs & D & _)].
    - split; [auto|]. rewrite (res_fd L k rps fp l HL E G) in D. destruct (fd_inline _ _ D) as (fps & -> & C). eauto.
    - exfalso. destruct (writes_object _ _ _ _ G D) as (X & _). eapply (R_F _ _ _ _ T); eauto. eapply res_in; eauto.
  Qed.
  Lemma writes_font : forall k l f s, inF f -> map_get rs k = Some l -> writes os new k l f s ->
    exists fps fs, readProperties (data_of os f) = Ok fps /\ cfonts_of fps = Ok fs /\ s = cfonts_text (fs ++ new).
  Proof.
    intros k l f s X G [(fs & D & -> & ->)|(fs & D & ->)].
    - exfalso. destruct (found_cases k l _ G D) as [(rps & fp & HL & E & Ef)|(L & rps & fp & HL & E & Ef)]; [discriminate| |].
      + eapply (F_tree _ _ _ _ T); eauto. apply (leaf_in' _ _ _ _ T). auto.
      + eapply (R_F _ _ _ _ T); eauto. eapply res_in; eauto.
    - destruct (writes_object _ _ _ _ G D) as (_ & fps & R & C). eauto.
  Qed.
End Fonts.
