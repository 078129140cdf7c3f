(** The crawls that injectImgsToPDF does before it looks at image dictionaries. *)
From Coq Require Import String List ZArith Lia Bool Permutation.
From Verif Require Import Base BaseProofs Output Props PropsSpec PdfData PagesSpec PagesProofs PagesEdit
  Crawl Inject CrawlProofs CrawlVisits PageCrawl InjectMaps InjectNames InjectItems InjectTexts InjectSpec InjectMarks InjectVisits InjectPages InjectTidy
  InjectFonts InjectFinal ImgNames ImgSpec.
Open Scope Z_scope.
Open Scope list_scope.

(** ** A shorter path *)
Lemma visits_prefix : forall os q2 q1 data i q, In (i, q) (visits os q1 data) -> In (i, q ++ q2) (visits os (q1 ++ q2) data).
Proof.
  intros os q2. induction q1 as [|key q1 IH]; intros data i q H; [destruct H|]. cbn [app visits] in *.
  destruct (readProperties data) as [ps| | |]; try contradiction.
  apply in_flat_map in H. destruct H as (pr & Hp & H). apply in_flat_map. exists pr. split; [auto|].
  destruct (negb (beqb (pkey pr) key)); [auto|]. destruct (propertyType (pval pr)).
  - destruct q1 as [|k q1]; [destruct H|]. cbn [app] in *. apply IH. exact H.
  - destruct (readObjIDs (pval pr)) as [ids| | |]; try contradiction. apply in_flat_map in H. destruct H as (id & Hid & H). apply in_flat_map. exists id. split; [auto|].
    destruct H as [E|H]; [inversion E; subst; left; reflexivity|right; auto].
  - destruct H.
  - destruct (readObjID (pval pr)) as [id| | |]; try contradiction. destruct H as [E|H]; [inversion E; subst; left; reflexivity|right; auto].
Qed.
Lemma walk_prefix : forall os q2 q1 data, walk os (q1 ++ q2) data = true -> walk os q1 data = true.
Proof.
  intros os q2. induction q1 as [|key q1 IH]; intros data H; [reflexivity|]. cbn [app walk] in *.
  destruct (readProperties data) as [ps| | |]; try discriminate. apply forallb_forall. intros pr Hp. rewrite forallb_forall in H. specialize (H pr Hp).
  destruct (negb (beqb (pkey pr) key)); [auto|]. destruct (propertyType (pval pr)).
  - destruct q1 as [|k q1]; [reflexivity|]. cbn [app] in *. apply IH. exact H.
  - destruct (readObjIDs (pval pr)) as [ids| | |]; try discriminate. apply forallb_forall. intros id Hid. rewrite forallb_forall in H. specialize (H id Hid).
    apply andb_true_iff in H. destruct H as (H1 & H2). rewrite H1. cbn [andb]. auto.
  - reflexivity.
  - destruct (readObjID (pval pr)) as [id| | |]; try discriminate. apply andb_true_iff in H. destruct H as (H1 & H2). rewrite H1. cbn [andb]. auto.
Qed.
Lemma crawl_prefix : forall os q2 id q1 i q, In (i, q) (crawl_from os id q1) -> In (i, q ++ q2) (crawl_from os id (q1 ++ q2)).
Proof. intros os q2 id q1 i q [E|H]; [inversion E; subst; left; reflexivity|right; apply visits_prefix; auto]. Qed.
Lemma smooth_prefix : forall os q2 id q1, smooth os id (q1 ++ q2) -> smooth os id q1.
Proof.
  intros os q2 id q1 (H & W & A). split; [auto|]. split; [eapply walk_prefix; eauto|]. intros i q Hi.
  apply (crawl_prefix os q2) in Hi. specialize (A i _ Hi). destruct (vis i (visits os q (data_of os i))) eqn:E; [|reflexivity].
  apply vis_in in E. apply in_map_iff in E. destruct E as ((j & q') & Ej & E). cbn [fst] in Ej. subst j. apply (visits_prefix os q2) in E.
  assert (X : vis i (visits os (q ++ q2) (data_of os i)) = true) by (apply vis_in; apply (in_map fst) in E; exact E). congruence.
Qed.

(** ** A crawl from one object *)
Lemma single_map : forall A (m : list (Z * A)) r X, NoDup (map fst m) -> (forall k, map_get m k = if k =? r then Some X else None) -> m = [(r, X)].
Proof.
  intros A m r X N G. destruct m as [|[k v] m].
  - specialize (G r). rewrite Z.eqb_refl in G. discriminate.
  - pose proof (G k) as Gk. cbn [map_get] in Gk. rewrite Z.eqb_refl in Gk. destruct (Z.eqb_spec k r) as [->|]; [|discriminate]. inversion Gk; subst v.
    destruct m as [|[k' v'] m]; [reflexivity|]. exfalso. cbn [map fst] in N. inversion N as [|? ? N1 _]; subst. specialize (G k'). cbn [map_get] in G.
    destruct (Z.eqb_spec k' r) as [->|]; [apply N1; left; auto|]. rewrite Z.eqb_refl in G. discriminate.
Qed.

Lemma single_crawl : forall os r path, has_obj os r = true -> walk os path (data_of os r) = true -> visits os path (data_of os r) = [] ->
  crawl_checked os r path = Ok [(r, img path (data_of os r))].
Proof.
  intros os r path H W V. destruct (crawl_walk os r path) as (m & E & N & G).
  - split; [auto|]. split; [auto|]. intros i q [Ei|Hi]; [inversion Ei; subst; rewrite V; reflexivity|rewrite V in Hi; destruct Hi].
  - unfold crawl_checked. rewrite E. f_equal. apply single_map; [auto|]. intros k. rewrite G. unfold crawl_from. rewrite V.
    cbn [vis existsb fst]. rewrite orb_false_r, (Z.eqb_sym r k). destruct (Z.eqb_spec k r) as [->|]; [|reflexivity].
    unfold collect. cbn [flat_map fst snd]. rewrite Z.eqb_refl, app_nil_r. reflexivity.
Qed.

(** ** The first resources *)
Section Short.
  Notation ky := (B"XObject").
  Variable p : pdf.
  Variable rid : Z.
  Variable ts : list tree.
  Variable info : Z -> res_place.
  Hypothesis T : tidy ky p rid ts info.
  Hypothesis Top : bare_top p rid.
  Let os := objs p.
  Let ids := flat_map leaves ts.
  Notation isNode := (isNode p rid ts).
  Notation isLeaf := (isLeaf ts).
  Notation inR := (inR ts info).
  Notation RF := (@RF ky).
  Notation kpath := (@kpath ky).
  Notation spath := [B"Kids"; B"Resources"].

  (** What is collected for an object in one visit. *)
  Inductive scontent : Z -> list item -> Prop :=
  | sc_node : forall id ps, isNode id -> readProperties (data_of os id) = Ok ps -> ~ has_key ps (B"Resources") -> scontent id (strs ps)
  | sc_leaf : forall id ps, isLeaf id -> readProperties (data_of os id) = Ok ps -> scontent id (strs ps)
  | sc_res : forall r, inR r -> scontent r [].

  Lemma scontent_fun : forall i X Y, scontent i X -> scontent i Y -> X = Y.
  Proof.
    intros i X Y H1 H2. destruct H1 as [i ps H R _|i ps H R|i H]; inversion H2 as [? ps' H' R'|? ps' H' R'|? H']; subst; try reflexivity; try congruence.
    - exfalso. exact (R_tree _ _ _ _ T i H' (node_in _ _ _ i H)).
    - exfalso. exact (R_tree _ _ _ _ T i H' (leaf_in' _ _ _ _ T i H)).
    - exfalso. exact (R_tree _ _ _ _ T i H (node_in _ _ _ i H')).
    - exfalso. exact (R_tree _ _ _ _ T i H (leaf_in' _ _ _ _ T i H')).
  Qed.

  Lemma q_inv : forall (q : list bytes) l x, q ++ [x] = l ++ [x] -> q = l.
  Proof. intros q l x H. apply app_inj_tail in H. apply H. Qed.

  Lemma short_visit : forall i q, @visit ky p rid ts info i (q ++ [ky]) -> scontent i (img q (data_of os i)).
  Proof.
    intros i q H. remember (q ++ [ky]) as Q eqn:H0. symmetry in H0. destruct H as [| |i kids Hk|i kids Hk|i HL|L i rps fp HL Ei|i Hf].
    - change (B"Pages" :: kpath) with ([B"Pages"; B"Kids"; B"Resources"] ++ [ky]) in H0. apply q_inv in H0. subst q.
      destruct (td_catalog _ _ _ _ T) as (ps & v & D & O' & I' & _). pose proof (Top (root p) ps (or_introl eq_refl) D) as Nr.
      apply dict_data in D. destruct D as (Ho & R). fold os in R. destruct (once_ref os (B"Pages") spath _ ps v rid R O' I') as (_ & _ & E). rewrite E.
      apply sc_node; [left; auto|exact R|exact Nr].
    - change kpath with (spath ++ [ky]) in H0. apply q_inv in H0. subst q.
      destruct (td_root _ _ _ _ T) as (ps & v & D & O' & Ty & I' & _). pose proof (Top rid ps (or_intror eq_refl) D) as Nr.
      apply dict_data in D. destruct D as (Ho & R). fold os in R. destruct (once_arr os (B"Kids") [B"Resources"] _ ps v _ R O' Ty I') as (_ & _ & E). rewrite E.
      apply sc_node; [right; left; auto|exact R|exact Nr].
    - change RF with ([B"Resources"] ++ [ky]) in H0. apply q_inv in H0. subst q.
      destruct (td_inner _ _ _ _ T i kids Hk) as (ps & v & D & _ & _ & _ & _ & _ & _ & NR & _). apply dict_data in D. destruct D as (Ho & R). fold os in R.
      destruct (absent_all os (B"Resources") [] _ ps R NR) as (_ & _ & E). rewrite E. apply sc_node; auto. right. right. eauto.
    - change kpath with (spath ++ [ky]) in H0. apply q_inv in H0. subst q.
      destruct (td_inner _ _ _ _ T i kids Hk) as (ps & v & D & O' & Ty & I' & _ & _ & _ & NR & _). apply dict_data in D. destruct D as (Ho & R). fold os in R.
      destruct (once_arr os (B"Kids") [B"Resources"] _ ps v _ R O' Ty I') as (_ & _ & E). rewrite E. apply sc_node; auto. right. right. eauto.
    - change RF with ([B"Resources"] ++ [ky]) in H0. apply q_inv in H0. subst q.
      destruct (page_of _ _ _ _ T i HL) as (ps & (D & P) & _). apply dict_data in D. destruct D as (Ho & R). fold os in R.
      assert (E : img [B"Resources"] (data_of os i) = strs ps).
      { destruct (info i) as [|rps fp|r rps fp].
        - apply (absent_all os (B"Resources") [] _ ps R P).
        - destruct P as (v & O' & Ty & _). apply (alike_all os (B"Resources") [] _ ps v R (once_alike _ _ _ O') Ty eq_refl).
        - destruct P as (v & O' & I' & _). apply (once_ref os (B"Resources") [] _ ps v r R O' I'). }
      rewrite E. apply sc_leaf; auto.
    - change [ky] with ([] ++ [ky]) in H0. apply q_inv in H0. subst q. cbn [img]. apply sc_res. eapply res_in; eauto.
    - destruct q; discriminate.
  Qed.

  Definition scrawls (C : list (Z * list bytes)) : Prop :=
    C = crawl_from os (root p) (B"Pages" :: spath) \/ exists k kids, In (Node k kids) ts /\ C = crawl_from os k spath.

  Lemma node_crawl : forall k kids, In (Node k kids) ts -> exists l, In (Node k (map Leaf l)) ts /\ crawl_from os k kpath = @crawlK ky info k l /\ smooth os k kpath.
  Proof.
    intros k kids H. destruct (tree_cases _ _ _ _ T _ H) as [(j & E)|(j & l & E)]; [discriminate|]. inversion E; subst j kids.
    destruct (crawlK_is _ _ _ _ T k l H) as (Ec & W & Ho). fold os in Ec, W, Ho. exists l. split; [auto|]. split; [auto|]. split; [auto|]. split; [auto|].
    rewrite Ec. apply (crawls_acyc _ _ _ _ T). right. eauto.
  Qed.

  Lemma scrawl_visit : forall C i q, scrawls C -> In (i, q) C -> @visit ky p rid ts info i (q ++ [ky]).
  Proof.
    intros C i q [->|(k & kids & Hk & ->)] H; apply (crawl_prefix os [ky]) in H; cbn [app] in H.
    - change [B"Pages"; B"Kids"; B"Resources"; ky] with (B"Pages" :: kpath) in H. unfold os in H. rewrite (crawl_root _ _ _ _ T) in H.
      eapply crawl_visit; [|exact H]. apply crawls0.
    - change [B"Kids"; B"Resources"; ky] with kpath in H. destruct (node_crawl k kids Hk) as (l & Hl & E & _). rewrite E in H.
      eapply crawl_visit; [|exact H]. right. eauto.
  Qed.

  Lemma scollected : forall C i, scrawls C -> vis i C = true -> exists X n, scontent i X /\ collect os i C = concat (repeat X n).
  Proof.
    intros C i HC H. destruct (in_crawl _ _ H) as (q & Hq). exists (img q (data_of os i)), (cnt i C).
    pose proof (short_visit i q (scrawl_visit C i q HC Hq)) as K. split; [auto|]. apply collect_same. intros q' Hq'.
    eapply scontent_fun; [|exact K]. apply short_visit. eapply scrawl_visit; eauto.
  Qed.

  Lemma sinner : forall i X n, scontent i X -> is_inner (concat (repeat X n)) = true -> exists kids, In (Node i kids) ts.
  Proof.
    intros i X n K H. destruct K as [i ps Hn R _|L ps HL R|r Hr].
    - destruct Hn as [->|[->|Hn]]; [exfalso|exfalso|auto].
      + destruct (root_step _ _ _ _ T) as (ps' & R' & _ & _ & M & _). unfold os in R. rewrite R in R'. inversion R'; subst ps'.
        rewrite (copies_no (B"/Parent") ps n) in H; auto. discriminate.
      + destruct (rid_step _ _ _ _ T) as (ps' & R' & _ & _ & M & _). unfold os in R. rewrite R in R'. inversion R'; subst ps'.
        rewrite (copies_no (B"/Parent") ps n) in H; auto. discriminate.
    - exfalso. destruct (page_of _ _ _ _ T L HL) as (ps' & (D & _) & _ & M & _). apply dict_data in D. destruct D as (_ & R').
      unfold os in R. rewrite R in R'. inversion R'; subst ps'. rewrite (copies_no (B"/Pages") ps n) in H; auto. discriminate.
    - exfalso. rewrite copies_nil in H. discriminate.
  Qed.

  Lemma sseen_is : forall i l, seen os (root p) spath i l -> exists X n, scontent i X /\ l = concat (repeat X n).
  Proof.
    intros i l H. destruct H as [i H|k l0 i Hk Sk Ik Hi].
    - apply scollected; [left; auto|auto].
    - assert (Hn : exists kids, In (Node k kids) ts).
      { clear i Hi. revert Ik. induction Sk as [k H|k' l1 k Hk' Sk' IH Ik' Hk1]; intros Ik.
        - destruct (scollected _ k (or_introl eq_refl) H) as (X & n & K & E). rewrite E in Ik. eapply sinner; eauto.
        - destruct (IH Hk' Ik') as (kids & Hn).
          destruct (scollected (crawl_from os k' spath) k) as (X & n & K & E); [right; eauto|auto|]. rewrite E in Ik. eapply sinner; eauto. }
      destruct Hn as (kids & Hn). apply scollected; [right; eauto|auto].
  Qed.

  Lemma short_smooth : all_smooth os (root p) spath.
  Proof.
    split.
    - apply (smooth_prefix os [ky]). apply (tidy_smooth _ _ _ _ T).
    - intros k l _ Sk Ik. destruct (sseen_is k l Sk) as (X & n & K & ->). destruct (sinner _ _ _ K Ik) as (kids & Hn).
      apply (smooth_prefix os [ky]). destruct (node_crawl k kids Hn) as (l & _ & _ & S). exact S.
  Qed.

  (** The resources found first are those of a page. *)
  Lemma first_page : forall ord t rs rx embed, fair ord -> getPageCrawl ord t os (root p) spath = Ok rs -> firstResources (ord [12] _ rs) = Ok (Some (rx, embed)) ->
    exists L, isLeaf L /\ match info L with
      | NoRes => False
      | ResIn _ _ => rx = L /\ embed = true
      | ResAt r _ _ => rx = r /\ embed = false
      end.
  Proof.
    intros ord t rs rx embed Fr G F. destruct (page_crawl ord t os (root p) spath Fr short_smooth) as (m & Em & St). rewrite G in Em. inversion Em; subst m. clear Em.
    assert (Hin : forall k l, In (k, l) (ord [12] _ rs) -> seen os (root p) spath k l).
    { intros k l H. apply fair_in in H; [|exact Fr]. apply (st_sound _ _ _ _ _ St). apply in_get; [apply St|auto]. }
    clear St G. revert F Hin. generalize (ord [12] _ rs). intros l0. induction l0 as [|[k l] l0 IH]; intros F Hin; cbn [firstResources] in F; [discriminate|].
    destruct (valOf (B"Resources") l) as [v|] eqn:V; [|apply IH; auto; intros; apply Hin; right; auto].
    destruct (sseen_is k l (Hin k l (or_introl eq_refl))) as (X & n & K & ->).
    destruct n as [|n]; [discriminate|].
    destruct K as [k ps Hn R Nr|L ps HL R|r Hr].
    - rewrite valOf_copies in V. apply key_none in Nr. rewrite Nr in V. discriminate.
    - rewrite valOf_copies in V. exists L. split; [exact HL|]. destruct (page_of _ _ _ _ T L HL) as (ps' & (D & P) & _). apply dict_data in D. destruct D as (_ & R').
      unfold os in R. rewrite R in R'. inversion R'; subst ps'. destruct (info L) as [|rps fp|r rps fp].
      + apply key_none in P. rewrite P in V. discriminate.
      + destruct P as (v' & O' & Ty & _). apply once_value, value_get in O'. rewrite O' in V. cbn in V. inversion V; subst v'.
        destruct (readObjID v) as [id|e| |] eqn:Iv; [apply type_ref in Iv; congruence| |discriminate|discriminate]. destruct e; inversion F; auto.
      + destruct P as (v' & O' & Iv & _). apply once_value, value_get in O'. rewrite O' in V. cbn in V. inversion V; subst v'. rewrite Iv in F. inversion F; auto.
    - rewrite copies_nil in V. discriminate.
  Qed.

  (** What the second crawl collects. *)
  Lemma second_page : forall L ps rps fp, isLeaf L -> info L = ResIn rps fp -> readProperties (data_of os L) = Ok ps ->
    crawl_checked os L [ky] = Ok [(L, strs ps)] /\ getPropByKey ky ps = None.
  Proof.
    intros L ps rps fp HL E R. destruct (page_of _ _ _ _ T L HL) as (ps' & (D & P) & NF & _). apply dict_data in D. destruct D as (Ho & R').
    fold os in Ho, R'. rewrite R in R'. inversion R'; subst ps'. destruct (absent_all os ky [] _ ps R NF) as (A1 & A2 & A3).
    split; [|apply key_none; auto]. rewrite <- A3. apply single_crawl; auto.
  Qed.
  Lemma second_res : forall L r rps fp, isLeaf L -> info L = ResAt r rps fp -> fv fp = [] -> crawl_checked os r [ky] = Ok [(r, strs rps)].
  Proof.
    intros L r rps fp HL E Ef. destruct (res_of _ _ _ _ T L r rps fp HL E) as (Ho & R & F & _). fold os in Ho, R, F.
    destruct (font_all os _ rps fp R F) as (A1 & A2 & A3). rewrite <- A3. apply single_crawl; auto. congruence.
  Qed.
End Short.
