(** What is collected in a tidy document. *)
From Coq Require Import String List ZArith Lia Bool Permutation.
From Verif Require Import Base BaseProofs Output Props PropsSpec PdfData PagesSpec PagesProofs PagesEdit
  Crawl Inject CrawlProofs CrawlVisits PageCrawl InjectMaps InjectNames InjectItems InjectTexts InjectSpec InjectMarks InjectVisits.
Open Scope Z_scope.
Open Scope list_scope.

Lemma flat_disjoint : forall (ts : list tree) t t' x, NoDup (flat_map tree_ids ts) -> In t ts -> In t' ts ->
  In x (tree_ids t) -> In x (tree_ids t') -> t = t'.
Proof.
  induction ts as [|u ts IH]; intros t t' x N H H' X X'; [destruct H|]. cbn [flat_map] in N.
  assert (D : forall y, In y (tree_ids u) -> ~ In y (flat_map tree_ids ts)).
  { clear - N. induction (tree_ids u) as [|z l IHl]; intros y Hy; [destruct Hy|]. cbn [app] in N. inversion N; subst.
    destruct Hy as [<-|Hy]; [|auto]. intros Hz. apply H1. apply in_or_app. auto. }
  assert (N' : NoDup (flat_map tree_ids ts)).
  { clear - N. induction (tree_ids u) as [|z l IHl]; [auto|]. cbn [app] in N. inversion N; subst. auto. }
  destruct H as [<-|H], H' as [<-|H'].
  - reflexivity.
  - exfalso. apply (D x X). apply in_flat_map. eauto.
  - exfalso. apply (D x X'). apply in_flat_map. eauto.
  - eapply IH; eauto.
Qed.
Lemma flat_one : forall (ts : list tree) t, NoDup (flat_map tree_ids ts) -> In t ts -> NoDup (tree_ids t).
Proof.
  induction ts as [|u ts IH]; intros t N H; [destruct H|]. cbn [flat_map] in N. destruct H as [<-|H].
  - eapply NoDup_app_l; eauto.
  - apply IH; auto. clear - N. induction (tree_ids u) as [|z l IHl]; [auto|]. cbn [app] in N. inversion N; subst. auto.
Qed.

Lemma leaf_ids : forall ids, flat_map tree_ids (map Leaf ids) = ids.
Proof. induction ids as [|i ids IH]; [reflexivity|]. cbn [map flat_map tree_ids app]. now rewrite IH. Qed.
Lemma leaf_leaves : forall ids, flat_map leaves (map Leaf ids) = ids.
Proof. induction ids as [|i ids IH]; [reflexivity|]. cbn [map flat_map leaves app]. now rewrite IH. Qed.
Lemma leaf_tids : forall ids, map tid (map Leaf ids) = ids.
Proof. induction ids as [|i ids IH]; [reflexivity|]. cbn [map tid]. now rewrite IH. Qed.

(** How many times an object is entered. *)
Definition cnt (id : Z) (V : list (Z * list bytes)) : nat := List.length (filter (fun v => fst v =? id) V).
Lemma cnt_app : forall id V W, cnt id (V ++ W) = (cnt id V + cnt id W)%nat.
Proof. intros. unfold cnt. rewrite filter_app, app_length. reflexivity. Qed.
Lemma cnt_none : forall id V, vis id V = false -> cnt id V = 0%nat.
Proof.
  intros id. induction V as [|v V IH]; intros H; [reflexivity|]. cbn [vis existsb] in H. apply orb_false_iff in H. destruct H as (H1 & H2).
  unfold cnt. cbn [filter]. rewrite H1. apply IH. auto.
Qed.
Lemma cnt_some : forall id V, vis id V = true -> exists n, cnt id V = S n.
Proof.
  intros id. induction V as [|v V IH]; intros H; [discriminate|]. cbn [vis existsb] in H. unfold cnt. cbn [filter].
  destruct (fst v =? id) eqn:E; [cbn [List.length]; eauto|]. apply IH. exact H.
Qed.
Lemma collect_same : forall os id X V, (forall q, In (id, q) V -> img q (data_of os id) = X) ->
  collect os id V = concat (repeat X (cnt id V)).
Proof.
  intros os id X. induction V as [|[i q] V IH]; intros H; [reflexivity|]. unfold collect, cnt. cbn [flat_map filter fst snd].
  destruct (Z.eqb_spec i id) as [->|].
  - cbn [List.length repeat concat]. rewrite (H q) by (left; auto). f_equal. apply IH. intros. apply H. right. auto.
  - cbn [app]. apply IH. intros. apply H. right. auto.
Qed.

Section Tidy.
  Context {K : bytes}.
  Notation RF := (@RF K).
  Notation kpath := (@kpath K).
  Notation pv := (@pv K).
  Variable p : pdf.
  Variable rid : Z.
  Variable ts : list tree.
  Variable info : Z -> res_place.
  Hypothesis T : tidy K p rid ts info.
  Let os := objs p.
  Let ids := flat_map leaves ts.

  Definition isNode (id : Z) : Prop := id = root p \/ id = rid \/ exists kids, In (Node id kids) ts.
  Definition isLeaf (id : Z) : Prop := In id ids.
  Definition inR (id : Z) : Prop := exists L, In L ids /\ In id (res_objects (info L)).
  Definition inF (id : Z) : Prop := exists L, In L ids /\ In id (font_objects (info L)).

  Lemma tree_cases : forall t, In t ts -> (exists id, t = Leaf id) \/ (exists id l, t = Node id (map Leaf l)).
  Proof. apply (td_levels _ _ _ _ T). Qed.

  Lemma leaf_in : forall L, isLeaf L -> In L (flat_map tree_ids ts).
  Proof.
    intros L H. apply in_flat_map in H. destruct H as (t & Ht & HL). apply in_flat_map. exists t. split; [auto|].
    destruct (tree_cases t Ht) as [(i & ->)|(i & l & ->)]; cbn [leaves tree_ids] in *; [auto|].
    right. rewrite leaf_leaves in HL. rewrite leaf_ids. auto.
  Qed.
  Lemma node_in : forall id, isNode id -> In id (root p :: rid :: flat_map tree_ids ts).
  Proof.
    intros id [->|[->|(kids & H)]]; [left; auto|right; left; auto|]. right. right. apply in_flat_map. eexists; split; [exact H|]. left. auto.
  Qed.
  Lemma leaf_in' : forall L, isLeaf L -> In L (root p :: rid :: flat_map tree_ids ts).
  Proof. intros. right. right. apply leaf_in. auto. Qed.

  Lemma kinds : NoDup (flat_map tree_ids ts) /\ root p <> rid /\ ~ In (root p) (flat_map tree_ids ts) /\ ~ In rid (flat_map tree_ids ts).
  Proof.
    pose proof (td_distinct _ _ _ _ T) as N. inversion N as [|x l H1 H2]; subst. inversion H2; subst. split; [auto|]. split; [|split]; auto.
    - intros E. apply H1. left. auto.
    - intros E. apply H1. right. auto.
  Qed.

  Lemma node_leaf : forall id, isNode id -> isLeaf id -> False.
  Proof.
    intros id Hn Hl. destruct kinds as (N & _ & R1 & R2). pose proof (leaf_in _ Hl) as Hin. destruct Hn as [->|[->|(kids & Hk)]]; [auto|auto|].
    destruct (tree_cases _ Hk) as [(i & E)|(i & l & E)]; [discriminate|]. inversion E; subst i kids.
    apply in_flat_map in Hl. destruct Hl as (t & Ht & HL).
    assert (X : In id (tree_ids t)).
    { destruct (tree_cases t Ht) as [(j & ->)|(j & l' & ->)]; cbn [leaves tree_ids] in *; [auto|]. right. rewrite leaf_leaves in HL. rewrite leaf_ids. auto. }
    assert (t = Node id (map Leaf l)) by (eapply flat_disjoint; eauto; left; auto). subst t.
    cbn [leaves] in HL. rewrite leaf_leaves in HL. pose proof (flat_one _ _ N Hk) as N1. cbn [tree_ids] in N1. rewrite leaf_ids in N1.
    inversion N1; auto.
  Qed.
  Lemma R_tree : forall id, inR id -> ~ In id (root p :: rid :: flat_map tree_ids ts).
  Proof. intros id (L & HL & H). destruct (td_apart _ _ _ _ T L id id L HL HL) as (A & _). auto. Qed.
  Lemma F_tree : forall id, inF id -> ~ In id (root p :: rid :: flat_map tree_ids ts).
  Proof. intros id (L & HL & H). destruct (td_apart _ _ _ _ T L id id L HL HL) as (_ & A). apply A. auto. Qed.
  Lemma R_F : forall id, inR id -> inF id -> False.
  Proof. intros id (L & HL & H) (L' & HL' & H'). destruct (td_apart _ _ _ _ T L' id id L HL' HL) as (_ & A). destruct (A H'). auto. Qed.

  Lemma page_of : forall L, isLeaf L -> exists ps, page_is K os L ps (info L) /\ ~ has_key ps K /\ ~ mentions ps (B"/Pages") /\
    match info L with ResIn rps _ | ResAt _ rps _ => ~ mentions rps (B"/Pages") | NoRes => True end.
  Proof. apply (td_pages _ _ _ _ T). Qed.

  (** ** The crawls *)
  Definition lv (L : Z) : list (Z * list bytes) := (L, RF) :: pv (info L).
  Definition tv (t : tree) : list (Z * list bytes) := match t with Leaf L => lv L | Node k _ => [(k, RF)] end.
  Definition crawl0 : list (Z * list bytes) := (root p, B"Pages" :: kpath) :: (rid, kpath) :: flat_map tv ts.
  Definition crawlK (k : Z) (l : list Z) : list (Z * list bytes) := (k, kpath) :: flat_map lv l.

  Lemma leaf_step : forall L, isLeaf L -> (L, RF) :: visits os RF (data_of os L) = lv L /\ has_obj os L && walk os RF (data_of os L) = true.
  Proof.
    intros L H. destruct (page_of L H) as (ps & P & _). destruct (page_all _ _ _ _ P) as (E1 & E2 & E3 & _). unfold lv. rewrite E1, E2, E3. auto.
  Qed.
  Lemma node_step : forall k kids, In (Node k kids) ts ->
    exists ps v, readProperties (data_of os k) = Ok ps /\ has_obj os k = true /\ once ps (B"Kids") v /\ propertyType v = PArray /\
      readObjIDs v = Ok (map tid kids) /\ visits os RF (data_of os k) = [] /\ walk os RF (data_of os k) = true /\
      img RF (data_of os k) = strs ps /\ img kpath (data_of os k) = strs ps /\
      is_inner (strs ps) = true /\ ~ has_key ps K /\
      visits os kpath (data_of os k) = flat_map (fun id => (id, RF) :: visits os RF (data_of os id)) (map tid kids) /\
      walk os kpath (data_of os k) = forallb (fun id => has_obj os id && walk os RF (data_of os id)) (map tid kids).
  Proof.
    intros k kids H. destruct (td_inner _ _ _ _ T k kids H) as (ps & v & D & O' & Ty & I' & M1 & M2 & V & NR & NF).
    apply dict_data in D. destruct D as (Ho & R). fold os in Ho, R.
    destruct (absent_all os (B"Resources") [K] _ ps R NR) as (A1 & A2 & A3).
    destruct (once_arr os (B"Kids") RF _ ps v _ R O' Ty I') as (B1 & B2 & B3).
    assert (Iy : is_inner (strs ps) = true) by (apply inner_yes; auto).
    exists ps, v. exact (conj R (conj Ho (conj O' (conj Ty (conj I' (conj A1 (conj A2 (conj A3 (conj B3 (conj Iy (conj NF (conj B1 B2)))))))))))).
  Qed.

  Lemma leaves_sub : forall k l, In (Node k (map Leaf l)) ts -> forall L, In L l -> isLeaf L.
  Proof. intros k l H L HL. apply in_flat_map. eexists; split; [exact H|]. cbn [leaves]. rewrite leaf_leaves. auto. Qed.

  Lemma flat_map_in : forall A C (f g : A -> list C) l, (forall x, In x l -> f x = g x) -> flat_map f l = flat_map g l.
  Proof. intros A C f g. induction l as [|x l IH]; intros H; [reflexivity|]. cbn [flat_map]. rewrite H by (left; auto). rewrite IH; [reflexivity|]. intros. apply H. right. auto. Qed.
  Lemma flat_map_map : forall A C D (f : C -> list D) (g : A -> C) l, flat_map f (map g l) = flat_map (fun x => f (g x)) l.
  Proof. intros. induction l as [|x l IH]; [reflexivity|]. cbn [map flat_map]. now rewrite IH. Qed.
  Lemma forallb_in : forall A (f : A -> bool) l, (forall x, In x l -> f x = true) -> forallb f l = true.
  Proof. intros. apply forallb_forall. auto. Qed.

  Lemma crawlK_is : forall k l, In (Node k (map Leaf l)) ts ->
    crawl_from os k kpath = crawlK k l /\ walk os kpath (data_of os k) = true /\ has_obj os k = true.
  Proof.
    intros k l H. destruct (node_step k _ H) as (ps & v & R & Ho & O' & Ty & I' & _ & _ & _ & _ & _ & _ & E1 & E2).
    rewrite leaf_tids in E1, E2. unfold crawl_from, crawlK. rewrite E1, E2. split; [|split; [|auto]].
    - f_equal. apply flat_map_in. intros L HL. apply leaf_step. eapply leaves_sub; eauto.
    - apply forallb_in. intros L HL. apply leaf_step. eapply leaves_sub; eauto.
  Qed.

  Lemma rid_step : exists ps, readProperties (data_of os rid) = Ok ps /\ has_obj os rid = true /\ img kpath (data_of os rid) = strs ps /\
    ~ mentions ps (B"/Parent") /\ ~ has_key ps K /\
    visits os kpath (data_of os rid) = flat_map tv ts /\ walk os kpath (data_of os rid) = true.
  Proof.
    destruct (td_root _ _ _ _ T) as (ps & v & D & O' & Ty & I' & M & NF). apply dict_data in D. destruct D as (Ho & R). fold os in Ho, R.
    destruct (once_arr os (B"Kids") RF _ ps v _ R O' Ty I') as (B1 & B2 & B3).
    exists ps. split; [auto|]. split; [auto|]. split; [exact B3|]. split; [auto|]. split; [auto|]. split.
    - etransitivity; [exact B1|]. rewrite flat_map_map. apply flat_map_in. intros t Ht. destruct t as [L|k kids]; cbn [tid tv].
      + apply leaf_step. apply in_flat_map. exists (Leaf L). split; [auto|left; auto].
      + destruct (node_step k kids Ht) as (? & ? & _ & _ & _ & _ & _ & E & _). rewrite E. reflexivity.
    - etransitivity; [exact B2|]. apply forallb_in. intros i Hi. apply in_map_iff in Hi. destruct Hi as (t & <- & Ht). destruct t as [L|k kids]; cbn [tid].
      + apply leaf_step. apply in_flat_map. exists (Leaf L). split; [auto|left; auto].
      + destruct (node_step k kids Ht) as (? & ? & _ & E1 & _ & _ & _ & _ & E2 & _). rewrite E1, E2. reflexivity.
  Qed.

  Lemma root_step : exists ps, readProperties (data_of os (root p)) = Ok ps /\ has_obj os (root p) = true /\
    img (B"Pages" :: kpath) (data_of os (root p)) = strs ps /\ ~ mentions ps (B"/Parent") /\ ~ has_key ps K /\
    crawl_from os (root p) (B"Pages" :: kpath) = crawl0 /\ walk os (B"Pages" :: kpath) (data_of os (root p)) = true.
  Proof.
    destruct (td_catalog _ _ _ _ T) as (ps & v & D & O' & I' & M & NF). apply dict_data in D. destruct D as (Ho & R). fold os in Ho, R.
    destruct (once_ref os (B"Pages") kpath _ ps v rid R O' I') as (B1 & B2 & B3).
    destruct rid_step as (ps' & _ & Hr & _ & _ & _ & Ev & Ew).
    exists ps. split; [auto|]. split; [auto|]. split; [auto|]. split; [auto|]. split; [auto|].
    unfold crawl_from, crawl0. rewrite B1, B2, Hr, Ew, Ev. auto.
  Qed.

  (** ** Every visit *)
  Definition crawls (C : list (Z * list bytes)) : Prop :=
    C = crawl0 \/ exists k l, In (Node k (map Leaf l)) ts /\ C = crawlK k l.

  Inductive visit : Z -> list bytes -> Prop :=
  | vi_root : visit (root p) (B"Pages" :: kpath)
  | vi_rid : visit rid kpath
  | vi_node0 : forall k kids, In (Node k kids) ts -> visit k RF
  | vi_node1 : forall k kids, In (Node k kids) ts -> visit k kpath
  | vi_leaf : forall L, isLeaf L -> visit L RF
  | vi_res : forall L r rps fp, isLeaf L -> info L = ResAt r rps fp -> visit r [K]
  | vi_font : forall f, inF f -> visit f [].

  Lemma lv_visit : forall L i q, isLeaf L -> In (i, q) (lv L) -> visit i q.
  Proof.
    intros L i q HL [E|H]; [inversion E; subst; constructor; auto|].
    assert (Fv : forall fp, (forall f fps, fp = FontAt f fps -> In f (font_objects (info L))) -> In (i, q) (fv fp) -> visit i q).
    { intros fp Hf Hi. destruct fp as [|fps|f fps]; cbn [fv] in Hi; try contradiction. destruct Hi as [E|[]]. inversion E; subst. apply vi_font. exists L. split; [auto|]. eapply Hf; eauto. }
    destruct (info L) as [|rps fp|r rps fp] eqn:E; cbn [pv] in H.
    - destruct H.
    - eapply Fv; [|exact H]. intros f fps ->. left. auto.
    - destruct H as [E'|H]; [inversion E'; subst; eapply vi_res; eauto|]. eapply Fv; [|exact H]. intros f fps ->. left. auto.
  Qed.
  Lemma crawl_visit : forall C i q, crawls C -> In (i, q) C -> visit i q.
  Proof.
    intros C i q [->|(k & l & H & ->)] Hi.
    - destruct Hi as [E|[E|Hi]]; [inversion E; subst; constructor|inversion E; subst; constructor|].
      apply in_flat_map in Hi. destruct Hi as (t & Ht & Hi). destruct t as [L|k kids]; cbn [tv] in Hi.
      + eapply lv_visit; [|exact Hi]. apply in_flat_map. exists (Leaf L). split; [auto|left; auto].
      + destruct Hi as [E|[]]. inversion E; subst. eapply vi_node0; eauto.
    - destruct Hi as [E|Hi]; [inversion E; subst; eapply vi_node1; eauto|].
      apply in_flat_map in Hi. destruct Hi as (L & HL & Hi). eapply lv_visit; [|exact Hi]. eapply leaves_sub; eauto.
  Qed.

  (** What is collected in one visit depends on the object only. *)
  Inductive content : Z -> list item -> Prop :=
  | co_node : forall id ps, isNode id -> readProperties (data_of os id) = Ok ps -> ~ has_key ps K -> content id (strs ps)
  | co_leaf : forall L, isLeaf L -> content L (img RF (data_of os L))
  | co_res : forall L r rps fp, isLeaf L -> info L = ResAt r rps fp -> content r (strs rps)
  | co_font : forall f, inF f -> content f [].

  Lemma res_of : forall L r rps fp, isLeaf L -> info L = ResAt r rps fp ->
    has_obj os r = true /\ readProperties (data_of os r) = Ok rps /\ font_is K os rps fp /\ inR r /\ ~ mentions rps (B"/Pages").
  Proof.
    intros L r rps fp HL E. destruct (page_of L HL) as (ps & (_ & P) & _ & _ & M). rewrite E in P, M. destruct P as (v & _ & _ & D & F).
    apply dict_data in D. destruct D. repeat split; auto. exists L. split; [auto|]. rewrite E. left. auto.
  Qed.

  Lemma visit_content : forall i q, visit i q -> content i (img q (data_of os i)).
  Proof.
    intros i q H. destruct H as [| |k kids H|k kids H|L H|L r rps fp H E|f H].
    - destruct root_step as (ps & R & _ & E & _ & F & _). rewrite E. apply co_node; auto. left. auto.
    - destruct rid_step as (ps & R & _ & E & _ & F & _). rewrite E. apply co_node; auto. right. left. auto.
    - destruct (node_step k kids H) as (ps & v & R & _ & _ & _ & _ & _ & _ & E & _ & _ & F & _). rewrite E. apply co_node; auto. right. right. eauto.
    - destruct (node_step k kids H) as (ps & v & R & _ & _ & _ & _ & _ & _ & _ & E & _ & F & _). rewrite E. apply co_node; auto. right. right. eauto.
    - apply co_leaf. auto.
    - destruct (res_of _ _ _ _ H E) as (_ & R & F & _). destruct (font_all os _ rps fp R F) as (_ & _ & Ei). rewrite Ei. eapply co_res; eauto.
    - cbn [img]. apply co_font. auto.
  Qed.

  Lemma res_in : forall L r rps fp, isLeaf L -> info L = ResAt r rps fp -> inR r.
  Proof. intros L r rps fp HL E. apply (res_of _ _ _ _ HL E). Qed.

  Lemma content_fun : forall i X Y, content i X -> content i Y -> X = Y.
  Proof.
    intros i X Y H1 H2.
    destruct H1 as [i ps H R _|i H|L i rps fp H E|i H]; inversion H2 as [i' ps' H' R'|i' H'|L' i' rps' fp' H' E'|i' H']; subst; try reflexivity; try congruence;
      try (exfalso; eapply node_leaf; eauto; fail);
      repeat match goal with X : isLeaf ?L, Y : info ?L = ResAt _ _ _ |- _ => pose proof (res_of _ _ _ _ X Y); clear Y end;
      try match goal with X : inF ?i, Y : isNode ?i |- _ => exfalso; exact (F_tree i X (node_in i Y)) end;
      try match goal with X : inF ?i, Y : isLeaf ?i |- _ => exfalso; exact (F_tree i X (leaf_in' i Y)) end;
      repeat match goal with X : _ /\ _ |- _ => destruct X end;
      try match goal with X : inR ?i, Y : isNode ?i |- _ => exfalso; exact (R_tree i X (node_in i Y)) end;
      try match goal with X : inR ?i, Y : isLeaf ?i |- _ => exfalso; exact (R_tree i X (leaf_in' i Y)) end;
      try match goal with X : inR ?i, Y : inF ?i |- _ => exfalso; exact (R_F i X Y) end; congruence.
  Qed.

  Lemma crawl_content : forall C i X, crawls C -> content i X -> collect os i C = concat (repeat X (cnt i C)).
  Proof.
    intros C i X HC H. apply collect_same. intros q Hq. eapply content_fun; [|exact H]. apply visit_content. eapply crawl_visit; eauto.
  Qed.

  (** ** A page is entered once in every crawl that reaches it *)
  Lemma pv_kind : forall L i, isLeaf L -> vis i (pv (info L)) = true -> inR i \/ inF i.
  Proof.
    intros L i HL H. apply vis_in in H. apply in_map_iff in H. destruct H as ((i' & q) & E & H). cbn [fst] in E. subst i'.
    assert (Fv : forall fp, (forall f fps, fp = FontAt f fps -> In f (font_objects (info L))) -> In (i, q) (fv fp) -> inF i).
    { intros fp Hf Hi. destruct fp as [|fps|f fps]; cbn [fv] in Hi; try contradiction. destruct Hi as [E|[]]. inversion E; subst. exists L. split; [auto|]. eapply Hf; eauto. }
    destruct (info L) as [|rps fp|r rps fp] eqn:E; cbn [pv] in H.
    - destruct H.
    - right. eapply Fv; [|exact H]. intros f fps ->. left. auto.
    - destruct H as [E'|H]; [inversion E'; subst; left; eapply res_in; eauto|]. right. eapply Fv; [|exact H]. intros f fps ->. left. auto.
  Qed.
  Lemma pv_tree : forall L i, isLeaf L -> In i (root p :: rid :: flat_map tree_ids ts) -> vis i (pv (info L)) = false.
  Proof.
    intros L i HL H. destruct (vis i (pv (info L))) eqn:E; [|reflexivity]. exfalso. destruct (pv_kind L i HL E) as [X|X].
    - exact (R_tree _ X H). - exact (F_tree _ X H).
  Qed.

  Lemma cnt_cons : forall i v V, cnt i (v :: V) = ((if Z.eqb (fst v) i then 1 else 0) + cnt i V)%nat.
  Proof. intros. unfold cnt. cbn [filter]. destruct (fst v =? i); reflexivity. Qed.

  Lemma cnt_lv : forall L i, isLeaf L -> In i (root p :: rid :: flat_map tree_ids ts) -> cnt i (lv L) = if L =? i then 1%nat else 0%nat.
  Proof. intros L i HL H. unfold lv. rewrite cnt_cons, (cnt_none i (pv (info L))) by (apply pv_tree; auto). cbn [fst]. destruct (L =? i); reflexivity. Qed.

  Lemma cnt_list : forall A (f : A -> list (Z * list bytes)) (g : A -> Z) i l,
    (forall x, In x l -> cnt i (f x) = if g x =? i then 1%nat else 0%nat) -> NoDup (map g l) -> (cnt i (flat_map f l) <= 1)%nat /\
    (~ In i (map g l) -> cnt i (flat_map f l) = 0%nat).
  Proof.
    intros A f g i. induction l as [|x l IH]; intros H N; [split; [cbn; lia|reflexivity]|]. cbn [map] in N. inversion N; subst.
    cbn [flat_map map]. rewrite cnt_app, H by (left; auto). destruct IH as (I1 & I2); [intros; apply H; right; auto|auto|].
    destruct (Z.eqb_spec (g x) i) as [<-|].
    - rewrite I2 by auto. split; [lia|]. intros X. exfalso. apply X. left. auto.
    - split; [lia|]. intros X. rewrite I2; [reflexivity|]. intros Y. apply X. right. auto.
  Qed.

  Lemma tids_nodup : NoDup (map tid ts).
  Proof.
    destruct kinds as (N & _). clear - N. induction ts as [|t l IH]; [constructor|]. cbn [flat_map map] in *. constructor.
    - intros H. apply in_map_iff in H. destruct H as (t' & E & Ht').
      assert (X : In (tid t) (flat_map tree_ids l)) by (apply in_flat_map; exists t'; split; [auto|]; rewrite <- E; destruct t'; left; auto).
      assert (Y : exists r, tree_ids t = tid t :: r) by (destruct t; cbn; eauto). destruct Y as (r & Er). rewrite Er in N. cbn [app] in N.
      inversion N; subst. apply H1. apply in_or_app. auto.
    - apply IH. clear IH. induction (tree_ids t) as [|z m IHm]; [auto|]. cbn [app] in N. inversion N; subst. auto.
  Qed.

  Lemma page_once : forall C L, crawls C -> isLeaf L -> (cnt L C <= 1)%nat.
  Proof.
    intros C L [->|(k & l & H & ->)] HL; pose proof (leaf_in' L HL) as Hin; destruct kinds as (N & _ & R1 & R2).
    - unfold crawl0. rewrite !cnt_cons. cbn [fst].
      destruct (Z.eqb_spec (root p) L) as [E|_]; [exfalso; apply (node_leaf L); [left; auto|auto]|].
      destruct (Z.eqb_spec rid L) as [E|_]; [exfalso; apply (node_leaf L); [right; left; auto|auto]|]. cbn [Nat.add].
      apply (cnt_list _ tv tid L ts); [|apply tids_nodup]. intros t Ht. destruct t as [L'|k kids]; cbn [tv tid].
      + apply cnt_lv; [|auto]. apply in_flat_map. exists (Leaf L'). split; [auto|left; auto].
      + rewrite cnt_cons. cbn [fst]. destruct (k =? L); reflexivity.
    - unfold crawlK. rewrite cnt_cons. cbn [fst].
      destruct (Z.eqb_spec k L) as [E|_]; [exfalso; apply (node_leaf L); [right; right; subst; eauto|auto]|]. cbn [Nat.add].
      apply (cnt_list _ lv (fun x => x) L l); [|].
      + intros L' HL'. apply cnt_lv; [eapply leaves_sub; eauto|auto].
      + rewrite map_id. pose proof (flat_one _ _ N H) as N1. cbn [tree_ids] in N1. rewrite leaf_ids in N1. inversion N1; auto.
  Qed.

  (** A resource object of one page only is entered once too. *)
  Lemma res_once : forall C L r rps fp, crawls C -> isLeaf L -> info L = ResAt r rps fp ->
    (forall L', In L' ids -> In r (res_objects (info L')) -> L' = L) -> (cnt r C <= 1)%nat.
  Proof.
    intros C L r rps fp HC HL E Al. pose proof (res_in _ _ _ _ HL E) as Hr.
    assert (Hlv : forall L', isLeaf L' -> cnt r (lv L') = if L' =? L then 1%nat else 0%nat).
    { intros L' HL'. unfold lv. rewrite cnt_cons. cbn [fst].
      destruct (Z.eqb_spec L' r) as [->|_]; [exfalso; exact (R_tree _ Hr (leaf_in' _ HL'))|]. cbn [Nat.add].
      assert (Fv : forall fp', (forall f fps, fp' = FontAt f fps -> inF f) -> cnt r (fv fp') = 0%nat).
      { intros fp' Hf. destruct fp' as [|fps|f fps]; try reflexivity. cbn [fv]. rewrite cnt_cons. cbn [fst].
        destruct (Z.eqb_spec f r) as [->|]; [exfalso; eapply R_F; eauto|reflexivity]. }
      destruct (Z.eqb_spec L' L) as [->|Ne].
      - rewrite E. cbn [pv]. rewrite cnt_cons. cbn [fst]. rewrite Z.eqb_refl, Fv; [reflexivity|].
        intros f fps ->. exists L. split; [auto|]. rewrite E. left. auto.
      - destruct (info L') as [|rps' fp'|r' rps' fp'] eqn:E'; cbn [pv]; [reflexivity| |].
        + apply Fv. intros f fps ->. exists L'. split; [auto|]. rewrite E'. left. auto.
        + rewrite cnt_cons. cbn [fst]. destruct (Z.eqb_spec r' r) as [->|].
          * exfalso. apply Ne. apply Al; [auto|]. rewrite E'. left. auto.
          * cbn [Nat.add]. apply Fv. intros f fps ->. exists L'. split; [auto|]. rewrite E'. left. auto. }
    assert (Sum : forall A (f : A -> list (Z * list bytes)) (g : A -> Z) l,
      (forall x, In x l -> (cnt r (f x) <= if Z.eqb (g x) L then 1 else 0)%nat) -> NoDup (map g l) -> (cnt r (flat_map f l) <= 1)%nat /\
      (~ In L (map g l) -> cnt r (flat_map f l) = 0%nat)).
    { intros A f g. induction l as [|x l IH]; intros H N; [split; [cbn; lia|reflexivity]|]. cbn [map] in N. inversion N; subst.
      cbn [flat_map map]. rewrite cnt_app. pose proof (H x (or_introl eq_refl)) as Hx.
      destruct IH as (I1 & I2); [intros; apply H; right; auto|auto|].
      destruct (Z.eqb_spec (g x) L) as [Eg|].
      - rewrite Eg in H2. rewrite I2 by auto. split; [lia|]. intros X. exfalso. apply X. left. auto.
      - split; [lia|]. intros X. rewrite I2; [lia|]. intros Y. apply X. right. auto. }
    pose proof (R_tree _ Hr) as Nt. destruct kinds as (N & _ & R1 & R2). destruct HC as [->|(k & l & H & ->)].
    - unfold crawl0. rewrite !cnt_cons. cbn [fst].
      destruct (Z.eqb_spec (root p) r) as [E1|_]; [exfalso; apply Nt; left; auto|].
      destruct (Z.eqb_spec rid r) as [E1|_]; [exfalso; apply Nt; right; left; auto|]. cbn [Nat.add].
      apply (Sum _ tv tid ts); [|apply tids_nodup]. intros t Ht. destruct t as [L'|k kids]; cbn [tv tid].
      + rewrite Hlv; [lia|]. apply in_flat_map. exists (Leaf L'). split; [auto|left; auto].
      + rewrite cnt_cons. cbn [fst]. destruct (Z.eqb_spec k r) as [->|]; [|cbn; destruct (k =? L); lia].
        exfalso. apply Nt. apply node_in. right. right. eauto.
    - unfold crawlK. rewrite cnt_cons. cbn [fst].
      destruct (Z.eqb_spec k r) as [->|_]; [exfalso; apply Nt; apply node_in; right; right; eauto|]. cbn [Nat.add].
      apply (Sum _ lv (fun x => x) l).
      + intros L' HL'. rewrite Hlv; [lia|]. eapply leaves_sub; eauto.
      + rewrite map_id. pose proof (flat_one _ _ N H) as N1. cbn [tree_ids] in N1. rewrite leaf_ids in N1. inversion N1; auto.
  Qed.
End Tidy.
