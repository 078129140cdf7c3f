(** The crawls through a tidy document. *)
From Coq Require Import String List ZArith Lia Bool Permutation.
From Verif Require Import Base BaseProofs Output Props PropsSpec PdfData PagesSpec PagesProofs PagesEdit
  Crawl Inject CrawlProofs CrawlVisits PageCrawl InjectMaps InjectNames InjectItems InjectTexts InjectSpec InjectMarks.
Open Scope Z_scope.
Open Scope list_scope.

Lemma dict_data : forall os id ps, dict os id ps <-> has_obj os id = true /\ readProperties (data_of os id) = Ok ps.
Proof.
  intros os id ps. split.
  - intros (o & V & E). apply version_get in V. unfold has_obj, data_of. rewrite V. auto.
  - intros (H & R). destruct (has_obj_get _ _ H) as (o & G). exists o. split; [apply get_version; auto|].
    unfold data_of in R. rewrite G in R. exact R.
Qed.

Lemma key_none : forall ps k, ~ has_key ps k <-> getPropByKey k ps = None.
Proof.
  intros ps k. split.
  - intros H. destruct (getPropByKey k ps) as [q|] eqn:E; [|reflexivity]. exfalso. apply H. apply get_value in E. destruct E as (_ & E).
    eapply value_has; eauto.
  - intros H (v & Hin). induction ps as [|p ps IH]; [destruct Hin|]. cbn [getPropByKey] in H. destruct (beqb (pkey p) k) eqn:E; [discriminate|].
    destruct Hin as [->|Hin]; [cbn in E; rewrite beqb_refl in E; discriminate|]. auto.
Qed.

Lemma once_value : forall ps k v, once ps k v -> value ps k v.
Proof.
  intros ps k v (a & b & E & Ha & Hb). exists a, b. split; auto. intros q Hq K. apply Ha. exists (pval q). destruct q as [k0 v0]. cbn in *. subst k0. auto.
Qed.

Lemma once_alike : forall ps k v, once ps k v -> alike ps k v.
Proof.
  intros ps k v (a & b & E & Ha & Hb). subst ps. split; [exists v; apply in_or_app; right; left; reflexivity|].
  intros w H. apply in_app_or in H. destruct H as [H|[H|H]]; [exfalso; apply Ha; exists w; auto|congruence|exfalso; apply Hb; exists w; auto].
Qed.
Lemma alike_value : forall ps k v, alike ps k v -> value ps k v.
Proof.
  intros ps k v ((w & Hw) & H). destruct (getPropByKey k ps) as [q|] eqn:G.
  - apply get_value in G. destruct G as (Ek & V). assert (pval q = v) as <-; [|auto]. apply H. destruct V as (a & b & -> & _). apply in_or_app. right. left. reflexivity.
  - exfalso. eapply (proj2 (key_none ps k)); eauto. exists w. auto.
Qed.

Lemma none_not : forall k a, getPropByKey k a = None -> forall q, In q a -> beqb (pkey q) k = false.
Proof.
  intros k. induction a as [|p a IH]; intros H q Hq; [destruct Hq|]. cbn [getPropByKey] in H.
  destruct (beqb (pkey p) k) eqn:E; [discriminate|]. destruct Hq as [<-|Hq]; auto.
Qed.

(** ** One dictionary *)
Section One.
  Variable os : list obj.
  Variable key : bytes.
  Variable paths : list bytes.

  Lemma visit_skip : forall a, getPropByKey key a = None -> flat_map (visit_of os key paths) a = [].
  Proof.
    intros a H. pose proof (none_not _ _ H) as N. clear H. induction a as [|q a IH]; [reflexivity|]. cbn [flat_map].
    unfold visit_of at 1. rewrite (N q) by (left; auto). cbn [negb app]. apply IH. intros q' Hq. apply N. right. auto.
  Qed.
  Lemma walk_skip : forall a, getPropByKey key a = None -> forallb (walk_of os key paths) a = true.
  Proof.
    intros a H. pose proof (none_not _ _ H) as N. apply forallb_forall. intros q Hq. unfold walk_of. rewrite (N q Hq). reflexivity.
  Qed.
  Lemma item_skip : forall a, getPropByKey key a = None -> map (item_of key paths) a = strs a.
  Proof.
    intros a H. pose proof (none_not _ _ H) as N. unfold strs. apply map_ext_in. intros q Hq. unfold item_of. rewrite (N q Hq). reflexivity.
  Qed.

  Lemma absent_all : forall data ps, readProperties data = Ok ps -> ~ has_key ps key ->
    visits os (key :: paths) data = [] /\ walk os (key :: paths) data = true /\ img (key :: paths) data = strs ps.
  Proof.
    intros data ps R N. apply key_none in N. rewrite (visits_cons _ _ _ _ _ R), walk_cons, R, (img_cons _ _ _ _ R).
    rewrite visit_skip, walk_skip, item_skip by auto. auto.
  Qed.

  Lemma once_all : forall data ps v, readProperties data = Ok ps -> once ps key v ->
    visits os (key :: paths) data = visit_of os key paths (mkProp key v) /\
    walk os (key :: paths) data = walk_of os key paths (mkProp key v) /\
    exists a b, ps = a ++ mkProp key v :: b /\ getPropByKey key a = None /\ getPropByKey key b = None /\
      img (key :: paths) data = strs a ++ item_of key paths (mkProp key v) :: strs b.
  Proof.
    intros data ps v R (a & b & E & Ha & Hb). apply key_none in Ha, Hb.
    rewrite (visits_cons _ _ _ _ _ R), walk_cons, R, (img_cons _ _ _ _ R). subst ps.
    rewrite flat_map_app, forallb_app, map_app. cbn [flat_map forallb map].
    rewrite !visit_skip, !walk_skip, !item_skip, app_nil_r, andb_true_r by auto. cbn [app andb].
    split; [reflexivity|]. split; [reflexivity|]. exists a, b. auto.
  Qed.

  (** All of the values are dictionaries, and the last name of the path is reached. *)
  Lemma alike_all : forall data ps v, readProperties data = Ok ps -> alike ps key v -> propertyType v = PObject -> paths = [] ->
    visits os (key :: paths) data = [] /\ walk os (key :: paths) data = true /\ img (key :: paths) data = strs ps.
  Proof.
    intros data ps v R (_ & Al) T ->. rewrite (visits_cons _ _ _ _ _ R), walk_cons, R, (img_cons _ _ _ _ R).
    assert (X : forall q, In q ps -> visit_of os key [] q = [] /\ walk_of os key [] q = true /\ item_of key [] q = IStr (pkey q) (pval q)).
    { intros [k w] Hq. unfold visit_of, walk_of, item_of. cbn [pkey pval]. destruct (beqb k key) eqn:E; [|repeat split; reflexivity].
      apply beqb_eq in E. subst k. rewrite (Al w Hq), T. repeat split; reflexivity. }
    clear R Al. induction ps as [|q ps IH]; [repeat split; reflexivity|]. destruct (X q (or_introl eq_refl)) as (X1 & X2 & X3).
    destruct IH as (I1 & I2 & I3); [intros q' Hq; apply X; right; auto|]. cbn [flat_map forallb map]. rewrite X1, X2, X3, I1, I2, I3. repeat split; reflexivity.
  Qed.

  Lemma strs_mid : forall a k v b, strs a ++ IStr k v :: strs b = strs (a ++ mkProp k v :: b).
  Proof. intros. unfold strs. rewrite map_app. reflexivity. Qed.

  Lemma once_ref : forall data ps v n, readProperties data = Ok ps -> once ps key v -> readObjID v = Ok n ->
    visits os (key :: paths) data = (n, paths) :: visits os paths (data_of os n) /\
    walk os (key :: paths) data = has_obj os n && walk os paths (data_of os n) /\
    img (key :: paths) data = strs ps.
  Proof.
    intros data ps v n R O' I'. destruct (once_all data ps v R O') as (E1 & E2 & a & b & E & _ & _ & E3). rewrite E1, E2, E3.
    unfold visit_of, walk_of, item_of. cbn [pkey pval]. rewrite beqb_refl, (type_ref _ _ I'), I'. cbn [negb].
    split; [reflexivity|]. split; [reflexivity|]. subst ps. apply strs_mid.
  Qed.

  Lemma once_arr : forall data ps v ids, readProperties data = Ok ps -> once ps key v -> propertyType v = PArray -> readObjIDs v = Ok ids ->
    visits os (key :: paths) data = flat_map (fun id => (id, paths) :: visits os paths (data_of os id)) ids /\
    walk os (key :: paths) data = forallb (fun id => has_obj os id && walk os paths (data_of os id)) ids /\
    img (key :: paths) data = strs ps.
  Proof.
    intros data ps v ids R O' T I'. destruct (once_all data ps v R O') as (E1 & E2 & a & b & E & _ & _ & E3). rewrite E1, E2, E3.
    unfold visit_of, walk_of, item_of. cbn [pkey pval]. rewrite beqb_refl, T, I'. cbn [negb].
    split; [reflexivity|]. split; [reflexivity|]. subst ps. apply strs_mid.
  Qed.
End One.

(** ** Resources and fonts of a page *)
Section Key.
Context {K : bytes}.
Definition RF : list bytes := [B"Resources"; K].
Definition kpath : list bytes := B"Kids" :: RF.
Definition fv (fp : font_place) : list (Z * list bytes) := match fp with FontAt f _ => [(f, [])] | _ => [] end.
Definition pv (rp : res_place) : list (Z * list bytes) :=
  match rp with NoRes => [] | ResIn _ fp => fv fp | ResAt r _ fp => (r, [K]) :: fv fp end.

Lemma font_all : forall os data rps fp, readProperties data = Ok rps -> font_is K os rps fp ->
  visits os [K] data = fv fp /\ walk os [K] data = true /\ img [K] data = strs rps.
Proof.
  intros os data rps fp R F. destruct fp as [|fps|f fps]; cbn [font_is fv] in *.
  - apply absent_all; auto.
  - destruct F as (v & O' & T & _). apply (alike_all os K [] data rps v); auto.
  - destruct F as (v & O' & I' & D). destruct (once_ref os K [] data rps v f R O' I') as (E1 & E2 & E3). rewrite E1, E2, E3.
    apply dict_data in D. destruct D as (D & _). rewrite D. auto.
Qed.

Lemma page_all : forall os id ps rp, page_is K os id ps rp ->
  has_obj os id = true /\ visits os RF (data_of os id) = pv rp /\ walk os RF (data_of os id) = true /\
  match rp with
  | ResIn rps _ => exists a v b, ps = a ++ mkProp (B"Resources") v :: b /\ getPropByKey (B"Resources") a = None /\
      img RF (data_of os id) = strs a ++ ICr (B"Resources") (strs rps) :: strs b
  | _ => img RF (data_of os id) = strs ps
  end.
Proof.
  intros os id ps rp (D & P). apply dict_data in D. destruct D as (H & R). split; [auto|]. unfold RF. destruct rp as [|rps fp|r rps fp]; cbn [pv].
  - apply (absent_all os (B"Resources") [K]); auto.
  - destruct P as (v & O' & T & Rv & F). destruct (font_all os v rps fp Rv F) as (V1 & W1 & I1).
    destruct (once_all os (B"Resources") [K] _ ps v R O') as (E1 & E2 & a & b & E & Ha & _ & E3). rewrite E1, E2, E3.
    unfold visit_of, walk_of, item_of. cbn [pkey pval]. rewrite beqb_refl, T, V1, W1, I1. cbn [negb].
    split; [reflexivity|]. split; [reflexivity|]. exists a, v, b. auto.
  - destruct P as (v & O' & I' & D & F). apply dict_data in D. destruct D as (Hr & Rr). destruct (font_all os _ rps fp Rr F) as (V1 & W1 & I1).
    destruct (once_ref os (B"Resources") [K] _ ps v r R O' I') as (E1 & E2 & E3). rewrite E1, E2, E3, V1, W1, Hr. auto.
Qed.
End Key.
