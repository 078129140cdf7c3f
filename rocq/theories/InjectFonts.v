(** The pages of a tidy document after the fonts are added. *)
From Coq Require Import String List ZArith Lia Bool Permutation.
From Verif Require Import Base BaseProofs Output Props PropsSpec PropsNorm PropsStable PropsRefs PropsFinal PdfData PagesSpec PagesProofs PagesEdit PagesOps
  PiecesRead PiecesNest Crawl Inject CrawlProofs CrawlVisits PageCrawl InjectMaps InjectNames InjectItems InjectTexts InjectSpec InjectMarks InjectVisits InjectPages InjectTidy.
Open Scope Z_scope.
Open Scope list_scope.

(** ** From the specification to the lemmas *)
Lemma balanced_bal : forall v a b, balanced a b v = bal a b v.
Proof. induction v as [|c v IH]; intros a b; [reflexivity|]. cbn [balanced bal]. cbv zeta. rewrite IH. reflexivity. Qed.

Lemma embeds : forall p, embeddable p -> nests p.
Proof.
  intros p (H1 & H2 & H3). rewrite balanced_bal in H1, H2. split; [split; auto|]. unfold quiet.
  change (32 :: pval p ++ [32]) with ([32] ++ pval p ++ [32]). apply lone_free_intro. auto.
Qed.

Lemma regular_plain : forall k, regular_name k -> plain_name k.
Proof.
  intros k (F & S). split.
  - eapply Forall_impl; [|exact F]. cbn beta. intros c H. unfold is_ws4. lia.
  - intros i (a & b & E & _). apply (S a b E).
Qed.
Lemma regular_trim : forall k, regular_name k -> trim_space k = k.
Proof.
  intros k (F & _). apply trim_space_id. destruct k as [|x k]; [split; reflexivity|].
  assert (A : forall c, In c (x :: k) -> ascii c /\ is_space1 c = false).
  { intros c Hc. rewrite Forall_forall in F. specialize (F c Hc). unfold ascii, is_space1. lia. }
  destruct (A x (or_introl eq_refl)) as (A1 & A2).
  destruct k as [|y k'] eqn:Ek using rev_ind; [apply trimmed_one; auto|]. destruct (A y) as (A3 & A4); [right; apply in_or_app; right; left; auto|].
  apply trimmed_ascii; auto.
Qed.

Lemma cfonts_named : forall fps fs, cfonts_of fps = Ok fs -> Forall (fun q => regular_name (pkey q)) fps -> Forall named fs.
Proof.
  induction fps as [|q fps IH]; intros fs H F; cbn [cfonts_of] in H; [inversion H; constructor|].
  inversion F; subst. rewrite regular_trim in H by auto.
  destruct (splitFont (pkey q)) as [[pr i]| | |] eqn:Sp; cbn [bind] in H; try discriminate.
  destruct (readObjID (pval q)) as [id| | |]; cbn [bind] in H; try discriminate.
  destruct (cfonts_of fps) as [fs'| | |]; cbn [bind] in H; try discriminate. inversion H; subst. constructor; [|apply IH; auto].
  unfold named, cf_name. cbn [cf_prefix cf_index fst snd]. apply name_plain. destruct (split_prefix _ _ _ Sp) as (_ & n & ->). apply plain_cut, regular_plain. auto.
Qed.
Lemma F_plain : plain_name (B"F").
Proof. split; [repeat constructor; try reflexivity; discriminate|]. apply contains_false. reflexivity. Qed.
Lemma new_named : forall fonts max, Forall named (newFonts fonts max).
Proof.
  intros fonts max. apply Forall_forall. intros f Hf. destruct (proj1 (new_indexes fonts max) f Hf) as (E & _). unfold named, cf_name. rewrite E.
  apply name_plain, F_plain.
Qed.

Lemma value_fun : forall ps k v w, value ps k v -> value ps k w -> v = w.
Proof. intros ps k v w H1 H2. apply value_get in H1, H2. congruence. Qed.
Lemma once_in : forall ps k v w, once ps k v -> once ps k w -> v = w.
Proof. intros. eapply value_fun; apply once_value; eauto. Qed.

(** The font dictionary of a page. *)
Definition place_fonts (rp : res_place) : option (list prop) :=
  match rp with
  | ResIn _ (FontIn fps) | ResIn _ (FontAt _ fps) | ResAt _ _ (FontIn fps) | ResAt _ _ (FontAt _ fps) => Some fps
  | _ => None
  end.

Lemma points_object : forall os v ps qs, propertyType v = PObject -> readProperties v = Ok ps -> points os v qs -> qs = ps.
Proof. intros os v ps qs T R [(_ & R')|(n & I' & _)]; [congruence|]. apply type_ref in I'. congruence. Qed.
Lemma points_ref : forall os v n ps qs, readObjID v = Ok n -> dict os n ps -> points os v qs -> qs = ps.
Proof.
  intros os v n ps qs I' D [(T & _)|(n' & I'' & D')]; [apply type_ref in I'; congruence|].
  assert (n' = n) by congruence. subst. apply dict_data in D, D'. destruct D, D'. congruence.
Qed.
Lemma dict_fun : forall os n ps qs, dict os n ps -> dict os n qs -> ps = qs.
Proof. intros os n ps qs D D'. apply dict_data in D, D'. destruct D, D'. congruence. Qed.

Lemma page_place : forall K os id ps rp fps, page_is K os id ps rp -> (page_dict K os id fps <-> place_fonts rp = Some fps).
Proof.
  intros K os id ps rp fps (D & P).
  assert (Fn : forall rps fp w, font_is K os rps fp -> value rps K w ->
    exists fps0, points os w fps0 /\ (forall qs, points os w qs -> qs = fps0) /\ match fp with NoFont => False | FontIn f | FontAt _ f => f = fps0 end).
  { intros rps fp w F V. destruct fp as [|f|f' f]; cbn [font_is] in F.
    - exfalso. apply F. eapply value_has; eauto.
    - destruct F as (v & O' & T & R). assert (w = v) by (eapply value_fun; eauto using alike_value). subst w. exists f. split; [left; auto|]. split; [|auto].
      intros qs. apply points_object; auto.
    - destruct F as (v & O' & I' & Df). assert (w = v) by (eapply value_fun; eauto using once_value). subst w. exists f. split; [right; eauto|]. split; [|auto].
      intros qs. eapply points_ref; eauto. }
  assert (Fe : forall rps fp f, font_is K os rps fp -> match fp with NoFont => False | FontIn f0 | FontAt _ f0 => f0 = f end ->
    exists w, value rps K w /\ points os w f).
  { intros rps fp f F E. destruct fp as [|f0|f' f0]; [contradiction| |]; subst f0; cbn [font_is] in F.
    - destruct F as (v & O' & T & R). exists v. split; [apply alike_value; auto|]. left. auto.
    - destruct F as (v & O' & I' & Df). exists v. split; [apply once_value; auto|]. right. eauto. }
  split.
  - intros (ps' & v & rps & w & D' & V & Pv & W & Pw). rewrite (dict_fun _ _ _ _ D' D) in V. clear ps' D'.
    destruct rp as [|rps0 fp|r rps0 fp].
    + exfalso. apply P. eapply value_has; eauto.
    + destruct P as (v0 & O' & T & R & F). assert (v = v0) by (eapply value_fun; eauto using once_value). subst v0.
      rewrite (points_object _ _ _ _ T R Pv) in W. destruct (Fn _ _ _ F W) as (f & _ & U & E). specialize (U _ Pw). subst f.
      destruct fp; [contradiction|subst; reflexivity|subst; reflexivity].
    + destruct P as (v0 & O' & I' & Dr & F). assert (v = v0) by (eapply value_fun; eauto using once_value). subst v0.
      rewrite (points_ref _ _ _ _ _ I' Dr Pv) in W. destruct (Fn _ _ _ F W) as (f & _ & U & E). specialize (U _ Pw). subst f.
      destruct fp; [contradiction|subst; reflexivity|subst; reflexivity].
  - intros E. destruct rp as [|rps fp|r rps fp]; [discriminate| |].
    + destruct P as (v & O' & T & R & F). destruct (Fe rps fp fps F) as (w & W & Pw); [destruct fp; cbn in E; congruence|].
      exists ps, v, rps, w. split; [auto|]. split; [apply once_value; auto|]. split; [left; auto|]. auto.
    + destruct P as (v & O' & I' & Dr & F). destruct (Fe rps fp fps F) as (w & W & Pw); [destruct fp; cbn in E; congruence|].
      exists ps, v, rps, w. split; [auto|]. split; [apply once_value; auto|]. split; [right; eauto|]. auto.
Qed.

Lemma same_dict : forall os os' id ps, has_obj os' id = has_obj os id -> data_of os' id = data_of os id -> dict os id ps -> dict os' id ps.
Proof. intros os os' id ps H D X. apply dict_data in X. apply dict_data. rewrite H, D. exact X. Qed.

Lemma set_value : forall ps k v w, once ps k w -> value (setPropByKey k v ps) k v.
Proof. intros ps k v w O'. apply value_set_same. apply once_value in O'. eapply value_has; eauto. Qed.

Section Run.
  Variable ord : morder.
  Variable p p' : pdf.
  Variable fonts idx : list (Z * Z).
  Variable rid : Z.
  Variable ts : list tree.
  Variable info : Z -> res_place.
  Hypothesis Fr : fair ord.
  Notation lv := (@InjectPages.lv (B"Font")).
  Hypothesis T : tidy (B"Font") p rid ts info.
  Hypothesis Run : injectFonts ord p fonts = Ok (p', idx).

  (** What there is to know about one run. *)
  Record ran (rs : results) (max : Z) (new : list cfont) : Prop := {
    rn_new : new = newFonts (ord [3] _ fonts) max;
    rn_stage : stage (objs p) (root p) fontPath (map fst (crawl_from (objs p) (root p) (B"Pages" :: fontPath))) rs;
    rn_pos : 0 <= max;
    rn_max : forall k l, map_get rs k = Some l -> exists d, font_dict (objs p) l = Ok d /\ forall f, In f (fonts_in d) -> cf_index f <= max;
    rn_idx : idx = combine (map fst (ord [3] _ fonts)) (map cf_index new);
    rn_has : forall j, has_obj (objs p') j = has_obj (objs p) j;
    rn_same : forall j, (data_of (objs p') j = data_of (objs p) j /\ forall k l s, map_get rs k = Some l -> ~ writes (objs p) new k l j s) \/
              (exists k l s, map_get rs k = Some l /\ writes (objs p) new k l j s /\ data_of (objs p') j = dictwrap s) }.

  Lemma run_facts : exists rs max new, ran rs max new.
  Proof.
    destruct (injectFonts_objects ord p fonts p' idx Fr (td_unique _ _ _ _ T) (tidy_smooth _ _ _ _ T) Run) as (rs & max & St & Fm & Ei & _ & _ & Ho & Da).
    destruct (findMax_ge _ _ _ _ Fm) as (P & M). exists rs, max, (newFonts (ord [3] _ fonts) max). constructor; auto.
    intros k l G. destruct (M k l) as (d & D & _ & Dm); [|eauto]. apply fair_in; auto. apply get_in. auto.
  Qed.

  Variable rs : results.
  Variable max : Z.
  Variable new : list cfont.
  Hypothesis Rn : ran rs max new.
  Notation ids := (flat_map leaves ts).

  Lemma lv_head : forall L, vis L (lv info L) = true.
  Proof. intros L. unfold lv. cbn [vis existsb fst]. rewrite Z.eqb_refl. reflexivity. Qed.

  (** The fonts of a page that has some could be read, and are counted. *)
  Lemma page_counted : forall L fps, In L ids -> place_fonts (info L) = Some fps ->
    exists fs, cfonts_of fps = Ok fs /\ forall f, In f fs -> cf_index f <= max.
  Proof.
    intros L fps HL E.
    assert (Via : forall k l fp, map_get rs k = Some l -> font_dict (objs p) l = fd fp ->
      match fp with NoFont => False | FontIn f | FontAt _ f => f = fps end -> exists fs, cfonts_of fps = Ok fs /\ forall f, In f fs -> cf_index f <= max).
    { intros k l fp G D Ef. destruct (rn_max _ _ _ Rn k l G) as (d & D' & M). rewrite D in D'. destruct fp as [|f|f' f]; [contradiction| |]; subst f; cbn [fd] in D';
      destruct (cfonts_of fps) as [fs| | |]; cbn [bind] in D'; try discriminate; inversion D'; subst; exists fs; auto. }
    destruct (info L) as [|rps fp|r rps fp] eqn:EL; [discriminate| |].
    - destruct (leaf_found _ _ _ _ T rs (rn_stage _ _ _ Rn) L L HL (lv_head L)) as (l & G).
      apply (Via L l fp G); [|destruct fp; cbn in E; congruence]. pose proof (leaf_fd _ _ _ _ T rs (rn_stage _ _ _ Rn) L l HL G) as D. rewrite EL in D. exact D.
    - assert (Vr : vis r (lv info L) = true).
      { unfold lv. rewrite EL. cbn [pv vis existsb fst]. rewrite Z.eqb_refl. cbn [orb]. apply orb_true_r. }
      destruct (leaf_found _ _ _ _ T rs (rn_stage _ _ _ Rn) L r HL Vr) as (l & G).
      apply (Via r l fp G); [|destruct fp; cbn in E; congruence]. eapply res_fd; eauto. apply (rn_stage _ _ _ Rn).
  Qed.

  Lemma keep : forall j ps, (forall k l s, map_get rs k = Some l -> ~ writes (objs p) new k l j s) -> dict (objs p) j ps -> dict (objs p') j ps.
  Proof.
    intros j ps H D. destruct (rn_same _ _ _ Rn j) as [(E & _)|(k & l & s & G & W & _)]; [|exfalso; eapply H; eauto].
    apply (same_dict (objs p)); auto. apply (rn_has _ _ _ Rn).
  Qed.

  (** The object of a font dictionary. *)
  Lemma font_after : forall L f fps, In L ids -> In f (font_objects (info L)) -> place_fonts (info L) = Some fps -> dict (objs p) f fps ->
    Forall (fun q => regular_name (pkey q)) fps ->
    exists fs, cfonts_of fps = Ok fs /\ dict (objs p') f (map fprop (fs ++ new)).
  Proof.
    intros L f fps HL Hf E D F. destruct (page_counted L fps HL E) as (fs & C & _). exists fs. split; [auto|].
    assert (X : inF ts info f) by (exists L; auto). pose proof D as Dd. apply dict_data in Dd. destruct Dd as (Ho & R).
    assert (Wr : exists k l s, map_get rs k = Some l /\ writes (objs p) new k l f s).
    { destruct (info L) as [|rps fp|r rps fp] eqn:EL; [destruct Hf| |]; (destruct fp as [|f0|f' f0]; try contradiction; destruct Hf as [->|[]]).
      - destruct (leaf_found _ _ _ _ T rs (rn_stage _ _ _ Rn) L L HL (lv_head L)) as (l & G). cbn in E. inversion E; subst f0.
        exists L, l, (cfonts_text (fs ++ new)). split; [auto|]. right. exists fs. split; [|auto].
        rewrite (leaf_fd _ _ _ _ T rs (rn_stage _ _ _ Rn) L l HL G), EL. cbn [fd]. rewrite C. reflexivity.
      - assert (Vr : vis r (lv info L) = true).
        { unfold lv. rewrite EL. cbn [pv vis existsb fst]. rewrite Z.eqb_refl. cbn [orb]. apply orb_true_r. }
        destruct (leaf_found _ _ _ _ T rs (rn_stage _ _ _ Rn) L r HL Vr) as (l & G). cbn in E. inversion E; subst f0.
        exists r, l, (cfonts_text (fs ++ new)). split; [auto|]. right. exists fs. split; [|auto].
        rewrite (res_fd _ _ _ _ T rs (rn_stage _ _ _ Rn) L r rps _ l HL EL G). cbn [fd]. rewrite C. reflexivity. }
    destruct Wr as (k & l & s & G & W). destruct (rn_same _ _ _ Rn f) as [(_ & No)|(k' & l' & s' & G' & W' & Da)]; [exfalso; eapply No; eauto|].
    destruct (writes_font _ _ _ _ T rs (rn_stage _ _ _ Rn) new k' l' f s' X G' W') as (fps' & fs' & R' & C' & ->).
    rewrite R in R'. inversion R'; subst fps'. rewrite C in C'. inversion C'; subst fs'.
    apply dict_data. rewrite (rn_has _ _ _ Rn), Da. split; [exact Ho|]. apply fonts_read. apply Forall_app. split; [eapply cfonts_named; eauto|].
    rewrite (rn_new _ _ _ Rn). apply new_named.
  Qed.

  Lemma all_named : forall fps fs, cfonts_of fps = Ok fs -> Forall (fun q => regular_name (pkey q)) fps -> Forall named (fs ++ new).
  Proof. intros fps fs C F. apply Forall_app. split; [eapply cfonts_named; eauto|]. rewrite (rn_new _ _ _ Rn). apply new_named. Qed.

  Lemma vis_res : forall L r rps fp, info L = ResAt r rps fp -> vis r (lv info L) = true.
  Proof. intros L r rps fp EL. unfold lv. rewrite EL. cbn [pv vis existsb fst]. rewrite Z.eqb_refl. cbn [orb]. apply orb_true_r. Qed.

  (** A page with everything in it. *)
  Lemma leaf_after : forall L ps rps fps, In L ids -> info L = ResIn rps (FontIn fps) -> writable_page (objs p) ids info L -> dict (objs p) L ps ->
    exists fs v, cfonts_of fps = Ok fs /\ has_key ps (B"Resources") /\ dict (objs p') L (setPropByKey (B"Resources") v ps) /\ propertyType v = PObject /\
      has_key rps (B"Font") /\ readProperties v = Ok (setPropByKey (B"Font") (norm (fonts_dict (fs ++ new))) rps) /\ Forall named (fs ++ new).
  Proof.
    intros L ps1 rps fps HL EL Wp D1. destruct (page_counted L fps HL) as (fs & C & _); [rewrite EL; reflexivity|].
    destruct (page_of _ _ _ _ T L HL) as (ps & P & NF & _). pose proof P as (D & P2). pose proof (page_all _ _ _ _ P) as (_ & _ & _ & Im).
    rewrite (dict_fun _ _ _ _ D1 D). clear ps1 D1.
    destruct (leaf_found _ _ _ _ T rs (rn_stage _ _ _ Rn) L L HL (lv_head L)) as (l & G).
    pose proof (leaf_fd _ _ _ _ T rs (rn_stage _ _ _ Rn) L l HL G) as Dl. unfold writable_page in Wp. rewrite EL in *.
    destruct Wp as ((o & ps0 & v & V & En & Rw & Sv & O' & Rv) & Srps & Emb & Reg).
    destruct P2 as (v' & O'' & Tv & Rp & F).
    assert (ps0 = ps) by (apply (dict_fun (objs p) L); auto; exists o; auto). subst ps0.
    assert (v' = v) by (eapply once_in; eauto). subst v'.
    assert (Da : data_of (objs p') L = dictwrap (inline_text new fs l)).
    { destruct (rn_same _ _ _ Rn L) as [(_ & No)|(k & l' & s & G' & W & Da)].
      - exfalso. apply (No L l (inline_text new fs l) G). left. exists fs. rewrite Dl. cbn [fd]. rewrite C. auto.
      - destruct (writes_leaf _ _ _ _ T rs (rn_stage _ _ _ Rn) new k l' L s HL G' W) as (-> & r1 & f1 & fs1 & E1 & C1 & ->).
        rewrite EL in E1. inversion E1; subst. rewrite C in C1. inversion C1; subst. rewrite G in G'. inversion G'; subst. exact Da. }
    pose proof (leaf_items _ _ _ _ T rs (rn_stage _ _ _ Rn) L l HL G) as El.
    destruct Im as (a & v1 & b & Ep & Na & Im). rewrite Im in El.
    assert (PI : page_items ps rps l).
    { exists a, (mkProp (B"Resources") v1), b. split; [auto|]. split; [reflexivity|]. split; [auto|]. split; [|exact El].
      apply key_none in NF. rewrite Ep, get_app in NF. destruct (getPropByKey (B"Font") a); congruence. }
    assert (Gp : good ps) by (eapply rewritable_good; eauto).
    assert (Gr : good rps) by (apply (rewritable_good (mkObj 0 v)); auto).
    assert (Ne : Forall nests rps) by (eapply Forall_impl; [|exact Emb]; apply embeds).
    destruct (page_text fs new ps rps l (all_named _ _ C Reg) PI Gp Sv Gr Srps Ne) as (w & R1 & T1 & R2).
    destruct F as (fv0 & Of & _). exists fs, w. split; [auto|]. split; [eapply value_has, once_value; eauto|].
    split; [apply dict_data; rewrite (rn_has _ _ _ Rn), Da; split; [apply dict_data in D; apply D|exact R1]|].
    split; [auto|]. split; [apply Of|]. split; [auto|]. eapply all_named; eauto.
  Qed.

  (** A resource dictionary that is an object of its own. *)
  Lemma res_after : forall L r rps fps, In L ids -> info L = ResAt r rps (FontIn fps) -> writable_page (objs p) ids info L ->
    exists fs n, cfonts_of fps = Ok fs /\ has_key rps (B"Font") /\ (unshared ids info L -> n = 0%nat) /\ good (concat (repeat rps (S n))) /\
      dict (objs p') r (setPropByKey (B"Font") (norm (fonts_dict (fs ++ new))) (concat (repeat rps (S n)))) /\ Forall named (fs ++ new).
  Proof.
    intros L r rps fps HL EL Wp. destruct (page_counted L fps HL) as (fs & C & _); [rewrite EL; reflexivity|].
    destruct (page_of _ _ _ _ T L HL) as (ps & (D & P2) & NF & _). unfold writable_page in Wp. rewrite EL in Wp, P2.
    destruct Wp as ((o & V & Rw) & Srps & Reg & Al). destruct P2 as (v & O' & Iv & Dr & F).
    destruct (leaf_found _ _ _ _ T rs (rn_stage _ _ _ Rn) L r HL (vis_res _ _ _ _ EL)) as (lr & Gr).
    destruct (res_items _ _ _ _ T rs (rn_stage _ _ _ Rn) L r rps _ lr HL EL Gr) as (n & Elr & A).
    assert (A' : unshared ids info L -> n = 0%nat) by (intros U; apply A; intros L' HL' Hr; apply (U r L'); auto; rewrite EL; left; auto). clear A.
    assert (Da : data_of (objs p') r = dictwrap (inline_text new fs lr)).
    { destruct (rn_same _ _ _ Rn r) as [(_ & No)|(k & l' & s & G' & W & Da)].
      - exfalso. apply (No r lr (inline_text new fs lr) Gr). left. exists fs.
        rewrite (res_fd _ _ _ _ T rs (rn_stage _ _ _ Rn) L r rps _ lr HL EL Gr). cbn [fd]. rewrite C. auto.
      - destruct (writes_res _ _ _ _ T rs (rn_stage _ _ _ Rn) new k l' L r rps _ s HL EL G' W) as (-> & f1 & fs1 & E1 & C1 & ->).
        inversion E1; subst f1. rewrite C in C1. inversion C1; subst. rewrite Gr in G'. inversion G'; subst. exact Da. }
    rewrite Elr, strs_repeat in Da. destruct Dr as (o' & V' & En). assert (o' = o) by (apply version_get in V, V'; congruence). subst o'.
    assert (Gd : good rps) by (eapply rewritable_good; eauto).
    assert (Gn : good (concat (repeat rps (S n)))).
    { destruct Al as [Al|Al]; [rewrite (A' Al); cbn [repeat concat]; rewrite app_nil_r; exact Gd|]. apply good_repeat; [exact Gd|].
      eapply Forall_impl; [|exact Al]. cbn beta. intros q Hq. rewrite balanced_bal in Hq. exact Hq. }
    assert (Sn : Forall visible (concat (repeat rps (S n)))).
    { apply Forall_forall. intros q Hq. apply concat_in in Hq. rewrite Forall_forall in Srps. apply Srps. auto. }
    pose proof (res_text fs new _ (all_named _ _ C Reg) Gn Sn) as R1. destruct F as (fv0 & Of & _).
    exists fs, n. split; [auto|]. split; [apply Of|]. split; [exact A'|]. split; [exact Gn|]. split; [|eapply all_named; eauto].
    apply dict_data. rewrite (rn_has _ _ _ Rn), Da. split; [|exact R1].
    assert (dict (objs p) r rps) as X by (exists o; auto). apply dict_data in X. apply X.
  Qed.

  Theorem page_after : forall L fps, In L ids -> writable_page (objs p) ids info L -> place_fonts (info L) = Some fps ->
    exists fs, cfonts_of fps = Ok fs /\ (forall f, In f fs -> cf_index f <= max) /\ page_fonts (objs p') L (map fprop (fs ++ new)).
  Proof.
    intros L fps HL Wp E. destruct (page_counted L fps HL E) as (fs & C & M). exists fs. split; [auto|]. split; [auto|].
    destruct (page_of _ _ _ _ T L HL) as (ps & (D & P2) & NF & _).
    assert (Kp : forall q, dict (objs p) L q -> match info L with ResIn _ (FontIn _) => False | _ => True end -> dict (objs p') L q).
    { intros q Dq Nin. apply keep; [|auto]. intros k l' s G' W. destruct (writes_leaf _ _ _ _ T rs (rn_stage _ _ _ Rn) new k l' L s HL G' W) as (_ & r1 & f1 & fs1 & E1 & _).
      rewrite E1 in Nin. exact Nin. }
    destruct (info L) as [|rps fp|r rps fp] eqn:EL; [discriminate| |].
    - destruct fp as [|f0|f f0]; [discriminate| |]; cbn [place_fonts] in E; inversion E; subst f0; clear E.
      + destruct (leaf_after L ps rps fps HL EL Wp D) as (fs' & w & C' & K1 & D' & T1 & K2 & R2 & Nm). rewrite C in C'. inversion C'; subst fs'.
        destruct (fonts_nested (fs ++ new) Nm) as (R3 & T3).
        exists (setPropByKey (B"Resources") w ps), w, (setPropByKey (B"Font") (norm (fonts_dict (fs ++ new))) rps), (norm (fonts_dict (fs ++ new))).
        split; [exact D'|]. split; [apply value_set_same; auto|]. split; [left; auto|]. split; [apply value_set_same; auto|]. left. auto.
      + destruct P2 as (v & O' & Tv & Rp & F). destruct F as (w & Ow & Iw & Df). unfold writable_page in Wp. rewrite EL in Wp.
        destruct (font_after L f fps HL) as (fs' & C' & Da); [rewrite EL; left; auto|rewrite EL; reflexivity|auto|exact Wp|].
        rewrite C in C'. inversion C'; subst fs'.
        exists ps, v, rps, w. split; [apply Kp; auto|]. split; [apply once_value; auto|]. split; [left; auto|]. split; [apply once_value; auto|].
        right. eauto.
    - destruct fp as [|f0|f f0]; [discriminate| |]; cbn [place_fonts] in E; inversion E; subst f0; clear E.
      + destruct (res_after L r rps fps HL EL Wp) as (fs' & n & C' & (w & K2) & _ & _ & D' & Nm). rewrite C in C'. inversion C'; subst fs'.
        destruct (fonts_nested (fs ++ new) Nm) as (R3 & T3). destruct P2 as (v & O' & Iv & Dr & F).
        exists ps, v, (setPropByKey (B"Font") (norm (fonts_dict (fs ++ new))) (concat (repeat rps (S n)))), (norm (fonts_dict (fs ++ new))).
        split; [apply Kp; auto|]. split; [apply once_value; auto|]. split; [right; eauto|]. split; [|left; auto].
        apply value_set_same. exists w. cbn [repeat concat]. apply in_or_app. left. exact K2.
      + destruct P2 as (v & O' & Iv & Dr & F). destruct F as (w & Ow & Iw & Df). unfold writable_page in Wp. rewrite EL in Wp.
        destruct (font_after L f fps HL) as (fs' & C' & Da); [rewrite EL; left; auto|rewrite EL; reflexivity|auto|exact Wp|].
        rewrite C in C'. inversion C'; subst fs'.
        exists ps, v, rps, w. split; [apply Kp; auto|]. split; [apply once_value; auto|]. split.
        * right. exists r. split; [auto|]. apply keep; [|auto]. intros k l' s G' W.
          destruct (writes_res _ _ _ _ T rs (rn_stage _ _ _ Rn) new k l' L r rps _ s HL EL G' W) as (_ & f1 & fs1 & E1 & _). discriminate.
        * split; [apply once_value; auto|]. right. eauto.
  Qed.
End Run.
