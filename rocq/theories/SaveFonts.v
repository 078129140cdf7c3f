(** Fonts of a document that others are added to. *)
From Coq Require Import String List ZArith Lia Bool Permutation.
From Verif Require Import Base BaseProofs Output Props PropsSpec PropsFlat PropsWrite PropsRead PropsNorm PropsStable PropsRefs PropsFinal PdfData PagesSpec PagesProofs PagesEdit PagesOps
  Squeeze PiecesRead PiecesNest Crawl Inject CrawlProofs CrawlVisits PageCrawl InjectMaps InjectNames InjectItems InjectTexts InjectSpec InjectMarks InjectVisits InjectPages InjectTidy
  InjectFonts InjectFinal ResTexts ImgNames ImgSpec ImgLists ImgCrawl ImgPages ContentSpec ApiIds SaveSpec SaveFrame SaveKeeps.
Open Scope Z_scope.
Open Scope list_scope.

(** The entries [rps] of the resources of page [L] with entries [ps]; they are in
    the object in [rs] if there is one, otherwise in the page. *)
Definition chain (os : list obj) (L : Z) (rs : list Z) (ps : list prop) (v : bytes) (rps : list prop) : Prop :=
  dict os L ps /\ once ps (B"Resources") v /\
  match rs with [] => propertyType v = PObject /\ readProperties v = Ok rps | r :: _ => readObjID v = Ok r /\ dict os r rps end.

Lemma chain_fun : forall os L rs ps v rps ps' v' rps', chain os L rs ps v rps -> chain os L rs ps' v' rps' -> ps' = ps /\ v' = v /\ rps' = rps.
Proof.
  intros os L rs ps v rps ps' v' rps' (D & O' & H) (D' & O'' & H'). assert (ps' = ps) by (eapply dict_fun; eauto). subst ps'. assert (v' = v) by (eapply once_in; eauto). subst v'.
  split; [reflexivity|]. split; [reflexivity|]. destruct rs as [|r rs]; [destruct H, H'; congruence|]. destruct H as (_ & H). destruct H' as (_ & H'). eapply dict_fun; eauto.
Qed.
Lemma page_chain : forall K os L ps rp, page_is K os L ps rp -> rp <> NoRes -> exists v rps, chain os L (res_objects rp) ps v rps /\
  match rp with NoRes => False | ResIn q fp | ResAt _ q fp => q = rps /\ font_is K os rps fp end.
Proof.
  intros K os L ps rp (D & P) Nr. destruct rp as [|rps fp|r rps fp]; [congruence| |]; destruct P as (v & O' & H1 & H2 & H3); exists v, rps; (split; [|auto]); (split; [exact D|]); (split; [exact O'|]); cbn [res_objects]; auto.
Qed.
Lemma offered_is : forall rp, offered rp = place_fonts rp.
Proof. intros [|? []|? ? []]; reflexivity. Qed.

Section Fonts.
  Variables (p0 : pdf) (rid : Z) (ts : list tree) (fi xi : Z -> res_place).
  Hypothesis RD : ready_document p0 rid ts fi xi.
  Notation ids := (flat_map leaves ts).
  Notation top := (root p0 :: rid :: flat_map tree_ids ts).
  Variables (ord : morder) (fonts idx : list (Z * Z)) (p1 : pdf).
  Hypothesis Fr : fair ord.
  Hypothesis Run : injectFonts ord p0 fonts = Ok (p1, idx).
  Let T := rd_fonts _ _ _ _ _ RD.

  (** The objects whose text changes. *)
  Definition font_target (L : Z) (rp : res_place) : list Z :=
    match rp with ResIn _ (FontIn _) => [L] | ResAt r _ (FontIn _) => [r] | ResIn _ (FontAt f _) | ResAt _ _ (FontAt f _) => [f] | _ => [] end.
  Definition touched (j : Z) : Prop := exists L, In L ids /\ In j (font_target L (fi L)).

  Lemma fonts_alike : forall j, touched j \/ alike_at (objs p0) (objs p1) j.
  Proof.
    intros j. destruct (run_facts _ _ _ _ _ _ _ _ Fr T Run) as (rs & max & new & Rn).
    destruct (rn_same _ _ _ _ _ _ _ _ Rn j) as [(E & _)|(k & l & s & G & W & Da)]; [right; split; [apply (rn_has _ _ _ _ _ _ _ _ Rn)|exact E]|]. left.
    destruct W as [(fs & Dd & -> & ->)|(fs & Dd & ->)].
    - destruct (found_cases _ _ _ _ T rs (rn_stage _ _ _ _ _ _ _ _ Rn) k l _ G Dd) as [(rps' & fp' & HL & E & Ef)|(L & rps' & fp' & HL & E & Ef)]; [discriminate| |];
        destruct (fd_inline _ _ Ef) as (fps & -> & C).
      + exists k. split; [exact HL|]. rewrite E. left. reflexivity.
      + exists L. split; [exact HL|]. rewrite E. left. reflexivity.
    - destruct (found_cases _ _ _ _ T rs (rn_stage _ _ _ _ _ _ _ _ Rn) k l _ G Dd) as [(rps' & fp' & HL & E & Ef)|(L & rps' & fp' & HL & E & Ef)]; [discriminate| |].
      + destruct (page_of _ _ _ _ T k HL) as (ps & (_ & P) & _). rewrite E in P. destruct P as (v & _ & _ & _ & F). destruct (fd_object p0 _ _ _ _ F Ef) as (fps & -> & _).
        exists k. split; [exact HL|]. rewrite E. left. reflexivity.
      + destruct (res_of _ _ _ _ T _ _ _ _ HL E) as (_ & _ & F & _). destruct (fd_object p0 _ _ _ _ F Ef) as (fps & -> & _). exists L. split; [exact HL|]. rewrite E. left. reflexivity.
  Qed.
  Lemma keep1 : forall j ps, ~ touched j -> dict (objs p0) j ps -> dict (objs p1) j ps.
  Proof. intros j ps N D. destruct (fonts_alike j) as [X|H]; [contradiction|]. apply (same_entries (objs p0)); [apply alike_same; exact H|exact D]. Qed.

  Lemma target_cases : forall L j, In j (font_target L (fi L)) -> (j = L /\ exists rps fps, fi L = ResIn rps (FontIn fps)) \/
    (exists rps fps, fi L = ResAt j rps (FontIn fps)) \/ In j (font_objects (fi L)).
  Proof.
    intros L j H. destruct (fi L) as [|rps fp|r rps fp] eqn:E; [destruct H| |]; destruct fp as [|fps|f fps]; try destruct H as [<-|[]]; try destruct H.
    - left. split; [reflexivity|]. eauto.
    - right. right. left. reflexivity.
    - right. left. eauto.
    - right. right. left. reflexivity.
  Qed.
  Lemma f_off : forall L f, In L ids -> In f (font_objects (fi L)) -> ~ In f top.
  Proof. intros L f HL H. apply (F_tree _ _ _ _ T). exists L. auto. Qed.
  Lemma r_off : forall L r, In L ids -> In r (res_objects (fi L)) -> ~ In r top.
  Proof. intros L r HL H. apply (R_tree _ _ _ _ T). exists L. auto. Qed.
  Lemma leaf_top : forall L, In L ids -> In L top.
  Proof. apply (leaf_in' _ _ _ _ T). Qed.
  Lemma touched_top : forall j, In j top -> touched j -> In j ids /\ exists rps fps, fi j = ResIn rps (FontIn fps).
  Proof.
    intros j Hj (L & HL & H). destruct (target_cases L j H) as [(-> & E)|[(rps & fps & E)|H']]; [auto| |].
    - exfalso. apply (r_off L j HL); [rewrite E; left; reflexivity|exact Hj].
    - exfalso. exact (f_off L j HL H' Hj).
  Qed.
  Lemma touched_res : forall L r rps fp, In L ids -> fi L = ResAt r rps fp -> touched r -> exists fps, fp = FontIn fps.
  Proof.
    intros L r rps fp HL E (L' & HL' & H). destruct (target_cases L' r H) as [(-> & _)|[(rps' & fps & E')|H']].
    - exfalso. apply (r_off L L' HL); [rewrite E; left; reflexivity|apply leaf_top; exact HL'].
    - destruct (res_of _ _ _ _ T _ _ _ _ HL E) as (_ & R1 & F1 & _). destruct (res_of _ _ _ _ T _ _ _ _ HL' E') as (_ & R2 & F2 & _).
      assert (rps' = rps) by congruence. subst rps'. destruct F2 as (v & Al & Tv & Rv). destruct fp as [|fps'|f fps']; [exfalso; apply F1, Al|eauto|].
      exfalso. destruct F1 as (w & Ow & Iw & _). assert (w = v) by (eapply value_fun; [apply once_value; exact Ow|apply alike_value; exact Al]). subst w. apply type_ref in Iw. congruence.
    - exfalso. apply (R_F _ _ _ _ T r); [exists L; split; [exact HL|rewrite E; left; reflexivity]|exists L'; auto].
  Qed.
  Lemma touched_dict : forall j, touched j -> exists ps, dict (objs p0) j ps.
  Proof.
    intros j (L & HL & H). destruct (page_of _ _ _ _ T L HL) as (ps & (D & P) & _). destruct (target_cases L j H) as [(-> & _)|[(rps & fps & E)|H']]; [eauto| |].
    - rewrite E in P. destruct P as (v & _ & _ & D' & _). eauto.
    - destruct (fi L) as [|rps fp|r rps fp]; [destruct H'| |]; (destruct fp as [|fps|f fps]; try destruct H'; [subst j|contradiction]); destruct P as (v & _ & _ & _ & (u & _ & _ & D')); eauto.
  Qed.

  (** A page with its resources in it, and the value they have then. *)
  Lemma leaf_at : forall rs max new, ran ord p0 p1 fonts idx rs max new -> forall L ps rps fps, In L ids -> fi L = ResIn rps (FontIn fps) -> writable_page (objs p0) ids fi L -> dict (objs p0) L ps ->
    exists fs, cfonts_of fps = Ok fs /\ has_key rps (B"Font") /\ Forall named (fs ++ new) /\
      let Y := spset (B"Font") [32] (fonts_dict (fs ++ new)) [10; 10] rps in nestable Y /\
      dict (objs p1) L (setPropByKey (B"Resources") (norm (dtext [] Y)) ps) /\ readProperties (norm (dtext [] Y)) = Ok (setPropByKey (B"Font") (norm (fonts_dict (fs ++ new))) rps).
  Proof.
    intros rs max new Rn L ps1 rps fps HL EL Wp D1. destruct (page_counted _ _ _ _ _ _ _ _ T _ _ _ Rn L fps HL) as (fs & C & _); [rewrite EL; reflexivity|].
    destruct (page_of _ _ _ _ T L HL) as (ps & P & NF & _). pose proof P as (D & P2). pose proof (page_all _ _ _ _ P) as (_ & _ & _ & Im).
    rewrite (dict_fun _ _ _ _ D1 D). clear ps1 D1. pose proof (rn_stage _ _ _ _ _ _ _ _ Rn) as St.
    destruct (leaf_found _ _ _ _ T rs St L L HL (lv_head fi L)) as (l & G).
    pose proof (leaf_fd _ _ _ _ T rs St L l HL G) as Dl. unfold writable_page in Wp. rewrite EL in *.
    destruct Wp as ((o & ps0 & v & V & En & Rw & Sv & O' & Rv) & Srps & Emb & Reg).
    destruct P2 as (v' & O'' & Tv & Rp & F).
    assert (ps0 = ps) by (apply (dict_fun (objs p0) L); auto; exists o; auto). subst ps0.
    assert (v' = v) by (eapply once_in; eauto). subst v'.
    assert (Da : data_of (objs p1) L = dictwrap (inline_text new fs l)).
    { destruct (rn_same _ _ _ _ _ _ _ _ Rn L) as [(_ & No)|(k & l' & s & G' & W & Da)].
      - exfalso. apply (No L l (inline_text new fs l) G). left. exists fs. rewrite Dl. cbn [fd]. rewrite C. auto.
      - destruct (writes_leaf _ _ _ _ T rs St new k l' L s HL G' W) as (-> & r1 & f1 & fs1 & E1 & C1 & ->).
        rewrite EL in E1. inversion E1; subst. rewrite C in C1. inversion C1; subst. rewrite G in G'. inversion G'; subst. exact Da. }
    pose proof (leaf_items _ _ _ _ T rs St L l HL G) as El.
    destruct Im as (a & v1 & b & Ep & Na & Im). rewrite Im in El.
    assert (PI : kpage_items (B"Font") ps rps l).
    { exists a, (mkProp (B"Resources") v1), b. split; [auto|]. split; [reflexivity|]. split; [auto|]. split; [|exact El].
      apply key_none in NF. rewrite Ep, get_app in NF. destruct (getPropByKey (B"Font") a); congruence. }
    assert (Gp : good ps) by (eapply rewritable_good; eauto).
    assert (Gr : good rps) by (apply (rewritable_good (mkObj 0 v)); auto).
    assert (Ne : Forall nests rps) by (eapply Forall_impl; [|exact Emb]; apply embeds).
    assert (Nm : Forall named (fs ++ new)) by (eapply all_named; eauto).
    assert (W1 : wsp [10]) by (apply ws1; reflexivity).
    destruct (k_page_at (B"Font") [10] (map fpiece (fs ++ new)) W1 (fonts_nestable _ Nm) ps rps l PI Gp Sv Gr Srps Ne) as (NY & EY & R1). fold (fonts_dict (fs ++ new)) in NY, EY, R1.
    destruct F as (fv0 & Of & _). exists fs. split; [auto|]. split; [apply Of|]. split; [exact Nm|]. cbv zeta. split; [exact NY|]. split.
    - apply dict_data. rewrite (rn_has _ _ _ _ _ _ _ _ Rn), Da. split; [apply dict_data in D; apply D|]. rewrite <- R1. unfold inline_text. do 3 f_equal. unfold fonts_dict, dtext. rewrite cfonts_ptext, <- !app_assoc. reflexivity.
    - rewrite (k_read [] _ ltac:(constructor) NY). f_equal. exact EY.
  Qed.

  (** The fonts [fps] of a page and those it has then. *)
  Record fonts_added (fps fps' : list prop) : Prop := {
    fa_new : forall h i, In (h, i) idx -> exists id, In (h, id) fonts /\ (is_int id -> font_named fps' (B"F" ++ itoa i) id);
    fa_old : Forall (fun x => numbered_name (pkey x)) fps -> forall k n, font_named fps k n -> font_named fps' k n }.

  Lemma fonts_perm : Permutation (map fst idx) (map fst fonts).
  Proof. destruct (run_facts _ _ _ _ _ _ _ _ Fr T Run) as (rs & max & new & Rn). apply (idx_facts _ _ _ _ _ Fr rs max new Rn). Qed.

  Definition fonts_at (L : Z) (rps1 fps fps' : list prop) : Prop := exists w, value rps1 (B"Font") w /\
    ((propertyType w = PObject /\ readProperties w = Ok fps') \/ exists f, In f (font_objects (fi L)) /\ readObjID w = Ok f /\ dict (objs p1) f fps') /\ fonts_added fps fps'.

  Lemma fonts_page : forall L ps v rps, In L ids -> fi L <> NoRes -> chain (objs p0) L (res_objects (fi L)) ps v rps ->
    exists ps1 v1 rps1, chain (objs p1) L (res_objects (fi L)) ps1 v1 rps1 /\ keeps (B"Resources") ps ps1 /\ contents_kept ps ps1 /\ with_resources ps ps1 /\
      keeps (B"Font") rps rps1 /\ (well_bracketed v rps -> well_bracketed v1 rps1) /\
      forall fps, offered (fi L) = Some fps -> exists fps', fonts_at L rps1 fps fps'.
  Proof.
    intros L ps v rps HL Nr Ch. destruct (page_of _ _ _ _ T L HL) as (ps0 & Pg & _ & _ & Mt). destruct (page_chain _ _ _ _ _ Pg Nr) as (v0 & rps0 & Ch0 & Fi).
    destruct (chain_fun _ _ _ _ _ _ _ _ _ Ch Ch0) as (-> & -> & ->). clear Ch0.
    destruct (run_facts _ _ _ _ _ _ _ _ Fr T Run) as (rs & max & new & Rn).
    destruct (idx_facts _ _ _ _ _ Fr rs max new Rn) as (_ & _ & Nn & Nm & I3). pose proof (rn_pos _ _ _ _ _ _ _ _ Rn) as Pos.
    assert (Add : forall fps fs, offered (fi L) = Some fps -> cfonts_of fps = Ok fs -> fonts_added fps (map fprop (fs ++ new))).
    { intros fps fs Of C. rewrite offered_is in Of. destruct (page_counted _ _ _ _ _ _ _ _ T _ _ _ Rn L fps HL Of) as (fs' & C' & M). rewrite C in C'. injection C' as <-. constructor.
      - intros h i Hin. destruct (I3 h i Hin) as (Lt & f & Hf & Ef & Ho). exists (cf_obj f). split; [auto|]. intros Hint.
        destruct (Nm f Hf) as (En & _). rewrite Ef in En. exists (refText (cf_obj f)). split.
        + rewrite map_app. apply value_app_r; [|rewrite <- En; apply find_unique; auto].
          rewrite keys_has, fprop_keys. intros X. apply in_map_iff in X. destruct X as (g & E & Hg).
          eapply (old_not_new fps fs g i); eauto; [lia|]. specialize (M g Hg). lia.
        + apply ref_roundtrip. exact Hint.
      - intros Nu k n (u & V & I'). destruct (numbered_all fps fs C Nu) as (E & R). exists (refText n). split.
        + rewrite map_app. apply value_app_l. eapply value_kept; eauto.
        + apply readObjID_ref. eapply read_range; eauto. }
    assert (Mark : forall fps fs, offered (fi L) = Some fps -> cfonts_of fps = Ok fs -> no_occ Mk (fonts_dict (fs ++ new)) /\ no_occ Mk (norm (fonts_dict (fs ++ new)))).
    { intros fps fs Of C. assert (X : no_occ Wd (fonts_dict (fs ++ new))).
      { apply fonts_no. apply Forall_app. split.
        - eapply old_no; [exact C|]. intros q a b Hq. apply (rd_names _ _ _ _ _ RD L fps q a b HL Of Hq).
        - rewrite (rn_new _ _ _ _ _ _ _ _ Rn). apply new_no. }
      split; [apply no_slash; exact X|apply no_slash, no_norm; exact X]. }
    assert (W1 : wsp [10]) by (apply ws1; reflexivity).
    (* nothing but perhaps a font object is written *)
    assert (Still : ~ touched L -> (forall r, In r (res_objects (fi L)) -> ~ touched r) -> (forall fps, offered (fi L) = Some fps -> exists fps', fonts_at L rps fps fps') ->
      exists ps1 v1 rps1, chain (objs p1) L (res_objects (fi L)) ps1 v1 rps1 /\ keeps (B"Resources") ps ps1 /\ contents_kept ps ps1 /\ with_resources ps ps1 /\
        keeps (B"Font") rps rps1 /\ (well_bracketed v rps -> well_bracketed v1 rps1) /\ forall fps, offered (fi L) = Some fps -> exists fps', fonts_at L rps1 fps fps').
    { intros N1 N2 Hf. exists ps, v, rps. split.
      - destruct Ch as (D & O' & H). split; [apply keep1; auto|]. split; [exact O'|]. destruct (res_objects (fi L)) as [|r l]; [exact H|]. destruct H as (I' & D'). split; [exact I'|]. apply keep1; [|exact D'].
        apply N2. left. reflexivity.
      - split; [apply keeps_refl|]. split; [apply contents_refl|]. split; [apply with_refl|]. split; [apply keeps_refl|]. auto. }
    assert (NL : (forall rps' fps, fi L <> ResIn rps' (FontIn fps)) -> ~ touched L).
    { intros H Tc. destruct (touched_top L (leaf_top L HL) Tc) as (_ & rps' & fps & E). exact (H rps' fps E). }
    assert (FontAt' : forall f fps, (exists rps', fi L = ResIn rps' (FontAt f fps) \/ exists r, fi L = ResAt r rps' (FontAt f fps)) -> font_is (B"Font") (objs p0) rps (FontAt f fps) ->
      forall fps1, offered (fi L) = Some fps1 -> exists fps', fonts_at L rps fps1 fps').
    { intros f fps Ef (u & Ou & Iu & Df) fps1 Of. assert (Hf : In f (font_objects (fi L))) by (destruct Ef as (rps' & [E|(r & E)]); rewrite E; left; reflexivity).
      assert (fps1 = fps) by (destruct Ef as (rps' & [E|(r & E)]); rewrite E in Of; cbn [offered] in Of; congruence). subst fps1.
      assert (Wp : writable_page (objs p0) ids fi L) by (apply (rd_write _ _ _ _ _ RD L HL); congruence).
      assert (Reg : Forall (fun q => regular_name (pkey q)) fps) by (unfold writable_page in Wp; destruct Ef as (rps' & [E|(r & E)]); rewrite E in Wp; exact Wp).
      pose proof Of as Of'. rewrite offered_is in Of'. destruct (font_after _ _ _ _ _ _ _ _ T _ _ _ Rn L f fps HL Hf Of' Df Reg) as (fs & C & Da).
      exists (map fprop (fs ++ new)), u. split; [apply once_value; exact Ou|]. split; [right; exists f; auto|]. apply Add; auto. }
    destruct (fi L) as [|rp fp|r rp fp] eqn:EL; [congruence| |]; destruct Fi as (-> & Fi).
    - destruct fp as [|fps|f fps].
      + apply Still; [apply NL; discriminate|intros r []|discriminate].
      + assert (Of : offered (ResIn rps (FontIn fps)) = Some fps) by reflexivity.
        assert (Wp : writable_page (objs p0) ids fi L) by (apply (rd_write _ _ _ _ _ RD L HL); rewrite EL; discriminate).
        destruct Ch as (D & Ov & Tv & Rv).
        destruct (leaf_at rs max new Rn L ps rps fps HL EL Wp D) as (fs & C & Kf & Nmd & NY & D' & R'). destruct (Mark fps fs Of C) as (M1 & M2). destruct (fonts_nested (fs ++ new) Nmd) as (R3 & T3).
        set (Y := spset (B"Font") [32] (fonts_dict (fs ++ new)) [10; 10] rps) in *. set (w := norm (fonts_dict (fs ++ new))) in *.
        assert (W0 : wsp []) by constructor.
        assert (MY : no_occ Mk (norm (dtext [] Y))).
        { apply mark_norm, dtext_mark; [exact W0|]. apply spset_clear; [apply solid_pages| |exact M1]. apply quiet_iff. exact Mt. }
        assert (Nice1 : nice (norm (dtext [] Y))) by (exists [], Y; auto).
        assert (Nice2 : nice w) by (exists [10], (map fpiece (fs ++ new)); split; [exact W1|]; split; [apply fonts_nestable; exact Nmd|reflexivity]).
        assert (K1 : keeps (B"Resources") ps (setPropByKey (B"Resources") (norm (dtext [] Y)) ps)).
        { pose proof (keeps_set (B"Resources") (norm (dtext [] Y)) 0 ps Nice1 MY) as H. cbn [repeat concat] in H. rewrite app_nil_r in H. apply H. auto. }
        assert (K2 : keeps (B"Font") rps (setPropByKey (B"Font") w rps)).
        { pose proof (keeps_set (B"Font") w 0 rps Nice2 M2) as H. cbn [repeat concat] in H. rewrite app_nil_r in H. apply H. auto. }
        exists (setPropByKey (B"Resources") (norm (dtext [] Y)) ps), (norm (dtext [] Y)), (setPropByKey (B"Font") w rps). split.
        { split; [exact D'|]. split; [eapply set_once; exact Ov|]. cbn [res_objects]. split; [apply k_type; auto|exact R']. }
        split; [exact K1|]. split; [apply contents_set|]. split; [apply with_set|]. split; [exact K2|]. split.
        { intros (_ & _ & _ & _ & _ & Bl). apply nice_brackets; [exact W0|exact NY|]. apply (kp_bal _ _ _ K2). exact Bl. }
        intros fps1 Of1. cbn [offered] in Of1. injection Of1 as <-. exists (map fprop (fs ++ new)), w. split; [apply value_set_same; exact Kf|]. split; [left; auto|]. apply Add; auto.
      + apply Still; [apply NL; discriminate|intros r []|]. apply (FontAt' f fps); [exists rps; auto|exact Fi].
    - assert (NLr : ~ touched L) by (apply NL; discriminate). destruct fp as [|fps|f fps].
      + apply Still; [exact NLr| |discriminate]. intros r' [<-|[]] Tc. destruct (touched_res L r rps NoFont HL EL Tc) as (fps & E). discriminate.
      + assert (Of : offered (ResAt r rps (FontIn fps)) = Some fps) by reflexivity.
        assert (Wp : writable_page (objs p0) ids fi L) by (apply (rd_write _ _ _ _ _ RD L HL); rewrite EL; discriminate).
        destruct Ch as (D & Ov & Iv & Dr).
        destruct (res_after _ _ _ _ _ _ _ _ T _ _ _ Rn L r rps fps HL EL Wp) as (fs & n & C & Kf & _ & Gn & D' & Nmd). destruct (Mark fps fs Of C) as (M1 & M2). destruct (fonts_nested (fs ++ new) Nmd) as (R3 & T3).
        set (w := norm (fonts_dict (fs ++ new))) in *.
        assert (Nice2 : nice w) by (exists [10], (map fpiece (fs ++ new)); split; [exact W1|]; split; [apply fonts_nestable; exact Nmd|reflexivity]).
        assert (K2 : keeps (B"Font") rps (setPropByKey (B"Font") w (concat (repeat rps (Datatypes.S n))))) by (apply keeps_set; auto).
        exists ps, v, (setPropByKey (B"Font") w (concat (repeat rps (Datatypes.S n)))). split.
        { split; [apply keep1; auto|]. split; [exact Ov|]. cbn [res_objects]. auto. }
        split; [apply keeps_refl|]. split; [apply contents_refl|]. split; [apply with_refl|]. split; [exact K2|]. split.
        { intros (t & E1 & E2 & E3 & E4 & Bl). exists t. split; [exact E1|]. split; [exact E2|]. split; [exact E3|]. split; [exact E4|]. apply (kp_bal _ _ _ K2). exact Bl. }
        intros fps1 Of1. cbn [offered] in Of1. injection Of1 as <-. exists (map fprop (fs ++ new)), w. split; [|split; [left; auto|apply Add; auto]].
        apply value_set_same. destruct Kf as (u & Hu). exists u. cbn [repeat concat]. apply in_or_app. auto.
      + apply Still; [exact NLr| |].
        * intros r' [<-|[]] Tc. destruct (touched_res L r rps (FontAt f fps) HL EL Tc) as (fps' & E). discriminate.
        * apply (FontAt' f fps); [exists rps; eauto|exact Fi].
  Qed.

  (** Pages without resources stay as they are. *)
  Lemma fonts_bare : forall L ps, In L ids -> fi L = NoRes -> dict (objs p0) L ps -> dict (objs p1) L ps.
  Proof.
    intros L ps HL E D. apply keep1; [|exact D]. intros Tc. destruct (touched_top L (leaf_top L HL) Tc) as (_ & rps & fps & E'). congruence.
  Qed.
End Fonts.
