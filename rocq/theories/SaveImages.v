(** Images of a document that fonts were added to before. *)
From Coq Require Import String List ZArith Lia Bool Permutation.
From Verif Require Import Base BaseProofs Output Props PropsSpec PropsNorm PropsStable PdfData PagesSpec PagesProofs PagesEdit PagesOps
  Crawl Inject CrawlProofs InjectTexts InjectSpec InjectVisits InjectPages InjectFonts InjectFinal InjectCheck ImgNames ImgSpec ImgLists ImgCrawl ImgPages ImgEmbed ContentSpec ApiIds
  SaveSpec SaveFrame SaveKeeps SaveFonts.
Open Scope Z_scope.
Open Scope list_scope.

(** The object the resources of page [L] are in. *)
Definition holder (L : Z) (rp : res_place) : list Z := match rp with NoRes => [] | ResIn _ _ => [L] | ResAt r _ _ => [r] end.
(** The entries of the resources. *)
Definition entries_at (os : list obj) (L : Z) (rs : list Z) : list prop :=
  match rs with
  | r :: _ => props_of os r
  | [] => match getPropByKey (B"Resources") (props_of os L) with
          | Some q => match readProperties (pval q) with Ok ps => ps | _ => [] end
          | None => [] end
  end.
Definition other_entries (rp : res_place) (q : list prop) : res_place := match rp with NoRes => NoRes | ResIn _ fp => ResIn q fp | ResAt r _ fp => ResAt r q fp end.

Lemma dict_props : forall os id ps, dict os id ps -> props_of os id = ps.
Proof. intros os id ps (o & V & E). unfold props_of, propsb. apply version_get in V. rewrite V. unfold entries in E. rewrite E. reflexivity. Qed.
Lemma chain_entries : forall os L rs ps v rps, chain os L rs ps v rps -> entries_at os L rs = rps.
Proof.
  intros os L rs ps v rps (D & O' & H). destruct rs as [|r rs]; cbn [entries_at]; [|destruct H; apply dict_props; assumption].
  rewrite (dict_props _ _ _ D). apply once_value in O'. apply value_iff in O'. rewrite O'. cbn [pval]. destruct H as (_ & ->). reflexivity.
Qed.
Lemma copies_one : forall (ps : list prop), concat (repeat ps 1) = ps.
Proof. intros ps. cbn. apply app_nil_r. Qed.
Lemma named_nil : forall k n, ~ font_named [] k n.
Proof. intros k n (v & (a & c & E & _) & _). destruct a; discriminate. Qed.

Section Images.
  Variables (p0 : pdf) (rid : Z) (ts : list tree) (fi xi : Z -> res_place).
  Hypothesis RD : ready_document p0 rid ts fi xi.
  Notation ids := (flat_map leaves ts).
  Notation top := (root p0 :: rid :: flat_map tree_ids ts).
  Variables (ord : morder) (fonts idx : list (Z * Z)) (p1 : pdf).
  Hypothesis Fr : fair ord.
  Hypothesis Run : injectFonts ord p0 fonts = Ok (p1, idx).
  Variables (more : list obj) (imgs : list Z) (p4 : pdf) (names : list (bytes * Z)).
  Notation p3 := (mkPdf (root p1) (objs p1 ++ more)).
  Hypothesis N3 : NoDup (map oid (objs p1 ++ more)).
  Hypothesis Run2 : injectImgs ord p3 imgs = Ok (p4, names).
  Hypothesis Fi : Forall is_int imgs.
  Let TF := rd_fonts _ _ _ _ _ RD.
  Let TX := rd_images _ _ _ _ _ RD.

  Lemma root1 : root p1 = root p0.
  Proof. apply (injectFonts_ids _ _ _ _ _ Run). Qed.
  Lemma same13 : forall j, same_at (objs p1) (objs p3) j.
  Proof. intros j. cbn [objs]. apply same_added. exact N3. Qed.
  Lemma same03 : forall j, touched ts fi j \/ same_at (objs p0) (objs p3) j.
  Proof.
    intros j. destruct (fonts_alike p0 rid ts fi xi RD ord fonts idx p1 Fr Run j) as [H|H]; [left; exact H|]. right.
    eapply same_trans; [apply alike_same; exact H|apply same13].
  Qed.
  Lemma dict13 : forall j ps, dict (objs p1) j ps -> dict (objs p3) j ps.
  Proof. intros j ps. apply same_entries, same13. Qed.
  Lemma chain13 : forall L rs ps v rps, chain (objs p1) L rs ps v rps -> chain (objs p3) L rs ps v rps.
  Proof. intros L rs ps v rps (D & O' & H). split; [apply dict13; exact D|]. split; [exact O'|]. destruct rs; [exact H|]. destruct H. split; [assumption|apply dict13; assumption]. Qed.
  Lemma leafX : forall L, In L ids -> In L top.
  Proof. apply (leaf_in' _ _ _ _ TX). Qed.

  (** The resources of a page are in the same place for fonts and images. *)
  Lemma same_place : forall L, In L ids -> res_objects (xi L) = res_objects (fi L) /\ holder L (xi L) = holder L (fi L) /\ (xi L = NoRes <-> fi L = NoRes).
  Proof.
    intros L HL. destruct (page_of _ _ _ _ TF L HL) as (ps & P & _). destruct (page_of _ _ _ _ TX L HL) as (ps' & P' & _). destruct (same_res _ _ _ _ _ _ _ _ P P') as (_ & E).
    destruct (fi L), (xi L); try contradiction; cbn [res_objects holder].
    - split; [reflexivity|]. split; [reflexivity|]. tauto.
    - split; [reflexivity|]. split; [reflexivity|]. split; discriminate.
    - destruct E as (-> & _). split; [reflexivity|]. split; [reflexivity|]. split; discriminate.
  Qed.
  Lemma top_kept : forall j, In j top -> (In j ids -> forall rps fp, xi j <> ResIn rps fp) -> same_at (objs p0) (objs p3) j.
  Proof.
    intros j Hj N. destruct (same03 j) as [H|H]; [|exact H]. exfalso. destruct (touched_top _ _ _ _ _ RD _ Hj H) as (HL & rps & fps & E).
    destruct (page_of _ _ _ _ TF j HL) as (ps & P & _). destruct (page_of _ _ _ _ TX j HL) as (ps' & P' & _). destruct (same_res _ _ _ _ _ _ _ _ P P') as (_ & M). rewrite E in M.
    destruct (xi j) as [|rps' fp|] eqn:Ex; try contradiction. exact (N HL rps' fp eq_refl).
  Qed.

  (** No image dictionary is an object of its own. *)
  Lemma no_objects : forall L, In L ids -> match xi L with ResIn _ (FontAt _ _) | ResAt _ _ (FontAt _ _) => False | _ => True end.
  Proof.
    intros L HL. destruct (rd_pictures _ _ _ _ _ RD) as [r rps xps Sh _ _ _|No _ _|In1 _ _|Nw _].
    - destruct (Sh L HL) as [E|E]; rewrite E; exact Logic.I.
    - specialize (No L HL). destruct (xi L) as [|? []|? ? []]; auto.
    - specialize (In1 L HL). destruct (xi L) as [|? []|? ? []]; auto.
    - specialize (Nw L HL). destruct (xi L) as [|? []|? ? []]; auto.
  Qed.

  (** A page before and after the fonts. *)
  Record page3 (L : Z) (ps0 : list prop) (v0 : bytes) (rps0 ps : list prop) (v : bytes) (rps : list prop) : Prop := {
    p3_before : chain (objs p0) L (res_objects (xi L)) ps0 v0 rps0;
    p3_place : match xi L with NoRes => False | ResIn q fp | ResAt _ q fp => q = rps0 /\ font_is XO (objs p0) rps0 fp end;
    p3_plain : ~ has_key ps0 XO;
    p3_quiet : ~ mentions ps0 (B"/Pages") /\ ~ mentions rps0 (B"/Pages");
    p3_after : chain (objs p3) L (res_objects (xi L)) ps v rps;
    p3_page : keeps (B"Resources") ps0 ps;
    p3_contents : contents_kept ps0 ps;
    p3_with : with_resources ps0 ps;
    p3_res : keeps (B"Font") rps0 rps;
    p3_brackets : well_bracketed v0 rps0 -> well_bracketed v rps;
    p3_fonts : forall fps, offered (fi L) = Some fps -> exists fps', fonts_at fi fonts idx p1 L rps fps fps' }.
  Lemma page_three : forall L, In L ids -> xi L <> NoRes -> exists ps0 v0 rps0 ps v rps, page3 L ps0 v0 rps0 ps v rps.
  Proof.
    intros L HL Nr. destruct (page_of _ _ _ _ TX L HL) as (ps0 & P & N1 & N2 & N4). destruct (page_chain _ _ _ _ _ P Nr) as (v0 & rps0 & Ch & M).
    destruct (same_place L HL) as (Er & _ & En). assert (Nf : fi L <> NoRes) by tauto. pose proof Ch as Ch'. rewrite Er in Ch'.
    destruct (fonts_page _ _ _ _ _ RD _ _ _ _ Fr Run L ps0 v0 rps0 HL Nf Ch') as (ps & v & rps & C1 & K1 & Ck & Wr & K2 & Br & Fn).
    exists ps0, v0, rps0, ps, v, rps. constructor; auto.
    - split; [exact N2|]. destruct (xi L); [congruence| |]; destruct M as (-> & _); exact N4.
    - rewrite Er. apply chain13. exact C1.
  Qed.

  Definition xi1 (L : Z) : res_place := other_entries (xi L) (entries_at (objs p3) L (res_objects (xi L))).
  Lemma xi1_is : forall L ps0 v0 rps0 ps v rps, page3 L ps0 v0 rps0 ps v rps -> xi1 L = other_entries (xi L) rps.
  Proof. intros L ps0 v0 rps0 ps v rps P. unfold xi1. rewrite (chain_entries _ _ _ _ _ _ (p3_after _ _ _ _ _ _ _ P)). reflexivity. Qed.
  Lemma xi1_res : forall L, res_objects (xi1 L) = res_objects (xi L).
  Proof. intros L. unfold xi1. destruct (xi L); reflexivity. Qed.
  Lemma tidy3 : tidy XO p3 rid ts xi1.
  Proof.
    apply (tidy_same XO p0 p3 rid ts xi).
    - exact TX.
    - apply root1.
    - exact N3.
    - intros j Hj Nl. apply top_kept; [exact Hj|]. intros H. contradiction.
    - intros L HL. split; [apply xi1_res|]. unfold xi1. destruct (xi L); intros x Hx; exact Hx.
    - intros L HL. destruct (xi L) as [|q fp|r q fp] eqn:Ex.
      + destruct (page_of _ _ _ _ TX L HL) as (ps & (D & P) & N1 & N2 & _). exists ps. unfold xi1. rewrite Ex in *. cbn [other_entries] in *. split; [|auto]. split; [|exact P].
        apply (same_entries (objs p0)); [|exact D]. apply top_kept; [apply leafX; exact HL|]. congruence.
      + assert (Nr : xi L <> NoRes) by congruence. destruct (page_three L HL Nr) as (ps0 & v0 & rps0 & ps & v & rps & P).
        rewrite (xi1_is _ _ _ _ _ _ _ P), Ex. cbn [other_entries]. pose proof (p3_place _ _ _ _ _ _ _ P) as M. pose proof (p3_after _ _ _ _ _ _ _ P) as (D & Ov & H). pose proof (no_objects L HL) as Nf.
        rewrite Ex in M, Nf, H. cbn [res_objects] in H. destruct M as (-> & F). destruct H as (Tv & Rv). pose proof (p3_quiet _ _ _ _ _ _ _ P) as (Q1 & Q2). exists ps. split; [|split; [|split]].
        * split; [exact D|]. exists v. split; [exact Ov|]. split; [exact Tv|]. split; [exact Rv|]. destruct fp as [|xps|]; [| |contradiction].
          -- intros K. apply F. apply (kp_has _ _ _ (p3_res _ _ _ _ _ _ _ P)). exact K.
          -- destruct F as (xv & Al & X1 & X2). exists xv. split; [|auto]. apply (kp_alike _ _ _ (p3_res _ _ _ _ _ _ _ P)); [discriminate|exact Al].
        * intros K. apply (p3_plain _ _ _ _ _ _ _ P). apply (kp_has _ _ _ (p3_page _ _ _ _ _ _ _ P)). exact K.
        * apply (kp_quiet _ _ _ (p3_page _ _ _ _ _ _ _ P)). exact Q1.
        * apply (kp_quiet _ _ _ (p3_res _ _ _ _ _ _ _ P)). exact Q2.
      + assert (Nr : xi L <> NoRes) by congruence. destruct (page_three L HL Nr) as (ps0 & v0 & rps0 & ps & v & rps & P).
        rewrite (xi1_is _ _ _ _ _ _ _ P), Ex. cbn [other_entries]. pose proof (p3_place _ _ _ _ _ _ _ P) as M. pose proof (p3_after _ _ _ _ _ _ _ P) as (D & Ov & H). pose proof (no_objects L HL) as Nf.
        rewrite Ex in M, Nf, H. cbn [res_objects] in H. destruct M as (-> & F). destruct H as (Iv & Dr). pose proof (p3_quiet _ _ _ _ _ _ _ P) as (Q1 & Q2). exists ps. split; [|split; [|split]].
        * split; [exact D|]. exists v. split; [exact Ov|]. split; [exact Iv|]. split; [exact Dr|]. destruct fp as [|xps|]; [| |contradiction].
          -- intros K. apply F. apply (kp_has _ _ _ (p3_res _ _ _ _ _ _ _ P)). exact K.
          -- destruct F as (xv & Al & X1 & X2). exists xv. split; [|auto]. apply (kp_alike _ _ _ (p3_res _ _ _ _ _ _ _ P)); [discriminate|exact Al].
        * intros K. apply (p3_plain _ _ _ _ _ _ _ P). apply (kp_has _ _ _ (p3_page _ _ _ _ _ _ _ P)). exact K.
        * apply (kp_quiet _ _ _ (p3_page _ _ _ _ _ _ _ P)). exact Q1.
        * apply (kp_quiet _ _ _ (p3_res _ _ _ _ _ _ _ P)). exact Q2.
  Qed.
  Lemma top3 : bare_top p3 rid.
  Proof.
    intros id ps H D K. change (root p3) with (root p1) in H. rewrite root1 in H.
    assert (X : exists ps0, dict (objs p0) id ps0).
    { destruct H as [->| ->]; [destruct (td_catalog _ _ _ _ TX) as (ps0 & v & D0 & _)|destruct (td_root _ _ _ _ TX) as (ps0 & v & D0 & _)]; eauto. }
    destruct X as (ps0 & D0). assert (It : In id top) by (destruct H as [->| ->]; [left|right; left]; reflexivity).
    assert (Nl : ~ In id ids) by (intros HL; apply (node_leaf _ _ _ _ TX id); [destruct H as [->| ->]; [left|right; left]; reflexivity|exact HL]).
    assert (S : same_at (objs p0) (objs p3) id) by (apply top_kept; [exact It|contradiction]).
    pose proof (same_entries _ _ _ _ S D0) as D3. rewrite (dict_fun _ _ _ _ D D3) in K. apply (rd_top _ _ _ _ _ RD id ps0 H D0 K).
  Qed.
  Lemma res_off : forall L r, In L ids -> In r (res_objects (xi L)) -> ~ In r top.
  Proof. intros L r HL H. apply (R_tree _ _ _ _ TX). exists L. auto. Qed.

  (** What the page has after the images. *)
  Definition images_at (L : Z) (rps' : list prop) : Prop := exists x xps', value rps' XO x /\ propertyType x = PObject /\ readProperties x = Ok xps' /\
    images_named imgs names xps' /\ forall xps k n, offered (xi L) = Some xps -> font_named xps k n -> font_named xps' k n.
  Record images_added : Prop := {
    ia_page : forall L ps0 v0 rps0 ps v rps, In L ids -> xi L <> NoRes -> page3 L ps0 v0 rps0 ps v rps -> exists ps' v' rps', chain (objs p4) L (res_objects (xi L)) ps' v' rps' /\
      (forall k u, k <> XO -> value rps k u -> value rps' k u) /\ (pictured ids xi L -> images_at L rps');
    ia_top : forall j ps, In j top -> dict (objs p3) j ps -> exists ps', dict (objs p4) j ps' /\ with_resources ps ps' /\ (In j ids -> contents_kept ps ps');
    ia_same : forall j, (forall L, In L ids -> ~ In j (holder L (xi L))) -> (images_none ids xi -> ~ In j top) -> alike_at (objs p3) (objs p4) j }.

  Lemma dict34 : forall j ps, alike_at (objs p3) (objs p4) j -> dict (objs p3) j ps -> dict (objs p4) j ps.
  Proof. intros j ps H. apply same_entries, alike_same, H. Qed.
  Lemma top_same : forall j ps, alike_at (objs p3) (objs p4) j -> dict (objs p3) j ps -> exists ps', dict (objs p4) j ps' /\ with_resources ps ps' /\ (In j ids -> contents_kept ps ps').
  Proof. intros j ps H D. exists ps. split; [apply dict34; auto|]. split; [apply with_refl|]. intros _. apply contents_refl. Qed.
  Lemma ran2 : exists rsRes cw1 cw rx embed vals old ch ix must, iran ord p3 p4 imgs names rsRes cw1 cw rx embed vals old ch ix must.
  Proof. apply injectImgs_ran. exact Run2. Qed.
  Lemma first_page : exists L, In L ids /\ xi L <> NoRes.
  Proof.
    destruct ran2 as (rsRes & cw1 & cw & rx & embed & vals & old & ch & ix & must & R).
    destruct (first_is _ _ _ _ _ _ _ _ Fr tidy3 top3 _ _ _ _ _ _ _ _ _ _ R) as (L & HL & M). exists L. split; [exact HL|]. intros E. unfold xi1 in M. rewrite E in M. exact M.
  Qed.

  Lemma step_shared : forall r rps0 xps, images_shared ids xi r rps0 xps -> numbered_images xps -> last_greatest xps -> writable_object (objs p0) r rps0 -> images_added.
  Proof.
    intros r rps0 xps Sh Nu Lg Wo. destruct ran2 as (rsRes & cw1 & cw & rx & embed & vals & old & ch & ix & must & R). pose proof tidy3 as T3.
    set (q := props_of (objs p3) r).
    assert (Sh1 : images_shared ids xi1 r q xps) by (intros L HL; unfold xi1; destruct (Sh L HL) as [E|E]; rewrite E; [left|right]; reflexivity).
    destruct first_page as (L0 & HL0 & Nr0). destruct (page_three L0 HL0 Nr0) as (a0 & b0 & c0 & ps0 & v & rps & P0).
    assert (E0 : xi L0 = ResAt r rps0 (FontIn xps)) by (destruct (Sh L0 HL0); congruence).
    pose proof (p3_after _ _ _ _ _ _ _ P0) as (_ & _ & H). rewrite E0 in H. destruct H as (_ & D3). assert (Eq : q = rps) by (apply dict_props; exact D3).
    pose proof (p3_place _ _ _ _ _ _ _ P0) as M. rewrite E0 in M. destruct M as (<- & _). destruct Wo as ((o & V & Rw) & D0 & S0).
    assert (G0 : good rps0) by (destruct D0 as (o' & V' & E'); assert (o' = o) by (eapply version_inj; eauto); subst; eapply rewritable_good; eauto).
    pose proof (kp_good _ _ _ (p3_res _ _ _ _ _ _ _ P0) G0) as Gq. pose proof (kp_seen _ _ _ (p3_res _ _ _ _ _ _ _ P0) S0) as Sq. rewrite <- Eq in D3, Gq, Sq. clear P0 E0.
    pose proof (conj Nu Lg) as Num.
    destruct (shared_scan _ _ _ _ _ _ _ _ Fr T3 top3 _ _ _ _ _ _ _ _ _ _ R r q xps Sh1 Num) as (Lc & Pi0 & Wx & Ml & Pc' & No & Sub).
    destruct (added_names imgs old ch ix xps Fi Lc Pi0 Wx Ml Pc' No Nu Sub) as (Nx & Ko & Kn).
    destruct (shared_good _ _ _ _ _ _ _ _ Fr T3 top3 _ _ _ _ _ _ _ _ _ _ R r q xps Sh1 Num Fi D3 Gq Sq) as (x & Dr & Hk & Tx & Rx & Same).
    assert (Ro : ~ In r top) by (apply (res_off L0); [exact HL0|]; destruct (Sh L0 HL0) as [E|E]; [congruence|rewrite E; left; reflexivity]).
    constructor.
    - intros L b1 b2 b3 ps1 v1 rps1 HL Nr P. destruct (Sh L HL) as [E|E]; [congruence|]. pose proof (p3_after _ _ _ _ _ _ _ P) as (D & Ov & H). rewrite E in H. destruct H as (Iv & D').
      assert (rps1 = q) by (eapply dict_fun; eauto). subst rps1. exists ps1, v1, (setPropByKey XO x q). split; [|split].
      + split; [apply dict34; [apply Same; intros ->; apply Ro, leafX; exact HL|exact D]|]. split; [exact Ov|]. rewrite E. cbn [res_objects]. auto.
      + intros k u Ne U. apply value_set_other; auto.
      + intros _. exists x, (map xprop (addMissing (xobjs_of xps) (old ++ newXobjs imgs ch ix))). split; [apply value_set_same; exact Hk|]. split; [exact Tx|]. split; [exact Rx|]. split.
        * unfold images_named. rewrite (ir_names _ _ _ _ _ _ _ _ _ _ _ _ _ _ _ R). exact Kn.
        * intros xps1 k n Eo. rewrite E in Eo. cbn [offered] in Eo. assert (xps1 = xps) by congruence. subst. apply Ko.
    - intros j ps Hj D. apply top_same; [|exact D]. apply Same. intros ->. contradiction.
    - intros j N _. apply Same. intros ->. destruct (Sh L0 HL0) as [E|E]; [congruence|]. apply (N L0 HL0). rewrite E. left. reflexivity.
  Qed.

  Lemma step_none : images_none ids xi -> (forall L r rps, In L ids -> xi L = ResAt r rps NoFont -> extendable (objs p0) r rps) ->
    (forall j, In j top -> exists ps, extendable (objs p0) j ps) -> images_added.
  Proof.
    intros No Er Ext. destruct ran2 as (rsRes & cw1 & cw & rx & embed & vals & old & ch & ix & must & R). pose proof tidy3 as T3.
    assert (No1 : images_none ids xi1) by (intros L HL; unfold xi1; specialize (No L HL); destruct (xi L) as [|? []|? ? []]; auto).
    destruct (none_value_is _ _ _ _ _ _ _ _ Fr T3 top3 _ _ _ _ _ _ _ _ _ _ R No1) as (Tx & Rx).
    pose proof (none_names _ _ _ _ _ _ _ _ Fr T3 top3 _ _ _ _ _ _ _ _ _ _ R No1 Fi) as Nn.
    set (x := none_value imgs ch ix) in *.
    assert (Tk : forall j, In j top -> same_at (objs p0) (objs p3) j).
    { intros j Hj. apply top_kept; [exact Hj|]. intros HL rps fp E. specialize (No j HL). rewrite E in No. exact No. }
    assert (Tree : forall j ps, In j top -> dict (objs p3) j ps -> alike_at (objs p3) (objs p4) j \/
      exists m, dict (objs p4) j (concat (repeat ps (Datatypes.S m)) ++ [mkProp XO x]) /\ (In j ids -> m = 0%nat)).
    { intros j ps Hj D. destruct (Ext j Hj) as (ps0 & Ej). destruct (ext_good p0 _ _ Ej) as (D0 & G0 & S0 & B0).
      assert (ps0 = ps) by (eapply dict_fun; [apply (same_entries _ _ _ _ (Tk j Hj) D0)|exact D]). subst ps0.
      apply (none_tree _ _ _ _ _ _ _ _ Fr T3 top3 _ _ _ _ _ _ _ _ _ _ R No1 j ps); auto. cbn [root]. rewrite root1. exact Hj. }
    constructor.
    - intros L a b0 rps0 ps v rps HL Nr P. pose proof (No L HL) as NL. destruct (xi L) as [|? ?|r q fp] eqn:E; [congruence|contradiction|]. destruct fp; try contradiction. clear NL.
      pose proof (p3_after _ _ _ _ _ _ _ P) as (D & Ov & H). pose proof (p3_place _ _ _ _ _ _ _ P) as M. rewrite E in H, M. destruct H as (Iv & Dr). destruct M as (-> & Nx).
      destruct (ext_good p0 _ _ (Er L r rps0 HL E)) as (_ & G0 & S0 & B0). pose proof (p3_res _ _ _ _ _ _ _ P) as K.
      destruct (none_res _ _ _ _ _ _ _ _ Fr T3 top3 _ _ _ _ _ _ _ _ _ _ R No1 L r rps HL) as (n & Dn);
        [rewrite (xi1_is _ _ _ _ _ _ _ P), E; reflexivity|exact Dr|apply (kp_good _ _ _ K G0)|apply (kp_seen _ _ _ K S0)|apply (kp_bal _ _ _ K B0)|].
      assert (Pg : exists ps', dict (objs p4) L ps' /\ once ps' (B"Resources") v).
      { destruct (Tree L ps (leafX L HL) D) as [H|(m & H & E0)]; [exists ps; split; [apply dict34; auto|exact Ov]|]. rewrite (E0 HL), copies_one in H. exists (ps ++ [mkProp XO x]). split; [exact H|].
        apply add_once; [exact Ov|discriminate]. }
      destruct Pg as (ps' & D' & O'). exists ps', v, (concat (repeat rps (Datatypes.S n)) ++ [mkProp XO x]). split; [|split].
      + split; [exact D'|]. split; [exact O'|]. cbn [res_objects]. auto.
      + intros k u Ne U. cbn [repeat concat]. rewrite <- app_assoc. apply value_app_l. exact U.
      + intros _. exists x, (map xprop (newXobjs imgs ch ix)). split; [|split; [exact Tx|split; [exact Rx|split; [exact Nn|]]]].
        * exists (concat (repeat rps (Datatypes.S n))), []. split; [reflexivity|]. intros y Hy Ek. apply concat_in in Hy. apply Nx, (kp_has _ _ _ K).
          destruct y as [ky vy]. cbn [pkey] in Ek. subst ky. exists vy. exact Hy.
        * intros xps k m Eo. rewrite E in Eo. discriminate.
    - intros j ps Hj D. destruct (Tree j ps Hj D) as [H|(m & H & E0)]; [apply top_same; auto|].
      exists (concat (repeat ps (Datatypes.S m)) ++ [mkProp XO x]). split; [exact H|]. split; [apply with_added|]. intros HL. rewrite (E0 HL), copies_one. apply contents_added.
    - intros j N Nt. apply (none_same _ _ _ _ _ _ _ _ Fr T3 top3 _ _ _ _ _ _ _ _ _ _ R No1 j); [cbn [root]; rewrite root1; auto|].
      intros L HL. rewrite xi1_res. intros H. apply (N L HL). specialize (No L HL). destruct (xi L) as [|? ?|? ? ?]; [exact H|contradiction|exact H].
  Qed.

  Lemma step_inside : images_inside ids xi -> (exists L rps xps, In L ids /\ xi L = ResIn rps (FontIn xps)) ->
    (forall L rps xps, In L ids -> xi L = ResIn rps (FontIn xps) -> numbered_images xps /\ last_greatest xps /\ writable_page (objs p0) ids xi L) -> images_added.
  Proof.
    intros In0 Ex0 Wr. destruct ran2 as (rsRes & cw1 & cw & rx & embed & vals & old & ch & ix & must & R). pose proof tidy3 as T3.
    assert (In1 : images_inside ids xi1) by (intros L HL; unfold xi1; specialize (In0 L HL); destruct (xi L) as [|? []|? ? []]; auto).
    assert (Back : forall L rps xps, xi1 L = ResIn rps (FontIn xps) -> exists rps0, xi L = ResIn rps0 (FontIn xps)).
    { intros L rps xps E. unfold xi1 in E. destruct (xi L); try discriminate. cbn [other_entries] in E. inversion E; subst. eauto. }
    assert (Num : forall L rps xps, In L ids -> xi1 L = ResIn rps (FontIn xps) -> numbered_images xps /\ last_greatest xps).
    { intros L rps xps HL E. destruct (Back _ _ _ E) as (rps0 & E0). destruct (Wr L rps0 xps HL E0) as (A1 & A2 & _). auto. }
    assert (Ex1 : exists L rps xps, In L ids /\ xi1 L = ResIn rps (FontIn xps)).
    { destruct Ex0 as (L & rps & xps & HL & E). exists L. eexists _, xps. split; [exact HL|]. unfold xi1. rewrite E. reflexivity. }
    pose proof (inside_same _ _ _ _ _ _ _ _ Fr T3 top3 _ _ _ _ _ _ _ _ _ _ R In1 Ex1) as Same.
    constructor.
    - intros L a b0 rps0 ps v rps HL Nr P. pose proof (p3_after _ _ _ _ _ _ _ P) as Ch. pose proof (In0 L HL) as IL.
      assert (Plain : (forall q xps, xi L <> ResIn q (FontIn xps)) -> exists ps' v' rps', chain (objs p4) L (res_objects (xi L)) ps' v' rps' /\
        (forall k u, k <> XO -> value rps k u -> value rps' k u) /\ (pictured ids xi L -> images_at L rps')).
      { intros NI. exists ps, v, rps. split; [|split; [auto|]].
        - destruct Ch as (D & Ov & H). split; [apply dict34; [apply Same|exact D]|].
          + intros q xps _ E. destruct (Back _ _ _ E) as (q0 & E0). exact (NI _ _ E0).
          + split; [exact Ov|]. destruct (res_objects (xi L)) as [|r l] eqn:El; [exact H|]. destruct H as (Iv & Dr). split; [exact Iv|]. apply dict34; [apply Same|exact Dr].
            intros q xps HL'. exfalso. apply (res_off L r HL); [rewrite El; left; reflexivity|apply leafX; exact HL'].
        - intros (_ & Pi). exfalso. destruct Pi as [Pi|Pi].
          + destruct (xi L) as [|q []|? ? []]; try (apply Pi; reflexivity); try contradiction. exact (NI _ _ eq_refl).
          + destruct Ex0 as (L0 & q0 & xps0 & HL0 & E0). specialize (Pi L0 HL0). rewrite E0 in Pi. discriminate. }
      destruct (xi L) as [|q fp|r q fp] eqn:E; [congruence| |apply Plain; discriminate]. destruct fp as [|xps|]; [apply Plain; discriminate| |contradiction]. clear Plain.
      destruct (Wr L q xps HL E) as (Nu & Lg & Wp). pose proof (p3_place _ _ _ _ _ _ _ P) as M. rewrite E in M. destruct M as (-> & Fx).
      destruct (writable_good _ _ _ _ TX L rps0 xps HL E Wp) as (a' & Da & Ga & Sa & Gr & Sr & Ner).
      pose proof (p3_before _ _ _ _ _ _ _ P) as (Da' & _). assert (a' = a) by (eapply dict_fun; eauto). subst a'.
      pose proof (p3_page _ _ _ _ _ _ _ P) as K1. pose proof (p3_res _ _ _ _ _ _ _ P) as K2.
      assert (E1 : xi1 L = ResIn rps (FontIn xps)) by (rewrite (xi1_is _ _ _ _ _ _ _ P), E; reflexivity).
      destruct (inside_scan _ _ _ _ _ _ _ _ Fr T3 top3 _ _ _ _ _ _ _ _ _ _ R In1 Num) as (Lc & Pi0 & Wo & Ml & Pc & Nx0 & _).
      destruct (added_names imgs old ch ix xps Fi Lc Pi0 Wo Ml Pc Nx0 Nu (inside_old _ _ _ _ _ _ _ _ Fr T3 top3 _ _ _ _ _ _ _ _ _ _ R In1 Num L rps xps HL E1)) as (Nx & Ko & Kn).
      destruct Ch as (D & Ov & H). cbn [res_objects] in *. destruct H as (Tv & Rv).
      destruct (inside_good _ _ _ _ _ _ _ _ Fr T3 top3 _ _ _ _ _ _ _ _ _ _ R In1 L rps xps ps HL E1 D (kp_good _ _ _ K1 Ga) (kp_seen _ _ _ K1 Sa) (kp_good _ _ _ K2 Gr) (kp_seen _ _ _ K2 Sr)
        (kp_nests _ _ _ K2 Ner) Nx) as (w & x & D' & _ & Tw & Rw & Hx & Tx & Rx).
      exists (setPropByKey (B"Resources") w ps), w, (setPropByKey XO x rps). split; [|split].
      + split; [exact D'|]. split; [eapply set_once; exact Ov|]. auto.
      + intros k u Ne U. apply value_set_other; auto.
      + intros _. exists x, (map xprop (addMissing (xobjs_of xps) (old ++ newXobjs imgs ch ix))). split; [apply value_set_same; exact Hx|]. split; [exact Tx|]. split; [exact Rx|]. split.
        * unfold images_named. rewrite (ir_names _ _ _ _ _ _ _ _ _ _ _ _ _ _ _ R). exact Kn.
        * intros xps1 k n Eo. rewrite E in Eo. cbn [offered] in Eo. assert (xps1 = xps) by congruence. subst. apply Ko.
    - intros j ps Hj D. destruct (xi1 j) as [|q fp|r q fp] eqn:E1; [apply top_same; [apply Same; congruence|exact D]| |apply top_same; [apply Same; congruence|exact D]].
      destruct fp as [|xps|]; try (apply top_same; [apply Same; congruence|exact D]).
      destruct (in_dec Z.eq_dec j ids) as [HL|NL]; [|apply top_same; [apply Same; tauto|exact D]].
      destruct (Back _ _ _ E1) as (q0 & E). destruct (Wr j q0 xps HL E) as (Nu & Lg & Wp).
      assert (Nr : xi j <> NoRes) by congruence. destruct (page_three j HL Nr) as (a & b0 & rps0 & ps1 & v & rps & P).
      pose proof (p3_after _ _ _ _ _ _ _ P) as (D1 & _). assert (ps1 = ps) by (eapply dict_fun; eauto). subst ps1.
      pose proof (p3_place _ _ _ _ _ _ _ P) as M. rewrite E in M. destruct M as (-> & Fx).
      destruct (writable_good _ _ _ _ TX j rps0 xps HL E Wp) as (a' & Da & Ga & Sa & Gr & Sr & Ner).
      pose proof (p3_before _ _ _ _ _ _ _ P) as (Da' & _). assert (a' = a) by (eapply dict_fun; eauto). subst a'.
      pose proof (p3_page _ _ _ _ _ _ _ P) as K1. pose proof (p3_res _ _ _ _ _ _ _ P) as K2.
      assert (q = rps) by (rewrite (xi1_is _ _ _ _ _ _ _ P), E in E1; cbn [other_entries] in E1; congruence). subst q.
      destruct (inside_scan _ _ _ _ _ _ _ _ Fr T3 top3 _ _ _ _ _ _ _ _ _ _ R In1 Num) as (Lc & Pi0 & Wo & Ml & Pc & Nx0 & _).
      destruct (added_names imgs old ch ix xps Fi Lc Pi0 Wo Ml Pc Nx0 Nu (inside_old _ _ _ _ _ _ _ _ Fr T3 top3 _ _ _ _ _ _ _ _ _ _ R In1 Num j rps xps HL E1)) as (Nx & _ & _).
      destruct (inside_good _ _ _ _ _ _ _ _ Fr T3 top3 _ _ _ _ _ _ _ _ _ _ R In1 j rps xps ps HL E1 D (kp_good _ _ _ K1 Ga) (kp_seen _ _ _ K1 Sa) (kp_good _ _ _ K2 Gr) (kp_seen _ _ _ K2 Sr)
        (kp_nests _ _ _ K2 Ner) Nx) as (w & x & D' & _).
      exists (setPropByKey (B"Resources") w ps). split; [exact D'|]. split; [apply with_set|]. intros _. apply contents_set.
    - intros j N _. apply Same. intros q xps HL E1. destruct (Back _ _ _ E1) as (q0 & E). apply (N j HL). rewrite E. left. reflexivity.
  Qed.

  Lemma step_nowhere : images_nowhere ids xi -> (forall L rps, In L ids -> xi L = ResIn rps NoFont -> In (Leaf L) ts /\ inline_extendable (objs p0) L rps) -> images_added.
  Proof.
    intros Nw Wr. destruct ran2 as (rsRes & cw1 & cw & rx & embed & vals & old & ch & ix & must & R). pose proof tidy3 as T3.
    assert (Nw1 : images_nowhere ids xi1) by (intros L HL; unfold xi1; specialize (Nw L HL); destruct (xi L) as [|? []|? ? []]; auto).
    pose proof (nw_same _ _ _ _ _ _ _ _ Fr T3 top3 _ _ _ _ _ _ _ _ _ _ R Nw1) as Same.
    pose proof (nw_names _ _ _ _ _ _ _ _ Fr T3 top3 _ _ _ _ _ _ _ _ _ _ R Nw1 Fi) as Nn.
    assert (Page : forall L a v0 rps0 ps v rps, In L ids -> xi L <> NoRes -> page3 L a v0 rps0 ps v rps -> res_objects (xi L) = [] /\ exists w x,
      dict (objs p4) L (setPropByKey (B"Resources") w ps) /\ propertyType w = PObject /\ readProperties w = Ok (rps ++ [mkProp XO x]) /\ propertyType x = PObject /\
      readProperties x = Ok (map xprop (newXobjs imgs ch ix)) /\ once ps (B"Resources") v /\ ~ has_key rps XO /\ offered (xi L) = None).
    { intros L a v0 rps0 ps v rps HL Nr P. pose proof (Nw L HL) as NL. destruct (xi L) as [|q fp|] eqn:E; [congruence| |contradiction]. destruct fp; try contradiction. clear NL. split; [reflexivity|].
      pose proof (p3_after _ _ _ _ _ _ _ P) as (D & Ov & H). pose proof (p3_place _ _ _ _ _ _ _ P) as M. pose proof (p3_before _ _ _ _ _ _ _ P) as (D0 & Ov0 & H0). rewrite E in H, M, H0. cbn [res_objects] in H, H0.
      destruct H as (Tv & Rv). destruct M as (-> & Nx). destruct H0 as (Tv0 & Rv0).
      destruct (Wr L rps0 HL E) as (Lf & a' & v' & ((o & V & Rw) & Da & Sa) & Ov' & Rv' & Br). assert (a' = a) by (eapply dict_fun; eauto). subst a'. assert (v' = v0) by (eapply once_in; eauto). subst v'.
      assert (Ga : good a) by (destruct Da as (o' & V' & E'); assert (o' = o) by (eapply version_inj; eauto); subst; eapply rewritable_good; eauto).
      pose proof (p3_page _ _ _ _ _ _ _ P) as K1. pose proof (p3_res _ _ _ _ _ _ _ P) as K2.
      destruct (nw_good _ _ _ _ _ _ _ _ Fr T3 top3 _ _ _ _ _ _ _ _ _ _ R Nw1 L rps ps v Lf) as (w & x & D' & Tw & Rw' & Tx & Rx); auto.
      - rewrite (xi1_is _ _ _ _ _ _ _ P), E. reflexivity.
      - apply (kp_good _ _ _ K1 Ga).
      - apply (kp_seen _ _ _ K1 Sa).
      - apply (p3_brackets _ _ _ _ _ _ _ P). exact Br.
      - exists w, x. split; [exact D'|]. split; [exact Tw|]. split; [exact Rw'|]. split; [exact Tx|]. split; [exact Rx|]. split; [exact Ov|]. split; [|reflexivity]. intros Kx. apply Nx, (kp_has _ _ _ K2), Kx. }
    constructor.
    - intros L a v0 rps0 ps v rps HL Nr P. destruct (Page _ _ _ _ _ _ _ HL Nr P) as (Er & w & x & D' & Tw & Rw & Tx & Rx & Ov & Nx & Eo).
      exists (setPropByKey (B"Resources") w ps), w, (rps ++ [mkProp XO x]). split; [|split].
      + split; [exact D'|]. split; [eapply set_once; exact Ov|]. rewrite Er. auto.
      + intros k u Ne U. apply value_app_l. exact U.
      + intros _. exists x, (map xprop (newXobjs imgs ch ix)). split; [|split; [exact Tx|split; [exact Rx|split; [exact Nn|]]]].
        * exists rps, []. split; [reflexivity|]. intros y Hy Ek. apply Nx. destruct y as [ky vy]. cbn [pkey] in Ek. subst ky. exists vy. exact Hy.
        * intros xps k n E. rewrite Eo in E. discriminate.
    - intros j ps Hj D. destruct (in_dec Z.eq_dec j ids) as [HL|NL]; [|apply top_same; [apply Same; tauto|exact D]].
      destruct (xi j) as [|q fp|] eqn:E.
      + apply top_same; [apply Same|exact D]. intros q _. unfold xi1. rewrite E. discriminate.
      + assert (Nr : xi j <> NoRes) by congruence.
        destruct (page_three j HL Nr) as (a & v0 & rps0 & ps1 & v & rps & P). pose proof (p3_after _ _ _ _ _ _ _ P) as (D1 & _). assert (ps1 = ps) by (eapply dict_fun; eauto). subst ps1.
        destruct (Page _ _ _ _ _ _ _ HL Nr P) as (_ & w & x & D' & _). exists (setPropByKey (B"Resources") w ps). split; [exact D'|]. split; [apply with_set|]. intros _. apply contents_set.
      + pose proof (Nw j HL) as N'. rewrite E in N'. contradiction.
    - intros j N _. apply Same. intros q HL E1. apply (N j HL). unfold xi1 in E1. destruct (xi j); try discriminate. left. reflexivity.
  Qed.

  Theorem images_step : images_added.
  Proof.
    destruct (rd_pictures _ _ _ _ _ RD) as [r rps xps Sh Nu Lg Wo|No Er Ext|In1 Ex Wr|Nw Wr].
    - exact (step_shared r rps xps Sh Nu Lg Wo).
    - exact (step_none No Er Ext).
    - exact (step_inside In1 Ex Wr).
    - exact (step_nowhere Nw Wr).
  Qed.
End Images.
