(** Images are added to a document that fonts were added to. *)
From Coq Require Import String List ZArith Lia Bool Permutation.
From Verif Require Import Base BaseProofs Output Props PropsSpec PropsNorm PropsStable PropsRefs Squeeze PdfData PagesSpec PagesProofs PagesEdit PagesOps
  PiecesRead PiecesNest Crawl Inject CrawlProofs InjectNames InjectItems InjectTexts InjectSpec InjectVisits InjectPages InjectTidy InjectFonts InjectFinal InjectCheck ImgNames ImgSpec ImgLists ImgCrawl ImgPages ImgEmbed ContentSpec ApiIds
  SaveSpec SaveFrame SaveKeeps SaveFonts SaveImages SaveGoesSpec SaveGoesFonts SaveGoesImages.
Open Scope Z_scope.
Open Scope list_scope.

(** ** References have two blanks *)
Definition nb (s : bytes) : nat := count_occ Z.eq_dec s 32.
Lemma split_len : forall s, List.length (split1 32 s) = Datatypes.S (nb s).
Proof.
  unfold nb. induction s as [|c s IH]; [reflexivity|]. cbn [split1 count_occ]. destruct (c =? 32) eqn:E.
  - apply Z.eqb_eq in E. subst. destruct (Z.eq_dec 32 32); [|congruence]. cbn [List.length]. rewrite IH. reflexivity.
  - apply Z.eqb_neq in E. destruct (Z.eq_dec c 32); [congruence|]. destruct (split1 32 s); [discriminate|]. cbn [List.length] in *. exact IH.
Qed.
Lemma not_reference : forall v, blanks v <> 2%nat -> readObjID v = Err EObjNotFound.
Proof.
  intros v H. unfold readObjID. cbv zeta. unfold blanks in H. pose proof (split_len (trim_space v)) as E. destruct (trim_space v) as [|c t]; [reflexivity|].
  destruct (split1 32 (c :: t)) as [|a [|b [|d [|e l]]]]; try reflexivity. cbn [List.length] in E. unfold nb in E. lia.
Qed.
Lemma sq_blanks : forall x y, (nb (sq y) <= nb (sq (x ++ y)))%nat.
Proof.
  induction x as [|c x IH]; intros y; [apply le_n|]. specialize (IH y). unfold nb in *. cbn [app]. unfold sq in *. cbn [sqF]. destruct (is_ws4 c).
  - destruct (x ++ y) as [|d t]; [cbn [sqF count_occ] in *; destruct (Z.eq_dec 32 32); lia|]. destruct (is_ws4 d || opener (d :: t)); [exact IH|]. cbn [count_occ]. destruct (Z.eq_dec 32 32); lia.
  - cbn [count_occ]. destruct (Z.eq_dec c 32); lia.
Qed.
Lemma sq_solid : forall x y, Forall (fun c => is_ws4 c = false) x -> sq (x ++ y) = x ++ sq y.
Proof. intros x y F. induction F as [|c x C F IH]; [reflexivity|]. cbn [app]. unfold sq in *. rewrite sqF_hd by exact C. rewrite IH. reflexivity. Qed.
Lemma sq_next_word : forall c t, is_ws4 c = false -> opener (c :: t) = false -> nb (sq (32 :: c :: t)) = Datatypes.S (nb (sq (c :: t))).
Proof. intros c t W Op. unfold nb. unfold sq. rewrite sqF_ws by reflexivity. rewrite W, Op. cbn [orb count_occ]. destruct (Z.eq_dec 32 32); [reflexivity|congruence]. Qed.
Lemma numc_quiet : forall c, num_char c -> is_ws4 c = false /\ forall t, opener (c :: t) = false.
Proof.
  intros c H. unfold num_char in H. split; [unfold is_ws4; lia|].
  intros t. unfold opener, op4, op3, op2, op1, op0. cbn [prefixb]. lia.
Qed.
Lemma ref_blanks : forall n z, le 3 (nb (sq (32 :: refText n ++ z))).
Proof.
  intros n z. unfold refText. rewrite <- app_assoc. change (B" 0 R" ++ z) with (32 :: 48 :: 32 :: 82 :: z). pose proof (itoa_chars n) as F. pose proof (itoa_nonnil n) as Ne.
  assert (E : le 2 (nb (sq (itoa n ++ 32 :: 48 :: 32 :: 82 :: z)))).
  { etransitivity; [|apply sq_blanks]. rewrite sq_next_word by reflexivity. change (48 :: 32 :: 82 :: z) with ([48] ++ 32 :: 82 :: z). pose proof (sq_blanks [48] (32 :: 82 :: z)) as H. rewrite sq_next_word in H by reflexivity. lia. }
  destruct (itoa n) as [|c t]; [congruence|]. apply Forall_inv in F. destruct (numc_quiet c F) as (W & Op). cbn [app] in *. rewrite sq_next_word by auto. lia.
Qed.

Lemma spset_blanks : forall fs ps, fs <> [] -> has_key ps (B"Font") -> le 3 (nb (sq (dtext [] (spset (B"Font") [32] (fonts_dict fs) [10; 10] ps)))).
Proof.
  intros fs ps Ne K. destruct fs as [|f fs]; [congruence|].
  assert (E : exists x z, dtext [] (spset (B"Font") [32] (fonts_dict (f :: fs)) [10; 10] ps) = x ++ 32 :: refText (cf_obj f) ++ z).
  { assert (G : exists x z, ptext (spset (B"Font") [32] (fonts_dict (f :: fs)) [10; 10] ps) = x ++ 32 :: refText (cf_obj f) ++ z).
    { induction ps as [|q ps IH]; [destruct K as (? & [])|]. cbn [spset]. destruct (beqb (pkey q) (B"Font")) eqn:Eb.
      - rewrite ptext_cons. cbn [pc_key pc_gap pc_val pc_end]. unfold fonts_dict, dtext. cbn [map]. rewrite ptext_cons. unfold fpiece at 1 2 3 4. cbn [pc_key pc_gap pc_val pc_end].
        eexists (47 :: pkey q ++ [32] ++ B"<<" ++ [10] ++ 47 :: cf_name f), _. repeat (rewrite <- ?app_assoc; cbn [app]). reflexivity.
      - destruct IH as (x & z & E); [destruct K as (v & [Hq|Hin]); [subst q; rewrite beqb_refl in Eb; discriminate|exists v; exact Hin]|]. rewrite ptext_cons, E.
        eexists (47 :: pc_key (sp q) ++ pc_gap (sp q) ++ pc_val (sp q) ++ pc_end (sp q) ++ x), z. repeat (rewrite <- ?app_assoc; cbn [app]). reflexivity. }
    destruct G as (x & z & G). unfold dtext. rewrite G. exists (B"<<" ++ [] ++ x), (z ++ B">>"). repeat (rewrite <- ?app_assoc; cbn [app]). reflexivity. }
  destruct E as (x & z & ->). etransitivity; [apply (ref_blanks (cf_obj f) z)|apply sq_blanks].
Qed.
Lemma bracketed_trim : forall t, trim_space (B"<<" ++ t ++ B">>") = B"<<" ++ t ++ B">>".
Proof.
  intros t. apply trim_space_id. change (trimmed (60 :: (60 :: t ++ [62; 62]))). replace (60 :: t ++ [62; 62]) with ((60 :: t ++ [62]) ++ [62]) by (cbn [app]; rewrite <- app_assoc; reflexivity).
  apply trimmed_ascii; try reflexivity; unfold ascii; lia.
Qed.
Lemma cfonts_nonempty : forall fps fs, cfonts_of fps = Ok fs -> fps <> [] -> fs <> [].
Proof.
  intros [|q fps] fs H Ne; [congruence|]. cbn [cfonts_of] in H. destruct (splitFont (trim_space (pkey q))); cbn [bind] in H; try discriminate.
  destruct (readObjID (pval q)); cbn [bind] in H; try discriminate. destruct (cfonts_of fps); cbn [bind] in H; try discriminate. inversion H. discriminate.
Qed.

Section Step.
  Variables (p0 : pdf) (rid : Z) (ts : list tree) (fi xi : Z -> res_place).
  Hypothesis RD : ready_document p0 rid ts fi xi.
  Notation ids := (flat_map leaves ts).
  Variables (ord : morder) (fonts idx : list (Z * Z)) (p1 : pdf).
  Hypothesis Fr : fair ord.
  Hypothesis Run : injectFonts ord p0 fonts = Ok (p1, idx).
  Variables (more : list obj) (imgs : list Z).
  Notation p3 := (mkPdf (root p1) (objs p1 ++ more)).
  Hypothesis N3 : NoDup (map oid (objs p1 ++ more)).
  Hypothesis Some_res : exists L, In L ids /\ xi L <> NoRes.
  Hypothesis Rec : forall L, In L ids -> recognised (objs p0) L (fi L).
  Let TF := rd_fonts _ _ _ _ _ RD.
  Let TX := rd_images _ _ _ _ _ RD.
  Notation xi1 := (SaveImages.xi1 xi p1 more).

  Lemma place_in : forall L rps fp, In L ids -> xi1 L = ResIn rps fp -> exists rps' fp', xi L = ResIn rps' fp' /\ exists rps2 fp2, fi L = ResIn rps2 fp2.
  Proof.
    intros L rps fp HL E. unfold SaveImages.xi1 in E. destruct (xi L) as [|rps' fp'|r rps' fp'] eqn:Ex; [discriminate| |discriminate]. exists rps', fp'. split; [reflexivity|].
    destruct (page_of _ _ _ _ TF L HL) as (ps & P & _). destruct (page_of _ _ _ _ TX L HL) as (ps' & P' & _). destruct (same_res _ _ _ _ _ _ _ _ P P') as (_ & M). rewrite Ex in M.
    destruct (fi L); try contradiction. eauto.
  Qed.
  Lemma said3 : forall L rps fp ps v, In L ids -> xi1 L = ResIn rps fp -> dict (objs p3) L ps -> value ps (B"Resources") v -> readObjID v = Err EObjNotFound.
  Proof.
    intros L rps fp ps v HL E D V. apply not_reference. destruct (place_in L rps fp HL E) as (rx & fx & Ex & rf & ff & Ef). pose proof (Rec L HL) as Rc.
    destruct (page_of _ _ _ _ TF L HL) as (ps0 & (D0 & P0) & _).
    destruct (same03 p0 rid ts fi xi RD ord fonts idx p1 Fr Run more N3 L) as [Tc|Sm].
    - destruct (touched_top _ _ _ _ _ RD _ (leaf_in' _ _ _ _ TX L HL) Tc) as (_ & rps2 & fps & E2). rewrite E2 in Rc. cbn [recognised] in Rc.
      destruct (run_facts _ _ _ _ _ _ _ _ Fr TF Run) as (rs & max & new & Rn).
      assert (Wp : writable_page (objs p0) ids fi L) by (apply (rd_write _ _ _ _ _ RD L HL); rewrite E2; discriminate).
      destruct (leaf_at p0 rid ts fi xi RD ord fonts idx p1 rs max new Rn L ps0 rps2 fps HL E2 Wp D0) as (fs & C & Kf & _ & NY & D1 & _).
      assert (Es : ps = setPropByKey (B"Resources") (norm (dtext [] (spset (B"Font") [32] (fonts_dict (fs ++ new)) [10; 10] rps2))) ps0) by (eapply dict_fun; [exact D|apply (dict13 p1 more N3); exact D1]).
      rewrite E2 in P0. destruct P0 as (v0 & O0 & _).
      assert (Ev : v = norm (dtext [] (spset (B"Font") [32] (fonts_dict (fs ++ new)) [10; 10] rps2))).
      { eapply value_fun; [exact V|]. rewrite Es. apply value_set_same. eapply value_has, once_value; exact O0. }
      subst v. unfold blanks. rewrite norm_dtext by (auto; constructor). rewrite bracketed_trim. rewrite <- (norm_dtext []) by (auto; constructor). rewrite norm_sq.
      assert (Ne : fs ++ new <> []) by (apply (cfonts_nonempty fps fs C) in Rc; destruct fs; [congruence|discriminate]).
      pose proof (spset_blanks (fs ++ new) rps2 Ne Kf) as B3. unfold nb in B3. lia.
    - pose proof (same_entries _ _ _ _ Sm D0) as D3. assert (ps = ps0) by (eapply dict_fun; eauto). subst ps0.
      destruct ff as [|fps|f fps]; rewrite Ef in Rc; cbn [recognised] in Rc; [exact (Rc ps v D0 V)| |exact (Rc ps v D0 V)].
      (* with fonts in it, it is written anew all the same *)
      destruct (run_facts _ _ _ _ _ _ _ _ Fr TF Run) as (rs & max & new & Rn).
      assert (Wp : writable_page (objs p0) ids fi L) by (apply (rd_write _ _ _ _ _ RD L HL); rewrite Ef; discriminate).
      destruct (leaf_at p0 rid ts fi xi RD ord fonts idx p1 rs max new Rn L ps rf fps HL Ef Wp D0) as (fs & C & Kf & _ & NY & D1 & _).
      assert (Es : ps = setPropByKey (B"Resources") (norm (dtext [] (spset (B"Font") [32] (fonts_dict (fs ++ new)) [10; 10] rf))) ps) by (eapply dict_fun; [exact D|apply (dict13 p1 more N3); exact D1]).
      rewrite Ef in P0. destruct P0 as (v0 & O0 & _).
      assert (Ev : v = norm (dtext [] (spset (B"Font") [32] (fonts_dict (fs ++ new)) [10; 10] rf))).
      { eapply value_fun; [exact V|]. rewrite Es. apply value_set_same. eapply value_has, once_value; exact O0. }
      subst v. unfold blanks. rewrite norm_dtext by (auto; constructor). rewrite bracketed_trim. rewrite <- (norm_dtext []) by (auto; constructor). rewrite norm_sq.
      assert (Ne : fs ++ new <> []) by (apply (cfonts_nonempty fps fs C) in Rc; destruct fs; [congruence|discriminate]).
      pose proof (spset_blanks (fs ++ new) rf Ne Kf) as B3. unfold nb in B3. lia.
  Qed.

  Theorem images_go : exists p4 names, injectImgs ord p3 imgs = Ok (p4, names).
  Proof.
    apply (injectImgs_goes ord p3 imgs rid ts xi1 Fr).
    - apply (tidy3 p0 rid ts fi xi RD ord fonts idx p1 Fr Run more N3).
    - apply (top3 p0 rid ts fi xi RD ord fonts idx p1 Fr Run more N3).
    - intros L HL. pose proof (no_objects p0 rid ts fi xi RD L HL) as H. unfold SaveImages.xi1. destruct (xi L) as [|? []|? ? []]; cbn [other_entries]; auto.
    - apply said3.
    - destruct Some_res as (L & HL & Nr). exists L. split; [exact HL|]. unfold SaveImages.xi1. destruct (xi L); [congruence|discriminate|discriminate].
    - destruct (rd_pictures _ _ _ _ _ RD) as [r rps xps Sh _ _ _|No _ _|_ (L & rps & xps & HL & E) _|Nw Ex].
      + right. left. intros L q fp HL H. unfold SaveImages.xi1 in H. destruct (Sh L HL) as [E|E]; rewrite E in H; discriminate.
      + right. left. intros L q fp HL H. specialize (No L HL). unfold SaveImages.xi1 in H. destruct (xi L) as [|? ?|? ? ?]; [discriminate|contradiction|discriminate].
      + left. exists L. unfold SaveImages.xi1. rewrite E. cbn [other_entries]. eauto.
      + right. right. intros L ps v HL Nr D V. assert (Nx : xi L <> NoRes) by (intros H; apply Nr; unfold SaveImages.xi1; rewrite H; reflexivity).
        destruct (page_three p0 rid ts fi xi RD ord fonts idx p1 Fr Run more N3 L HL Nx) as (ps0 & v0 & rps0 & ps3 & v3 & rps3 & P).
        pose proof (p3_after _ _ _ _ _ _ _ _ _ _ _ _ _ _ P) as (D3 & O3 & _). assert (ps3 = ps) by (eapply dict_fun; eauto). subst ps3.
        assert (v = v3) by (eapply value_fun; [exact V|apply once_value; exact O3]). subst v3.
        specialize (Nw L HL). destruct (xi L) as [|q [| |]|? ? ?] eqn:EL; try contradiction. destruct (Ex L q HL EL) as (_ & (pse & ve & (_ & De & _) & Oe & _ & Br)).
        pose proof (p3_before _ _ _ _ _ _ _ _ _ _ _ _ _ _ P) as (Db & Ob & _). assert (pse = ps0) by (eapply dict_fun; eauto). subst pse. assert (ve = v0) by (eapply once_in; eauto). subst ve.
        pose proof (p3_place _ _ _ _ _ _ _ _ _ _ _ _ _ _ P) as M. rewrite EL in M. destruct M as (-> & _).
        destruct (p3_brackets _ _ _ _ _ _ _ _ _ _ _ _ _ _ P Br) as (t & -> & _). rewrite bracketed_trim. unfold blen. rewrite !app_length. change (List.length (B"<<")) with 2%nat. change (List.length (B">>")) with 2%nat. lia.
  Qed.
End Step.
