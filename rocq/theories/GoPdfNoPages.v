(** A document of GoPdf without pages, or with a blank page, opens in pdft, but is
    never saved. *)
From Coq Require Import String List ZArith Lia Bool FinFun Permutation.
From Coq.Floats Require Import SpecFloat.
From Verif Require Import Base BaseProofs Output OutputSpec OutputProofs Props PropsRefs InjectNames PdfSyntax PdfSyntaxProofs Float64 TextSpec PdfData PagesSpec PagesProofs InjectSpec InjectMarks ContentSpec ContentProofs SaveSpec Parse ParsePages ParseFinal GoPdf GoPdfSpec GoPdfDrawSpec GoPdfDocSpec GoPdfFile GoPdfRun GoPdfPages GoPdfDoc GoPdfTree GoPdfText GoPdfOut GoPdfMain GoPdfOpenSpec GoPdfOpenInfo GoPdfOpen GoPdfOpenDict GoPdfOpenPages GoPdfOpenDoc GoPdfReadyDict GoPdfReadyStream GoPdfReadyTree GoPdfReadyDoc GoPdfReadySpec GoPdfResSpec GoPdfEmbed GoPdfReady.
From Verif Require Import PropsFlat PropsWrite Crawl Inject Crypto Api ApiSpec ApiProofs ApiIds FontChain SaveWhole SaveLock SaveGoes GoPdfReadyApi GoPdfBlank.
Open Scope Z_scope.
Open Scope list_scope.

(** The crawl from the catalog ends at the empty Kids array. *)
Definition top_items : list item := strs (map ent_prop [mkEnt false (B"Type") []; mkEnt false (B"Catalog") []]).
Definition root_items (w h : f64) : list item := strs (map ent_prop [mkEnt false (B"Type") []; mkEnt false (B"Pages") []; mkEnt false (B"MediaBox") (box_text w h); mkEnt true (B"Count") (itoa 0)]).
Lemma crawl_end : forall os w h rest, getObj 1 os = Ok (mkObj 1 ([10] ++ catalog_build)) -> getObj 2 os = Ok (mkObj 2 ([10] ++ pages_build w h 0 [])) ->
  crawl_run os 1 (B"Pages" :: B"Kids" :: rest) = ([(1, top_items); (2, root_items w h)], Err EOther).
Proof.
  intros os w h rest G1 G2. unfold crawl_run. rewrite G1. remember (B"Kids" :: rest) as path eqn:Ep. cbn [next odata]. rewrite catalog_props.
  unfold catalog_ents. change (map ent_prop [mkEnt false (B"Type") []; mkEnt false (B"Catalog") []; mkEnt true (B"Pages") (refText 2)])
    with (map ent_prop [mkEnt false (B"Type") []; mkEnt false (B"Catalog") []] ++ [mkProp (B"Pages") (refText 2)]).
  rewrite next_skip by (intros q Hq; cbn [map In] in Hq; destruct Hq as [<-|[<-|[]]]; discriminate).
  cbn [next_props pkey pval]. rewrite beqb_refl. cbn [negb]. change (propertyType (refText 2)) with PDictionary. change (readObjID (refText 2)) with (@Ok Z 2). cbv iota beta. cbn [bind]. rewrite G2. cbn [bind odata].
  rewrite Ep. remember (touch 2 _) as m eqn:Em. cbn [next odata]. pose proof (pages_props w h 0 []) as PP. cbn [flat_map] in PP. rewrite PP. unfold pages_ents.
  change (map ent_prop [mkEnt false (B"Type") []; mkEnt false (B"Pages") []; mkEnt false (B"MediaBox") (box_text w h); mkEnt true (B"Count") (itoa 0); mkEnt false (B"Kids") (B"[" ++ spaced [] ++ B"]")])
    with (map ent_prop [mkEnt false (B"Type") []; mkEnt false (B"Pages") []; mkEnt false (B"MediaBox") (box_text w h); mkEnt true (B"Count") (itoa 0)] ++ [mkProp (B"Kids") (B"[" ++ spaced [] ++ B"]")]).
  rewrite next_skip by (intros q Hq; cbn [map In] in Hq; destruct Hq as [<-|[<-|[<-|[<-|[]]]]]; discriminate).
  cbn [next_props pkey pval]. rewrite beqb_refl. cbn [negb]. change (propertyType (B"[" ++ spaced [] ++ B"]")) with PArray. change (readObjIDs (B"[" ++ spaced [] ++ B"]")) with (@Err (list Z) EOther). cbv iota beta.
  rewrite Em. reflexivity.
Qed.
Lemma not_inner : forall w h, is_inner top_items = false /\ is_inner (root_items w h) = false.
Proof.
  intros w h. split; [reflexivity|]. apply (inner_no (B"/Parent")); [right; reflexivity|]. intros (a & b & E). apply (pages_mentions w h 0 []). unfold pages_ents.
  change (map ent_prop [mkEnt false (B"Type") []; mkEnt false (B"Pages") []; mkEnt false (B"MediaBox") (box_text w h); mkEnt true (B"Count") (itoa 0); mkEnt false (B"Kids") (B"[" ++ spaced [] ++ B"]")])
    with (map ent_prop [mkEnt false (B"Type") []; mkEnt false (B"Pages") []; mkEnt false (B"MediaBox") (box_text w h); mkEnt true (B"Count") (itoa 0)] ++ [mkProp (B"Kids") (B"[" ++ spaced [] ++ B"]")]).
  unfold mentions, InjectSpec.text_of in *. rewrite flat_map_app, E. exists a. eexists. rewrite <- !app_assoc. reflexivity.
Qed.
Lemma page_crawl_end : forall ord tag os w h rest, fair ord -> getObj 1 os = Ok (mkObj 1 ([10] ++ catalog_build)) -> getObj 2 os = Ok (mkObj 2 ([10] ++ pages_build w h 0 [])) ->
  getPageCrawl ord tag os 1 (B"Kids" :: rest) = Ok [(1, top_items); (2, root_items w h)].
Proof.
  intros ord tag os w h rest Fr G1 G2. unfold getPageCrawl. rewrite (crawl_end os w h rest G1 G2).
  assert (P : forall k, In k (map fst (ord tag _ [(1, top_items); (2, root_items w h)])) -> k = 1 \/ k = 2).
  { intros k Hk. apply (Permutation_in _ (Permutation_map fst (Fr tag _ [(1, top_items); (2, root_items w h)]))) in Hk. cbn [map fst In] in Hk. destruct Hk as [<-|[<-|[]]]; auto. }
  destruct (not_inner w h) as (N1 & N2). revert P. generalize (map fst (ord tag _ [(1, top_items); (2, root_items w h)])). induction l as [|k ks IH]; intros P; [reflexivity|].
  cbn [page_crawl_loop]. assert (X : exists l0, map_get [(1, top_items); (2, root_items w h)] k = Some l0 /\ is_inner l0 = false) by (destruct (P k (or_introl eq_refl)) as [-> | ->]; eexists; (split; [reflexivity|assumption])).
  destruct X as (l0 & -> & ->). apply IH. intros j Hj. apply P. right. exact Hj.
Qed.
Lemma ord_items : forall (ord : morder) tag w h (Q : list item -> Prop), fair ord -> Q top_items -> Q (root_items w h) -> Forall (fun r => Q (snd r)) (ord tag _ [(1, top_items); (2, root_items w h)]).
Proof.
  intros ord tag w h Q Fr Q1 Q2. eapply Permutation_Forall; [symmetry; apply Fr|]. constructor; [exact Q1|]. constructor; [exact Q2|constructor].
Qed.
Lemma none_here : forall k w h, k = B"Font" \/ k = B"Resources" -> valOf k top_items = None /\ valOf k (root_items w h) = None.
Proof. intros k w h [-> | ->]; split; reflexivity. Qed.
Lemma max_none : forall os rs m, Forall (fun r => valOf (B"Font") (snd r) = None) rs -> findMaxFontIndex os rs m = Ok m.
Proof. intros os rs m H. induction H as [|[i l] rs E _ IH]; [reflexivity|]. cbn [snd] in E. cbn [findMaxFontIndex]. unfold font_dict. rewrite E. cbn [bind]. exact IH. Qed.
Lemma replace_none : forall os new rs m, Forall (fun r => valOf (B"Font") (snd r) = None) rs -> fontReplaces os new rs m = Ok m.
Proof. intros os new rs m H. induction H as [|[i l] rs E _ IH]; [reflexivity|]. cbn [snd] in E. cbn [fontReplaces]. unfold font_dict. rewrite E. cbn [bind]. exact IH. Qed.
Lemma first_none : forall rs, Forall (fun r => valOf (B"Resources") (snd r) = None) rs -> firstResources rs = Ok None.
Proof. intros rs H. induction H as [|[i l] rs E _ IH]; [reflexivity|]. cbn [snd] in E. cbn [firstResources]. rewrite E. exact IH. Qed.

(** The objects that a save adds have new numbers. *)
Lemma fresh_numbers : forall w s p0 ord order fs1 next p1 idx order2, NoDup (map oid (objs p0)) -> NoDup order -> build_fonts w order (s_fonts s) (maxID (objs p0)) = (fs1, Ok next) ->
  injectFonts ord p0 (map (fun h => (Z.of_nat h, match nth_error fs1 h with Some f => fd_id f | None => 0 end)) order) = Ok (p1, idx) -> Permutation order2 order ->
  NoDup (map oid (objs p1 ++ flat_map (objs_at (fold_left set_index idx fs1)) order2 ++ img_objs (s_imgs s) next)).
Proof.
  intros w s p0 ord order fs1 next p1 idx order2 U NDo Eb Ef P21. destruct (build_fonts_ids _ _ _ _ _ _ Eb NDo) as (Le & Nd & Fo & Ex). rewrite Forall_forall in Fo.
  destruct (injectFonts_ids _ _ _ _ _ Ef) as [I1 R1]. destruct (img_objs_ids (s_imgs s) next) as [Di Fi]. rewrite Forall_forall in Fi.
  set (new := flat_map (objs_at (fold_left set_index idx fs1)) order2).
  assert (En : new = flat_map (objs_at fs1) order2) by (unfold new; apply flat_map_ext; intros h; apply set_index_objs).
  assert (Pn : Permutation (map oid new) (flat_map (ids_at fs1) order)) by (rewrite En, objs_ids; apply Permutation_flat_map; exact P21).
  assert (Nnew : forall i, In i (map oid new) -> maxID (objs p0) < i <= next) by (intros i Hi; apply Fo; eapply Permutation_in; [exact Pn|exact Hi]).
  assert (Old : forall o, In o (objs p1) -> oid o <= maxID (objs p0)).
  { intros o Ho. apply (in_map oid) in Ho. rewrite I1 in Ho. apply in_map_iff in Ho. destruct Ho as (o' & <- & Ho). apply maxID_ge. exact Ho. }
  rewrite !map_app. apply nodup_join; [rewrite I1; exact U| |].
  - apply nodup_join; [eapply Permutation_NoDup; [symmetry; exact Pn|exact Nd]|exact Di|]. intros i X Y. apply Nnew in X. apply Fi in Y. lia.
  - intros i X Y. apply in_map_iff in X. destruct X as (o & <- & X). apply Old in X. apply in_app_or in Y. destruct Y as [Y|Y]; [apply Nnew in Y; lia|apply Fi in Y; lia].
Qed.

Theorem no_pages_never : forall gw rnd cfg t F w f cs log ch s s' F',
  document gw rnd cfg t F -> blen F < 10 ^ 10 -> real_infos t -> no_words F -> pages_of t = [] ->
  history w (S (S f)) (KOpen F :: cs) new_pdft = Ok (s, log) -> Forall adds cs -> fair (ch_ord ch) ->
  saveTo w (S (S f)) ch s <> Ok (s', Ok F').
Proof.
  intros gw rnd cfg t F w f cs log ch s s' F' D Hs NI NW Np Hh Ha Fr Sv.
  destruct (doc_any _ _ _ _ _ D) as (g0 & g & bs & enc & l & fs & xs & Sg & R & EF & En & _ & B0 & B1 & _ & _ & _ & FL & _).
  rewrite Np in FL. inversion FL; subst l. cbn [map List.length flat_map] in B1. change (Z.of_nat 0) with 0 in B1.
  subst F. apply real_of in NI. set (info := info_of t) in *. clearbody info.
  assert (He : match enc with Some e => 0 <= e | None => True end) by (destruct enc as [e|]; [apply En; reflexivity|exact Logic.I]).
  destruct (no_words_in bs enc info Hs) as (O1 & O2 & O3); [intros e E; apply En; exact E|exact NW|].
  destruct (parse_doc (w_float w) f bs enc info _ _ 0 [] [] Hs He NI O1 O2 O3 B0 B1 (Forall2_nil _)) as (_ & xr & EP).
  pose proof (reached_names _ _ _ _ _ Hh) as Nm. cbn [history] in Hh. apply bind_ok in Hh as ([s1 e1] & E1 & Hh). cbn [fst snd] in Hh. apply bind_ok in Hh as ([s2 l2] & E2 & Hh). cbn [fst snd] in Hh. assert (s = s2) by congruence. subst s2.
  cbn [call_of] in E1. unfold openFrom in E1. change (s_doc new_pdft) with nodoc in E1. rewrite EP in E1.
  assert (Es1 : d_pdf (s_doc s1) = mkPdf 1 (opened bs)).
  { destruct (page_sizes _ _ _ _ _) as (sz, [u|er| |]); try discriminate; unfold ok, fails in E1; apply (f_equal (fun r => match r with Ok (a, _) => d_pdf (s_doc a) | _ => d_pdf (s_doc s1) end)) in E1; rewrite <- E1; reflexivity. }
  pose proof (history_extends _ _ _ _ _ _ Ha E2) as (Rt & extra & Ex). pose proof (history_grows _ _ _ _ _ _ (adds_open _ Ha) E2) as Gr. rewrite Es1 in Rt, Ex, Gr. cbn [root objs] in Rt, Ex.
  assert (Un : NoDup (map oid (opened bs))) by (rewrite opened_ids; apply FinFun.Injective_map_NoDup; [intros x y; lia|apply seq_NoDup]).
  pose proof (grows_nodup _ _ Gr Un) as Un2. rewrite Ex in Un2.
  assert (Ep : d_pdf (s_doc s) = mkPdf 1 (opened bs ++ extra)) by (destruct (d_pdf (s_doc s)) as [r0 o0]; cbn [root objs] in Rt, Ex; congruence).
  destruct (save_steps _ _ _ _ _ _ Sv Fr) as (order & order2 & fs1 & next & p1 & idx & p4 & names & p5 & os & en & P1 & P2 & Eb & Ef & Ei & _).
  set (p0 := d_pdf (s_doc s)) in *. clearbody p0. subst p0.
  assert (G : forall more, NoDup (map oid (opened bs ++ more)) -> getObj 1 (opened bs ++ more) = Ok (mkObj 1 ([10] ++ catalog_build)) /\ getObj 2 (opened bs ++ more) = Ok (mkObj 2 ([10] ++ pages_build (cfg_w cfg) (cfg_h cfg) 0 []))).
  { intros more U. pose proof (nth_error_In _ _ (opened_at _ _ _ B0)) as A0. pose proof (nth_error_In _ _ (opened_at _ _ _ B1)) as A1. change (1 + Z.of_nat 0) with 1 in A0. change (1 + Z.of_nat 1) with 2 in A1.
    split; [exact (getObj_one _ (mkObj 1 _) U (in_or_app _ _ _ (or_introl A0)))|exact (getObj_one _ (mkObj 2 _) U (in_or_app _ _ _ (or_introl A1)))]. }
  assert (O : p1 = mkPdf 1 (opened bs ++ extra)).
  { destruct (G extra Un2) as (G1 & G2). unfold injectFonts in Ef. cbn [objs root] in Ef. unfold fontPath in Ef. rewrite (page_crawl_end _ _ _ _ _ _ Fr G1 G2) in Ef. cbn [bind] in Ef.
    destruct (none_here (B"Font") (cfg_w cfg) (cfg_h cfg) (or_introl eq_refl)) as (V1 & V2).
    rewrite max_none in Ef by (apply (ord_items _ _ _ _ (fun l => valOf (B"Font") l = None)); assumption). cbn [bind] in Ef.
    rewrite replace_none in Ef by (apply (ord_items _ _ _ _ (fun l => valOf (B"Font") l = None)); assumption). cbn [bind] in Ef.
    assert (Z0 : ch_ord ch [5] bytes [] = []) by (apply Permutation_nil; symmetry; apply Fr). rewrite Z0 in Ef. cbn [replaceAll bind] in Ef. congruence. }
  assert (NDo : NoDup order) by (eapply Permutation_NoDup; [symmetry; exact P1|exact Nm]). assert (P21 : Permutation order2 order) by (rewrite P1; exact P2).
  pose proof (fresh_numbers w s (mkPdf 1 (opened bs ++ extra)) _ _ _ _ _ _ _ Un2 NDo Eb Ef P21) as N3.
  subst p1. cbn [objs root] in Ei, N3. rewrite <- app_assoc in Ei, N3. destruct (G (extra ++ flat_map (objs_at (fold_left set_index idx fs1)) order2 ++ img_objs (s_imgs s) next) N3) as (G1 & G2).
  unfold injectImgs in Ei. cbn [objs root] in Ei. rewrite (page_crawl_end _ _ _ _ _ _ Fr G1 G2) in Ei. cbn [bind] in Ei.
  destruct (none_here (B"Resources") (cfg_w cfg) (cfg_h cfg) (or_intror eq_refl)) as (V1 & V2).
  rewrite first_none in Ei by (apply (ord_items _ _ _ _ (fun l => valOf (B"Resources") l = None)); assumption). cbn [bind] in Ei. discriminate Ei.
Qed.

Theorem unsaved : forall gw rnd cfg t F w f cs log ch s s' F',
  document gw rnd cfg t F -> blen F < 10 ^ 10 -> real_infos t -> no_words F -> pages_of t = [] \/ Exists blank_page (pages_of t) ->
  history w (S (S f)) (KOpen F :: cs) new_pdft = Ok (s, log) -> Forall adds cs -> fair (ch_ord ch) ->
  maxID (objs (d_pdf (s_doc s))) + 6 * Z.of_nat (List.length (names_of s)) + Z.of_nat (List.length (s_imgs s)) < 2 ^ 63 ->
  saveTo w (S (S f)) ch s <> Ok (s', Ok F').
Proof. intros gw rnd cfg t F w f cs log ch s s' F' D Hs NI NW [E|E] Hh Ha Fr Ro; [eapply no_pages_never; eauto|eapply blank_never; eauto]. Qed.
