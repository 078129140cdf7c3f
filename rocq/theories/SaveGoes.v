(** Saving succeeds. *)
From Coq Require Import String List ZArith Lia Bool Permutation FinFun.
From Coq.Floats Require Import SpecFloat.
From Verif Require Import Base BaseProofs Output OutputProofs Props PropsSpec PdfData PagesSpec PagesProofs PagesEdit Crawl Inject InjectSpec InjectPages InjectFonts InjectTidy ImgNames ImgSpec ImgPages
  Crypto Png Utf8 Float64 Ttf CharMap Subset Text Wrap Parse Api ApiSpec ApiProofs ApiIds ApiFrames ApiFresh ContentSpec ContentProofs ContentFinal FontChain
  SaveSpec SaveFrame SaveKeeps SaveFonts SaveImages SaveDraws SaveWhole SaveCalls SaveGoesSpec SaveGoesFonts SaveGoesImages SaveGoesStep SaveHeld.
Open Scope Z_scope.
Open Scope list_scope.

(** ** Texts *)
Definition widths_known (t : ttf) (m : charmap) : Prop := forall g, In g (map snd m) -> exists w, glyph_width t g = Ok w.
Definition font_goes (f : font) : Prop := widths_known (fd_ttf f) (fd_map f) /\ exists d, make_font (fd_ttf f) (fd_beyond f) (fd_map f) = Ok d.

Lemma val_in : forall (m : charmap) r g, val_of m r = Some g -> In g (map snd m).
Proof. induction m as [|[a v] m IH]; intros r g H; cbn [val_of] in H; [discriminate|]. cbn [map snd]. destruct (a =? r); [left; congruence|right; eauto]. Qed.
Lemma width_scale : forall t g w, glyph_width t g = Ok w -> unitsPerEm t <> 0.
Proof. intros t g w H. unfold glyph_width in H. cbv zeta in H. apply bind_ok in H as (v & _ & H). destruct (unitsPerEm t =? 1000) eqn:E; [lia|]. destruct (unitsPerEm t =? 0) eqn:E0; [discriminate|lia]. Qed.
Lemma content_goes : forall f size text rs fst0 lft lg idx out sum, widths_known (sf_ttf f) (sf_map f) ->
  exists out' r, content_loop f size text rs fst0 lft lg idx out sum = (out', r) /\ ((exists v, r = Ok v) \/ exists e, r = Err e).
Proof.
  intros f size text. induction rs as [|r rs IH]; intros fst0 lft lg idx out sum W; cbn [content_loop]; [exists out, (Ok sum); split; [reflexivity|]; left; eauto|].
  unfold char_index, char_width. destruct (val_of (sf_map f) r) as [g|] eqn:E; [|exists out, (Err ECharNotFound); split; [reflexivity|]; right; eauto]. destruct (W g (val_in _ _ _ E)) as (wd & Ew). pose proof (width_scale _ _ _ Ew) as Nz.
  cbv zeta.
  assert (K : exists kv, match sf_kern f with Some k => if fst0 then Ok 0 else ttf_to_pdf (kern_of k lft r lg g) (unitsPerEm (sf_ttf f)) | None => Ok 0 end = Ok kv).
  { destruct (sf_kern f) as [k|]; [|eauto]. destruct fst0; [eauto|]. unfold ttf_to_pdf. destruct (Z.eqb_spec (unitsPerEm (sf_ttf f)) 0); [contradiction|]. destruct (_ <? 0); eauto. }
  destruct K as (kv & ->). rewrite Ew. apply IH. exact W.
Qed.
Lemma text_goes : forall f index c, widths_known (sf_ttf f) (sf_map f) -> exists t, text_stream f index c = Ok t.
Proof.
  intros f index c W. unfold text_stream, content. destruct (content_goes f (ct_size c) (ct_text c) (runes (ct_text c)) true 0 0 0 (B"[<") 0 W) as (out & r & -> & [(v & ->)|(e & ->)]); cbv zeta; eauto.
Qed.

(** ** Fonts *)
Lemma array_goes : forall t gs, (forall g, In g gs -> exists w, glyph_width t g = Ok w) -> exists l, w_array t gs = Ok l.
Proof.
  intros t. induction gs as [|g gs IH]; intros H; cbn [w_array]; [eauto|]. destruct (H g (or_introl eq_refl)) as (w & ->). destruct IH as (l & ->); [intros; apply H; right; assumption|]. cbn [bind]. eauto.
Qed.
Lemma build_goes1 : forall w f start, font_goes f -> exists f', font_build w f start = Ok f' /\ font_goes f' /\ sfont_of f' = sfont_of f.
Proof.
  intros w f start (W & d & M). unfold font_build, cid_obj, dict_obj. cbv zeta. destruct (array_goes _ _ W) as (l & ->). rewrite M. cbn [bind]. destruct (fd_bufs f) as [[[[b1 b2] b3] b4] b5].
  eexists. split; [reflexivity|]. split; [|reflexivity]. split; [exact W|]. exists d. exact M.
Qed.
Lemma set_len : forall (A : Type) k (g : A -> A) l, List.length (set_nth k g l) = List.length l.
Proof. intros A k g l. revert k. induction l as [|a l IH]; intros [|k]; cbn [set_nth List.length]; auto. Qed.
Lemma set_all : forall (A : Type) (P : A -> Prop) k (g : A -> A) l, Forall P l -> (forall a, nth_error l k = Some a -> P (g a)) -> Forall P (set_nth k g l).
Proof.
  intros A P k g l F. revert k. induction F as [|a l Ha F IH]; intros [|k] H; cbn [set_nth]; [constructor|constructor| |].
  - constructor; [apply H; reflexivity|exact F].
  - constructor; [exact Ha|]. apply IH. intros b Hb. apply H. exact Hb.
Qed.
Lemma build_goes : forall w ids fs next, Forall (fun k => (k < List.length fs)%nat) ids -> Forall font_goes fs ->
  exists fs1 next', build_fonts w ids fs next = (fs1, Ok next') /\ Forall font_goes fs1 /\ List.length fs1 = List.length fs /\ next' = next + 6 * Z.of_nat (List.length ids).
Proof.
  intros w. induction ids as [|id ids IH]; intros fs next L F; cbn [build_fonts].
  - exists fs, next. split; [reflexivity|]. split; [exact F|]. split; [reflexivity|]. cbn [List.length]. lia.
  - inversion L as [|? ? L1 L2]; subst. destruct (nth_error fs id) as [f|] eqn:E; [|apply nth_error_None in E; lia]. rewrite Forall_forall in F.
    destruct (build_goes1 w f (next + 1) (F f (nth_error_In _ _ E))) as (f' & -> & G & _).
    destruct (IH (set_nth id (fun _ => f') fs) (next + 6)) as (fs1 & next' & E1 & G1 & L3 & E2).
    + eapply Forall_impl; [|exact L2]. intros k Hk. rewrite set_len. exact Hk.
    + apply set_all; [apply Forall_forall; exact F|]. intros a _. exact G.
    + exists fs1, next'. split; [exact E1|]. split; [exact G1|]. split; [rewrite L3; apply set_len|]. rewrite E2. cbn [List.length]. lia.
Qed.
Lemma contents_go : forall fs is cs, Forall (fun f => widths_known (sf_ttf f) (sf_map f)) (map sfont_of fs) -> Forall (fine (List.length fs) (List.length is)) cs -> exists ins, map (content_of fs is) cs = calls ins.
Proof.
  intros fs is cs W F. induction F as [|c cs Fc F (ins & IH)]; [exists []; reflexivity|].
  assert (X : exists k t, content_of fs is c = (k, Ok t)).
  { destruct c as [d wd|id c|id pg x y wd h ph]; cbn [fine content_of] in *; [eauto| |].
    - destruct (nth_error fs id) as [f|] eqn:E; [|apply nth_error_None in E; lia]. rewrite Forall_forall in W. destruct (text_goes (sfont_of f) (fd_index f) c) as (t & ->); [|eauto].
      apply W. apply in_map. eapply nth_error_In; eauto.
    - destruct (nth_error is id) as [i|] eqn:E; [eauto|apply nth_error_None in E; lia]. }
  destruct X as (k & t & X). exists ((k, t) :: ins). cbn [map calls]. rewrite X, IH. reflexivity.
Qed.

Section Goes.
  Variables (w : world) (fuel : nat) (ch : choices) (s : state) (rid : Z) (ts : list tree) (fi xi : Z -> res_place) (srcs : list (option (Z * bytes))).
  Notation p0 := (d_pdf (s_doc s)).
  Notation ids := (flat_map leaves ts).
  Notation top := (root p0 :: rid :: flat_map tree_ids ts).
  Hypothesis Fr : fair (ch_ord ch).
  Hypothesis Held : held s.
  Hypothesis Names : names_ok s.
  Hypothesis RD : ready_document p0 rid ts fi xi.
  Hypothesis Src : Forall2 (source (w_inflate w) (objs p0)) ids srcs.
  Hypothesis Apart : forall c, In c (content_ids srcs) -> ~ In c top /\ ~ page_object ids fi c.
  Hypothesis Deep : (depth (Node rid ts) <= fuel)%nat.
  Hypothesis Rf : forall L fps, In L ids -> offered (fi L) = Some fps -> Forall readable_font fps.
  Hypothesis Some_res : exists L, In L ids /\ xi L <> NoRes.
  Hypothesis Rec : forall L, In L ids -> recognised (objs p0) L (fi L).
  Hypothesis Fonts : Forall font_goes (s_fonts s).
  Hypothesis Room : maxID (objs p0) + 6 * Z.of_nat (List.length (names_of s)) + Z.of_nat (List.length (s_imgs s)) < 2 ^ 63.

  Lemma new_numbers : forall ord order fs1 next p1 idx, NoDup order -> build_fonts w order (s_fonts s) (maxID (objs p0)) = (fs1, Ok next) ->
    injectFonts ord p0 (map (fun h => (Z.of_nat h, match nth_error fs1 h with Some f => fd_id f | None => 0 end)) order) = Ok (p1, idx) ->
    forall order2, Permutation order2 order ->
    NoDup (map oid (objs p1 ++ flat_map (objs_at (fold_left set_index idx fs1)) order2 ++ img_objs (s_imgs s) next)).
  Proof using RD.
    clear Apart Deep Rf Rec.
    intros ord order fs1 next p1 idx NDo Eb Ef order2 P21. destruct (build_fonts_ids _ _ _ _ _ _ Eb NDo) as (Le & Nd & Fo & Ex). rewrite Forall_forall in Fo.
    destruct (injectFonts_ids _ _ _ _ _ Ef) as [I1 R1]. destruct (img_objs_ids (s_imgs s) next) as [Di Fi]. rewrite Forall_forall in Fi.
    set (new := flat_map (objs_at (fold_left set_index idx fs1)) order2).
    assert (En : new = flat_map (objs_at fs1) order2) by (unfold new; apply flat_map_ext; intros h; apply set_index_objs).
    assert (Pn : Permutation (map oid new) (flat_map (ids_at fs1) order)) by (rewrite En, objs_ids; apply Permutation_flat_map; exact P21).
    assert (Nnew : forall i, In i (map oid new) -> maxID (objs p0) < i <= next) by (intros i Hi; apply Fo; eapply Permutation_in; [exact Pn|exact Hi]).
    assert (Old : forall o, In o (objs p1) -> oid o <= maxID (objs p0)).
    { intros o Ho. apply (in_map oid) in Ho. rewrite I1 in Ho. apply in_map_iff in Ho. destruct Ho as (o' & <- & Ho). apply maxID_ge. exact Ho. }
    rewrite !map_app. apply nodup_join; [rewrite I1; apply (td_unique _ _ _ _ (rd_fonts _ _ _ _ _ RD))| |].
    - apply nodup_join; [eapply Permutation_NoDup; [symmetry; exact Pn|exact Nd]|exact Di|]. intros i X Y. apply Nnew in X. apply Fi in Y. lia.
    - intros i X Y. apply in_map_iff in X. destruct X as (o & <- & X). apply Old in X. apply in_app_or in Y. destruct Y as [Y|Y]; [apply Nnew in Y; lia|apply Fi in Y; lia].
  Qed.

  (** Everything up to the protection goes. *)
  Theorem save_runs : s_prot s = None -> exists s' F, saveTo w fuel ch s = Ok (s', Ok F).
  Proof.
    intros Pr. unfold saveTo. cbv zeta.
    set (handles := match s_names s with Some n => map (fun x => (Z.of_nat (snd x), tt)) n | None => [] end).
    assert (Hh : handles = map (fun x => (Z.of_nat (snd x), tt)) (names_of s)) by (unfold handles, names_of; destruct (s_names s); reflexivity).
    clearbody handles. subst handles. set (handles := map (fun x => (Z.of_nat (snd x), tt)) (names_of s)).
    assert (Hm : map (fun x => Z.to_nat (fst x)) handles = map snd (names_of s)).
    { unfold handles. rewrite map_map. apply map_ext. intros x. cbn. lia. }
    pose proof (Fr [31] _ handles) as P31. pose proof (Fr [32] _ handles) as P32.
    set (h31 := ch_ord ch [31] unit handles) in *. set (h32 := ch_ord ch [32] unit handles) in *.
    apply (Permutation_map (fun x => Z.to_nat (fst x))) in P31. apply (Permutation_map (fun x => Z.to_nat (fst x))) in P32.
    rewrite Hm in P31, P32. clearbody h31 h32.
    set (order := map (fun x => Z.to_nat (fst x)) h31) in *. set (order2 := map (fun x => Z.to_nat (fst x)) h32) in *.
    destruct Names as (ND & NL).
    assert (NDo : NoDup order) by (eapply Permutation_NoDup; [symmetry; exact P31|exact ND]).
    destruct (build_goes w order (s_fonts s) (maxID (objs p0))) as (fs1 & next & Eb & G1 & L1 & Enx).
    { apply Forall_forall. intros k Hk. rewrite Forall_forall in NL. apply NL. eapply Permutation_in; [exact P31|exact Hk]. }
    { exact Fonts. }
    rewrite Eb.
    destruct (injectFonts_goes (ch_ord ch) p0 (map (fun h => (Z.of_nat h, match nth_error fs1 h with Some f => fd_id f | None => 0 end)) order) rid ts fi Fr (rd_fonts _ _ _ _ _ RD)) as (p1 & idx & Ef).
    { intros L fps HL Hf. rewrite <- offered_is in Hf. eauto. }
    rewrite Ef.
    set (new := flat_map _ h32).
    assert (En : new = flat_map (objs_at (fold_left set_index idx fs1)) order2).
    { unfold new, order2. clear. induction h32 as [|x l IH]; cbn [flat_map map]; [reflexivity|]. rewrite IH. reflexivity. }
    clearbody new. subst new. set (new := flat_map (objs_at (fold_left set_index idx fs1)) order2).
    assert (P21 : Permutation order2 order) by (rewrite P31; exact P32).
    pose proof (new_numbers _ _ _ _ _ _ NDo Eb Ef order2 P21) as N3. fold new in N3.
    set (imgs := img_objs (s_imgs s) next) in *.
    destruct (images_go p0 rid ts fi xi RD (ch_ord ch) _ idx p1 Fr Ef (new ++ imgs) (map oid imgs) N3 Some_res Rec) as (p4 & names & Ei).
    rewrite Ei. destruct (image_names _ _ _ _ _ Ei) as (Ln & _). rewrite map_length in Ln. assert (Li : List.length imgs = List.length (s_imgs s)) by apply img_objs_len.
    set (is := map (fun x => mkImage (im_data (fst x)) (fst (snd x)) (snd (snd x))) (combine (s_imgs s) names)).
    set (fs2 := fold_left set_index idx fs1) in *.
    assert (Ii : Forall is_int (map oid imgs)).
    { apply Forall_forall. intros i Hi. destruct (img_objs_ids (s_imgs s) next) as [_ Fi]. rewrite Forall_forall in Fi. apply Fi in Hi. fold imgs in Hi. pose proof (maxID_nonneg (objs p0)) as Pos.
      assert (Lo : List.length order = List.length (names_of s)) by (apply Permutation_length in P31; rewrite map_length in P31; exact P31). rewrite Lo in Enx. unfold is_int. lia. }
    pose proof (images_step _ _ _ _ _ RD _ _ _ _ Fr Ef _ _ _ _ N3 Ei Ii) as IA.
    pose proof (frame04 _ _ _ _ _ RD _ _ _ _ Fr Ef _ _ _ _ N3 IA) as S04.
    pose proof (top04 _ _ _ _ _ RD _ _ _ _ Fr Ef _ _ _ _ N3 IA) as T04.
    destruct (injectFonts_ids _ _ _ _ _ Ef) as [I1 R1]. destruct (injectImgs_ids _ _ _ _ _ Ei) as [I4 R4]. cbn [objs root] in I4, R4.
    assert (T4 : page_tree p4 (Node rid ts)) by (apply (tree_grown p0); [apply (rd_tree _ _ _ _ _ RD)|congruence|]; intros j Hj ps D; destruct (T04 j ps Hj D) as (ps' & D' & W' & _); exists ps'; auto).
    pose proof (getPageObjIDs_leaves p4 (Node rid ts) fuel T4 Deep) as Gp. cbn [leaves] in Gp.
    assert (Lt : forall L, In L ids -> In L top) by (intros L HL; apply (leaf_in' _ _ _ _ (rd_fonts _ _ _ _ _ RD)); exact HL).
    assert (S4 : Forall2 (source (w_inflate w) (objs p4)) ids srcs).
    { apply (forall2_in _ _ _ _ _ _ Src). intros L src HL Hs. apply (source_same _ _ _ (fun j => page_object ids fi j \/ In j top)).
      - intros j. destruct (page_object_dec ts fi j) as [H|H]; [left; left; exact H|]. destruct (in_dec Z.eq_dec j top) as [H'|H']; [left; right; exact H'|]. right. apply S04; auto.
      - intros j [H|H]; [eapply page_object_dict; eauto|]. apply (tree_dicts _ _ _ (rd_tree _ _ _ _ _ RD)). exact H.
      - intros ps D. destruct (T04 L ps (Lt L HL) D) as (ps' & D' & _ & C'). exists ps'. auto.
      - intros cid t -> H. assert (Hc : In cid (content_ids srcs)) by (apply in_flat_map; exists (Some (cid, t)); split; [exact Hs|left; reflexivity]).
        apply Apart in Hc. tauto. }
    assert (Faces : map sfont_of fs2 = map sfont_of fs1) by apply index_faces.
    destruct (contents_go fs2 is (s_cont s)) as (ins & Cs).
    { rewrite Faces. apply Forall_forall. intros x Hx. apply in_map_iff in Hx. destruct Hx as (f & <- & Hf). rewrite Forall_forall in G1. apply (G1 f Hf). }
    { pose proof (hd_cont _ Held) as Hc. assert (E1 : List.length fs2 = List.length (s_fonts s)) by (apply (f_equal (@List.length _)) in Faces; rewrite !map_length in Faces; congruence).
      assert (E2 : List.length is = List.length (s_imgs s)) by (unfold is; rewrite map_length, combine_length, Ln, Li; apply Nat.min_id). rewrite E1, E2. exact Hc. }
    rewrite Cs. destruct (content_at (ch_ord ch) (w_inflate w) p4 ids srcs ins fuel (ch_beyond ch) Fr Gp S4) as (p5 & Ec & _). rewrite Ec, Pr. eauto.
  Qed.
End Goes.

(** After any history. *)
Theorem save_succeeds : forall w fuel ch cs s log rid ts fi xi srcs,
  history w fuel cs new_pdft = Ok (s, log) -> fair (ch_ord ch) -> s_prot s = None ->
  ready_document (d_pdf (s_doc s)) rid ts fi xi ->
  Forall2 (source (w_inflate w) (objs (d_pdf (s_doc s)))) (flat_map leaves ts) srcs ->
  (forall c, In c (content_ids srcs) -> ~ In c (root (d_pdf (s_doc s)) :: rid :: flat_map tree_ids ts) /\ ~ page_object (flat_map leaves ts) fi c) ->
  (depth (Node rid ts) <= fuel)%nat ->
  (forall L fps, In L (flat_map leaves ts) -> offered (fi L) = Some fps -> Forall readable_font fps) ->
  (exists L, In L (flat_map leaves ts) /\ xi L <> NoRes) ->
  (forall L, In L (flat_map leaves ts) -> recognised (objs (d_pdf (s_doc s))) L (fi L)) ->
  Forall font_goes (s_fonts s) ->
  maxID (objs (d_pdf (s_doc s))) + 6 * Z.of_nat (List.length (names_of s)) + Z.of_nat (List.length (s_imgs s)) < 2 ^ 63 ->
  exists s' F, saveTo w fuel ch s = Ok (s', Ok F).
Proof.
  intros w fuel ch cs s log rid ts fi xi srcs H Fr Pr RD Sr Ap Dp Rf Sm Rc Fo Ro. apply (save_runs w fuel ch s rid ts fi xi srcs); auto.
  - eapply history_held; [exact H|]. apply new_held0.
  - eapply history_names_ok; [exact H|]. split; constructor.
Qed.
