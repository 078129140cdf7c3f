(** Reading back the texts that crawl_result.go and crawl_result_font.go write. *)
From Coq Require Import String List ZArith Lia Bool Permutation.
From Verif Require Import Base BaseProofs Output Props PropsFlat PropsWrite PropsRead PropsNorm PropsStable PropsRefs PdfData PagesSpec PagesEdit
  Crawl Inject CrawlProofs Squeeze PiecesRead PiecesNest CrawlVisits PageCrawl InjectMaps InjectNames.
Open Scope Z_scope.
Open Scope list_scope.

Definition strs (ps : list prop) : list item := map (fun p => IStr (pkey p) (pval p)) ps.
Definition visible (p : prop) : Prop := pval p = [] \/ trim_space (pval p) <> [].

Definition sp (p : prop) : piece :=
  match pval p with [] => mkPc (pkey p) [32] [] [] | v => mkPc (pkey p) [32] v [10] end.

Lemma sp_prop : forall p, pc_prop (sp p) = p.
Proof. intros [k [|c v]]; reflexivity. Qed.
Lemma sp_props : forall ps, map pc_prop (map sp ps) = ps.
Proof. induction ps as [|p ps IH]; [reflexivity|]. cbn [map]. rewrite sp_prop, IH. reflexivity. Qed.
Lemma ws1 : forall c, is_ws4 c = true -> wsp [c].
Proof. intros c H. constructor; [auto|constructor]. Qed.
Lemma sp_ok : forall p, pc_ok (sp p).
Proof.
  intros [k [|c v]]; unfold sp, pc_ok; cbn [pval pkey pc_gap pc_end]; (split; [apply ws1; reflexivity|split; [discriminate|]]); [constructor|apply ws1; reflexivity].
Qed.
Lemma sps_ok : forall ps, Forall pc_ok (map sp ps).
Proof. intros ps. apply Forall_forall. intros x H. apply in_map_iff in H. destruct H as (p & <- & _). apply sp_ok. Qed.

Lemma sp_text : forall p, visible p -> item_text (IStr (pkey p) (pval p)) = pc_text (sp p).
Proof.
  intros [k v] [H|H]; cbn [pkey pval] in *.
  - subst v. reflexivity.
  - destruct v as [|c v]; [reflexivity|]. cbn [item_text]. unfold sp, pc_text. cbn [pval pkey pc_key pc_gap pc_val pc_end].
    destruct (trim_space (c :: v)); [congruence|]. reflexivity.
Qed.

Lemma strs_text : forall ps, Forall visible ps -> items_text (strs ps) = ptext (map sp ps).
Proof.
  induction 1 as [|p ps V F IH]; [reflexivity|]. unfold strs, items_text, ptext. cbn [map flat_map].
  rewrite sp_text by auto. f_equal. exact IH.
Qed.

(** ** The entries of a font dictionary *)
Definition fprop (f : cfont) : prop := mkProp (cf_name f) (refText (cf_obj f)).
Definition fpiece (f : cfont) : piece := mkPc (cf_name f) [32] (refText (cf_obj f)) [10].

Lemma fpiece_props : forall fs, map pc_prop (map fpiece fs) = map fprop fs.
Proof. intros. rewrite map_map. reflexivity. Qed.
Lemma fpieces_ok : forall fs, Forall pc_ok (map fpiece fs).
Proof.
  intros fs. apply Forall_forall. intros x H. apply in_map_iff in H. destruct H as (f & <- & _).
  split; [apply ws1; reflexivity|split; [discriminate|apply ws1; reflexivity]].
Qed.
Lemma cfonts_ptext : forall fs, cfonts_text fs = ptext (map fpiece fs).
Proof.
  induction fs as [|f fs IH]; [reflexivity|]. unfold cfonts_text, ptext in *. cbn [map flat_map]. rewrite IH. f_equal.
  unfold pc_text, fpiece, cf_name, refText. cbn [pc_key pc_gap pc_val pc_end app]. repeat (rewrite <- ?app_assoc; cbn [app]). reflexivity.
Qed.

(** A name that can be written in a dictionary. *)
Definition plain_name (k : bytes) : Prop :=
  Forall (fun c => 0 <= c < 128 /\ is_ws4 c = false /\ c <> 47 /\ c <> 60 /\ c <> 62 /\ c <> 91 /\ c <> 93) k /\
  no_occ stream_kw k.

Lemma plain_key : forall k, plain_name k -> Forall key_char k.
Proof. intros k (F & _). eapply Forall_impl; [|exact F]. intros c H. cbn beta in H. unfold key_char, ascii. tauto. Qed.
Lemma plain_bal : forall k, plain_name k -> bal 0 0 k = true.
Proof.
  intros k (F & _). induction F as [|c k H F IH]; [reflexivity|]. cbn [bal]. unfold cnt1, cnt2.
  destruct (Z.eqb_spec c 60), (Z.eqb_spec c 62), (Z.eqb_spec c 91), (Z.eqb_spec c 93); try lia. exact IH.
Qed.

Lemma num_not_stream : forall c, num_char c -> ~ In c stream_kw.
Proof. intros c H I'. unfold num_char in H. cbn in I'. lia. Qed.

Lemma no_occ_cut : forall n a b, no_occ n (a ++ b) -> no_occ n a.
Proof.
  intros n a b H m X. apply (H m). apply occ_app_l. exact X.
Qed.

Lemma no_occ_nums : forall w a, Forall num_char w -> no_occ stream_kw a -> no_occ stream_kw (a ++ w).
Proof.
  induction w as [|c w IH]; intros a F N; [rewrite app_nil_r; auto|]. inversion F as [|? ? C F2]; subst.
  apply no_occ_sep; [discriminate|apply num_not_stream; auto|auto|]. apply (IH []); auto. apply no_occ_nil.
Qed.

Lemma name_plain : forall p i, plain_name p -> plain_name (p ++ itoa i).
Proof.
  intros p i (F & N). split.
  - apply Forall_app. split; auto. eapply Forall_impl; [|apply itoa_chars]. intros c H. unfold num_char in H. unfold is_ws4. lia.
  - apply no_occ_nums; auto. apply itoa_chars.
Qed.

Lemma plain_cut : forall n k, plain_name k -> plain_name (firstn n k).
Proof.
  intros n k (F & N). rewrite <- (firstn_skipn n k) in N, F. apply Forall_app in F. split; [tauto|]. eapply no_occ_cut; eauto.
Qed.

Lemma wlist_app1 : forall ps, Forall (fun p => Forall key_char (pkey p) /\ no_occ stream_kw (pkey p) /\ wvalue (pval p)) ps -> wlist ps.
Proof.
  intros ps F. split; [|split].
  - eapply Forall_impl; [|exact F]. intros p (K & S & (V1 & V2 & V3 & V4 & V5 & V6 & V7)). split; [split; auto|split; auto].
  - induction F as [|p ps (K & S & (V1 & V2 & V3 & V4 & V5 & V6 & V7)) F IH]; [constructor|]. apply wr_cons; auto.
  - intros ps0 p E. subst ps. apply Forall_app in F. destruct F as (_ & F). inversion F as [|? ? (K & S & (V1 & V2 & V3 & V4 & V5 & V6 & V7)) _]; subst.
    destruct (pval p) as [|c v] eqn:Ev; [congruence|]. change (47 :: pkey p ++ c :: v) with ((47 :: pkey p) ++ c :: v).
    rewrite last_app_nn by discriminate. exact V7.
Qed.

Lemma ref_quiet : forall n, quiet (refText n).
Proof.
  intros n. unfold quiet, refText. change (32 :: (itoa n ++ B" 0 R") ++ [32]) with ([32] ++ (itoa n ++ B" 0 R") ++ [32]).
  rewrite <- app_assoc. apply lf_lead; [apply ws1; reflexivity|]. change (B" 0 R" ++ [32]) with [32; 48; 32; 82; 32].
  assert (W : nowsp (itoa n)).
  { eapply Forall_impl; [|apply itoa_chars]. intros c H. unfold num_char in H. unfold is_ws4. lia. }
  pose proof (itoa_nonnil n) as Nn. pose proof (itoa_chars n) as C. destruct (itoa n) as [|c t]; [congruence|].
  inversion C as [|? ? Cc Ct]; subst. cbn [app lone_free]. change (is_ws4 32) with true. cbn [andb].
  assert (L : lone (c :: t ++ [32; 48; 32; 82; 32]) = false).
  { unfold num_char in Cc. unfold lone. destruct (t ++ [32; 48; 32; 82; 32]); [reflexivity|].
    destruct (Z.eqb_spec c 60), (Z.eqb_spec c 62); try lia; reflexivity. }
  rewrite L. cbn [negb andb]. change (lone_free ((c :: t) ++ [32; 48; 32; 82; 32]) = true). rewrite lf_nowsp by auto. reflexivity.
Qed.

Lemma bal_ref : forall n, bal 0 0 (refText n) = true.
Proof.
  intros n. unfold refText. assert (X : forall w s, Forall num_char w -> bal 0 0 (w ++ s) = bal 0 0 s).
  { induction 1 as [|c w C F IH]; [reflexivity|]. unfold num_char in C. cbn [app bal]. unfold cnt1, cnt2.
    destruct (Z.eqb_spec c 60), (Z.eqb_spec c 62), (Z.eqb_spec c 91), (Z.eqb_spec c 93); try lia. exact IH. }
  rewrite X by apply itoa_chars. reflexivity.
Qed.

Definition named (f : cfont) : Prop := plain_name (cf_name f).

Lemma fonts_nestable : forall fs, Forall named fs -> nestable (map fpiece fs).
Proof.
  intros fs F. unfold nestable. split; [apply fpieces_ok|]. rewrite fpiece_props. split; [|split].
  - apply wlist_app1. apply Forall_forall. intros p H. apply in_map_iff in H. destruct H as (f & <- & Hf).
    rewrite Forall_forall in F. specialize (F f Hf). cbn [fprop pkey pval]. split; [apply plain_key; auto|].
    split; [apply F|]. apply svalue_wvalue. apply ref_svalue1.
  - apply Forall_forall. intros p H. apply in_map_iff in H. destruct H as (f & <- & Hf).
    rewrite Forall_forall in F. specialize (F f Hf). split; cbn [fprop pkey pval]; [apply plain_bal; auto|apply bal_ref].
  - apply Forall_forall. intros p H. apply in_map_iff in H. destruct H as (f & <- & Hf). apply ref_quiet.
Qed.

Lemma ref_norm : forall n, norm (refText n) = refText n.
Proof. intros n. pose proof (ref_svalue1 n) as (_ & _ & _ & _ & H & _). apply nrm_norm_id. auto. Qed.
Lemma fprop_norm : forall fs, map nprop (map fprop fs) = map fprop fs.
Proof. intros. rewrite map_map. apply map_ext. intros f. unfold nprop, fprop. cbn [pkey pval]. rewrite ref_norm. reflexivity. Qed.

(** The text of a font dictionary, inside another dictionary or as an object. *)
Definition fonts_dict (fs : list cfont) : bytes := dtext [10] (map fpiece fs).

Lemma fonts_read : forall fs, Forall named fs -> readProperties (dictwrap (cfonts_text fs)) = Ok (map fprop fs).
Proof.
  intros fs F. pose proof (fonts_nestable fs F) as (Ok' & Wl & _). rewrite cfonts_ptext.
  replace (dictwrap (ptext (map fpiece fs))) with (dtext [10] (map fpiece fs) ++ [10])
    by (unfold dictwrap, dtext; rewrite <- !app_assoc; reflexivity).
  rewrite pieces_read by (auto; apply ws1; reflexivity). rewrite fpiece_props, fprop_norm. reflexivity.
Qed.

Lemma dict_type : forall v, (exists t, v = B"<<" ++ t ++ B">>") -> propertyType v = PObject.
Proof.
  intros v (t & E). unfold propertyType.
  assert (T : trim_space v = v).
  { apply trim_space_id. subst v. split.
    - change (B"<<" ++ t ++ B">>") with (60 :: 60 :: t ++ B">>"). apply space_len_cons; [unfold ascii; lia|reflexivity].
    - replace (B"<<" ++ t ++ B">>") with ((B"<<" ++ t ++ [62]) ++ [62]) by (rewrite <- !app_assoc; reflexivity).
      rewrite rev_app_distr. cbn [rev app]. apply rspace_len_cons; [unfold ascii; lia|reflexivity]. }
  rewrite T. subst v. rewrite !blen_app. change (blen (B"<<")) with 2. change (blen (B">>")) with 2.
  pose proof (blen_nonneg t). destruct (Z.ltb_spec 2 (2 + (blen t + 2))); [reflexivity|lia].
Qed.

Lemma nest_type : forall lead L, wsp lead -> nestable L -> propertyType (norm (dtext lead L)) = PObject.
Proof.
  intros lead L W N. rewrite norm_dtext by auto. apply dict_type. eauto.
Qed.
