(** The texts of resource dictionaries and pages after a font dictionary in
    them is rewritten. *)
From Coq Require Import String List ZArith Lia Bool Permutation.
From Verif Require Import Base BaseProofs Output Props PropsFlat PropsWrite PropsRead PropsNorm PropsStable PropsRefs PdfData PagesSpec PagesEdit
  Crawl Inject CrawlProofs Squeeze PiecesRead PiecesNest CrawlVisits PageCrawl InjectMaps InjectNames InjectItems.
Open Scope Z_scope.
Open Scope list_scope.

Lemma valOf_strs : forall k ps, valOf k (strs ps) = option_map pval (getPropByKey k ps).
Proof.
  intros k. induction ps as [|p ps IH]; [reflexivity|]. unfold strs in *. cbn [map valOf valOf_item getPropByKey].
  destruct (beqb (pkey p) k); [reflexivity|exact IH].
Qed.

Lemma setValOf_strs : forall k v ps, setValOf k v (strs ps) = strs (setPropByKey k v ps).
Proof.
  intros k v. induction ps as [|p ps IH]; [reflexivity|]. unfold strs in *. cbn [map setValOf setValOf_item setPropByKey].
  destruct (beqb (pkey p) k); [reflexivity|]. cbn [map]. rewrite IH. reflexivity.
Qed.

Lemma valOf_skip : forall k a l, getPropByKey k a = None -> valOf k (strs a ++ l) = valOf k l.
Proof.
  intros k. induction a as [|p a IH]; intros l H; [reflexivity|]. unfold strs in *. cbn [map app valOf valOf_item getPropByKey] in *.
  destruct (beqb (pkey p) k); [discriminate|]. apply IH. auto.
Qed.
Lemma setValOf_skip : forall k v a l, getPropByKey k a = None -> setValOf k v (strs a ++ l) = strs a ++ setValOf k v l.
Proof.
  intros k v. induction a as [|p a IH]; intros l H; [reflexivity|]. unfold strs in *. cbn [map app setValOf setValOf_item getPropByKey] in *.
  destruct (beqb (pkey p) k); [discriminate|]. rewrite IH; auto.
Qed.
Lemma valOf_cr : forall k c l l', valOf k (ICr c l :: l') = valOf k l.
Proof.
  intros k c l l'. cbn [valOf valOf_item]. induction l as [|it l IH]; [reflexivity|]. cbn [valOf].
  destruct (valOf_item k it); [reflexivity|exact IH].
Qed.
Lemma setValOf_cr : forall k v c l l', setValOf k v (ICr c l :: l') = ICr c (setValOf k v l) :: l'.
Proof.
  intros k v c l l'. cbn [setValOf setValOf_item]. f_equal. f_equal. induction l as [|it l IH]; [reflexivity|]. cbn [setValOf].
  destruct (setValOf_item k v it) as [it' []]; [reflexivity|]. rewrite IH. reflexivity.
Qed.

(** ** Pieces with one value replaced *)
Fixpoint spset (k g v e : bytes) (ps : list prop) : list piece :=
  match ps with
  | [] => []
  | p :: ps' => if beqb (pkey p) k then mkPc (pkey p) g v e :: map sp ps' else sp p :: spset k g v e ps'
  end.

Lemma spset_props : forall k g v e ps, map pc_prop (spset k g v e ps) = setPropByKey k v ps.
Proof.
  intros k g v e. induction ps as [|p ps IH]; [reflexivity|]. cbn [spset setPropByKey]. destruct (beqb (pkey p) k); cbn [map].
  - rewrite sp_props. reflexivity.
  - rewrite sp_prop, IH. reflexivity.
Qed.
Lemma spset_ok : forall k g v e ps, wsp g -> g <> [] -> wsp e -> Forall pc_ok (spset k g v e ps).
Proof.
  intros k g v e ps G Gn E. induction ps as [|p ps IH]; [constructor|]. cbn [spset]. destruct (beqb (pkey p) k); constructor; auto using sp_ok, sps_ok.
  split; auto.
Qed.
Lemma spset_quiet : forall k g v e ps, quiet v -> Forall (fun p => quiet (pval p)) ps -> Forall quiet_pc (spset k g v e ps).
Proof.
  intros k g v e ps Q F. assert (X : forall p, quiet (pval p) -> quiet_pc (sp p)).
  { intros [k0 [|c w]] H; exact H. }
  induction F as [|p ps Hp F IH]; [constructor|]. cbn [spset]. destruct (beqb (pkey p) k); constructor; auto.
  clear IH. induction F; constructor; auto.
Qed.
Lemma spset_bal : forall k v ps, bal 0 0 v = true -> Forall bal_prop ps -> Forall bal_prop (setPropByKey k v ps).
Proof.
  intros k v ps Hv F. induction F as [|p ps (H1 & H2) F IH]; [constructor|]. cbn [setPropByKey]. destruct (beqb (pkey p) k); constructor; auto; split; auto.
Qed.

Lemma set_norm : forall k v ps, Forall stable ps -> map nprop (setPropByKey k v ps) = setPropByKey k (norm v) ps.
Proof.
  intros k v ps F. induction F as [|p ps S F IH]; [reflexivity|]. cbn [setPropByKey]. destruct (beqb (pkey p) k); cbn [map].
  - f_equal. apply stable_norm. auto.
  - rewrite IH. f_equal. destruct S as (H1 & H2 & H3 & H4 & H5 & _). unfold nprop. rewrite nrm_norm_id by auto. destruct p; auto.
Qed.

Lemma items_app : forall a b, items_text (a ++ b) = items_text a ++ items_text b.
Proof. intros. unfold items_text. apply flat_map_app. Qed.

Lemma spset_text : forall k v ps, Forall visible ps -> trim_space (v ++ [10]) <> [] ->
  items_text (strs (setPropByKey k (v ++ [10]) ps)) = ptext (spset k [32] v [10; 10] ps).
Proof.
  intros k v ps V T. induction V as [|p ps Vp V IH]; [reflexivity|]. cbn [setPropByKey spset]. destruct (beqb (pkey p) k).
  - unfold strs. cbn [map pkey pval]. fold (strs ps). change (IStr (pkey p) (v ++ [10]) :: strs ps) with ([IStr (pkey p) (v ++ [10])] ++ strs ps).
    rewrite items_app, strs_text by auto. unfold ptext. cbn [flat_map]. f_equal. unfold items_text, pc_text. cbn [flat_map item_text pc_key pc_gap pc_val pc_end].
    destruct (trim_space (v ++ [10])); [congruence|]. rewrite app_nil_r. cbn [app]. do 3 f_equal. rewrite <- app_assoc. reflexivity.
  - unfold strs in *. cbn [map]. unfold items_text, ptext in *. cbn [flat_map]. rewrite IH, <- sp_text by auto. reflexivity.
Qed.

Lemma spset_split : forall k g v e a p b, getPropByKey k a = None -> pkey p = k ->
  spset k g v e (a ++ p :: b) = map sp a ++ mkPc (pkey p) g v e :: map sp b.
Proof.
  intros k g v e a p b. induction a as [|q a IH]; intros N E; cbn [app spset map].
  - rewrite E, beqb_refl. reflexivity.
  - cbn [getPropByKey] in N. destruct (beqb (pkey q) k); [discriminate|]. rewrite IH by auto. reflexivity.
Qed.
Lemma set_split : forall k v a p b, getPropByKey k a = None -> pkey p = k ->
  setPropByKey k v (a ++ p :: b) = a ++ mkProp (pkey p) v :: b.
Proof.
  intros k v a p b. induction a as [|q a IH]; intros N E; cbn [app setPropByKey].
  - rewrite E, beqb_refl. reflexivity.
  - cbn [getPropByKey] in N. destruct (beqb (pkey q) k); [discriminate|]. rewrite IH by auto. reflexivity.
Qed.

(** ** Entries written several times *)
Lemma vrun_closes : forall v c1 c2, vrun c1 c2 v <> VStop -> bal c1 c2 v = true -> vrun c1 c2 v = VClosed \/ vrun c1 c2 v = VOpen 0 0.
Proof.
  induction v as [|r v IH]; intros c1 c2 N H; cbn [vrun bal] in *.
  - right. f_equal; lia.
  - cbv zeta in *. apply andb_true_iff in H. destruct H as (_ & H).
    destruct (((r =? 93) || (r =? 62)) && ((cnt1 r c1 =? 0) && (cnt2 r c2 =? 0))); [destruct v; [left; reflexivity|congruence]|].
    destruct ((r =? 47) && ((cnt1 r c1 =? 0) && (cnt2 r c2 =? 0))); [congruence|]. apply IH; auto.
Qed.
Lemma good_complete : forall ps, good ps -> Forall (fun q => bal 0 0 (pval q) = true) ps -> Forall (fun q => complete (norm (pval q))) ps.
Proof.
  intros ps (S & W & _) F. induction W as [|q N|q ps C W IH]; [constructor| |].
  - constructor; [|constructor]. inversion S as [|? ? (_ & _ & _ & _ & Nq & _) _]; subst. inversion F; subst. rewrite nrm_norm_id in * by auto. apply vrun_closes; auto.
  - inversion S; inversion F; subst. constructor; auto.
Qed.
Lemma wf_run_all : forall ps, Forall (fun q => complete (norm (pval q))) ps -> wf_run ps.
Proof. induction 1; [constructor|]. apply wr_cons; auto. Qed.
Lemma concat_last : forall A (l : list A) n, exists a, concat (repeat l (S n)) = a ++ l.
Proof.
  intros A l n. exists (concat (repeat l n)). induction n as [|n IH]; [cbn [repeat concat app]; apply app_nil_r|].
  change (concat (repeat l (S (S n)))) with (l ++ concat (repeat l (S n))). rewrite IH at 1. apply app_assoc.
Qed.
Lemma concat_in : forall A (l : list A) n x, In x (concat (repeat l n)) -> In x l.
Proof. intros A l n x. induction n as [|n IH]; intros H; [destruct H|]. cbn [repeat concat] in H. apply in_app_or in H. tauto. Qed.
Lemma good_repeat : forall ps n, good ps -> Forall (fun q => bal 0 0 (pval q) = true) ps -> good (concat (repeat ps (S n))).
Proof.
  intros ps n G F. pose proof (good_complete ps G F) as C. destruct G as (S & _ & L). split; [|split].
  - apply Forall_forall. intros q Hq. apply concat_in in Hq. rewrite Forall_forall in S. auto.
  - apply wf_run_all. apply Forall_forall. intros q Hq. apply concat_in in Hq. rewrite Forall_forall in C. auto.
  - intros ps0 q E. destruct (concat_last _ ps n) as (a & Ea). rewrite Ea in E. destruct ps as [|q0 ps'] eqn:Ep.
    + exfalso. clear - E Ea. assert (X : forall k, concat (repeat (@nil prop) k) = []) by (induction k; auto). rewrite X in Ea. destruct a; [|discriminate]. destruct ps0; discriminate.
    + rewrite <- Ep in *. destruct (exists_last (l := ps)) as (b & q' & Eb); [congruence|]. rewrite Eb in *. rewrite app_assoc in E. apply app_inj_tail in E. destruct E as (_ & ->).
      eapply L; eauto.
Qed.
Lemma strs_repeat : forall ps n, concat (repeat (strs ps) n) = strs (concat (repeat ps n)).
Proof. intros ps n. unfold strs. induction n as [|n IH]; [reflexivity|]. cbn [repeat concat]. rewrite map_app, IH. reflexivity. Qed.

(** ** The font dictionary as a value *)
Lemma fonts_wvalue : forall fs, Forall named fs -> wvalue (fonts_dict fs) /\ quiet (fonts_dict fs) /\ bal 0 0 (fonts_dict fs) = true.
Proof. intros fs F. apply nest_wvalue; [apply ws1; reflexivity|apply fonts_nestable; auto]. Qed.
Lemma fonts_nested : forall fs, Forall named fs -> readProperties (norm (fonts_dict fs)) = Ok (map fprop fs) /\ propertyType (norm (fonts_dict fs)) = PObject.
Proof.
  intros fs F. pose proof (fonts_nestable fs F) as N. split; [|apply nest_type; auto; apply ws1; reflexivity].
  unfold fonts_dict. rewrite nest_read by (auto; apply ws1; reflexivity). rewrite fpiece_props, fprop_norm. reflexivity.
Qed.
Lemma dict_trimmed : forall t, trimmed (B"<<" ++ t ++ B">>").
Proof.
  intros t. split.
  - change (B"<<" ++ t ++ B">>") with (60 :: 60 :: t ++ B">>"). apply space_len_cons; [unfold ascii; lia|reflexivity].
  - replace (B"<<" ++ t ++ B">>") with ((B"<<" ++ t ++ [62]) ++ [62]) by (rewrite <- !app_assoc; reflexivity).
    rewrite rev_app_distr. cbn [rev app]. apply rspace_len_cons; [unfold ascii; lia|reflexivity].
Qed.
Lemma dict_trim : forall t, trim_space ((B"<<" ++ t ++ B">>") ++ [10]) <> [].
Proof.
  intros t H. pose proof (trim_space_pad [] (B"<<" ++ t ++ B">>") [10] eq_refl eq_refl (dict_trimmed t)) as E.
  change ([] ++ (B"<<" ++ t ++ B">>") ++ [10]) with ((B"<<" ++ t ++ B">>") ++ [10]) in E. rewrite H in E. discriminate.
Qed.
Lemma fonts_trim : forall fs, trim_space (fonts_dict fs ++ [10]) <> [].
Proof. intros fs. unfold fonts_dict, dtext. rewrite (app_assoc [10]). apply dict_trim. Qed.

Lemma font_value : forall fs, B"<<" ++ [10] ++ cfonts_text fs ++ B">>" ++ [10] = fonts_dict fs ++ [10].
Proof. intros fs. rewrite cfonts_ptext. unfold fonts_dict, dtext. rewrite <- !app_assoc. reflexivity. Qed.

(** A resource dictionary that is an object of its own. *)
Lemma res_text : forall fs new rps, Forall named (fs ++ new) -> good rps -> Forall visible rps ->
  readProperties (dictwrap (inline_text new fs (strs rps))) = Ok (setPropByKey (B"Font") (norm (fonts_dict (fs ++ new))) rps).
Proof.
  intros fs new rps F G V. unfold inline_text. rewrite font_value, setValOf_strs, spset_text by (auto using fonts_trim).
  set (L := spset (B"Font") [32] (fonts_dict (fs ++ new)) [10; 10] rps).
  replace (dictwrap (ptext L)) with (dtext [10] L ++ [10]) by (unfold dictwrap, dtext; rewrite <- !app_assoc; reflexivity).
  rewrite pieces_read; try (apply ws1; reflexivity).
  - unfold L. rewrite spset_props, set_norm by apply G. reflexivity.
  - apply spset_ok; [apply ws1; reflexivity|discriminate|]. repeat (constructor; [reflexivity|]). constructor.
  - unfold L. rewrite spset_props. apply wlist_set; [apply fonts_wvalue; auto|apply good_wlist; auto].
Qed.

(** The entries of a dictionary inside another one. *)
Definition nests (p : prop) : Prop := bal_prop p /\ quiet (pval p).

Lemma sub_nestable : forall fs sps, Forall named fs -> good sps -> Forall nests sps ->
  nestable (spset (B"Font") [32] (fonts_dict fs) [10; 10] sps).
Proof.
  intros fs sps F G N. destruct (fonts_wvalue fs F) as (W & Q & Bl). unfold nestable. rewrite spset_props. split; [|split; [|split]].
  - apply spset_ok; [apply ws1; reflexivity|discriminate|]. repeat (constructor; [reflexivity|]). constructor.
  - apply wlist_set; auto. apply good_wlist; auto.
  - apply spset_bal; auto. eapply Forall_impl; [|exact N]. intros p H. apply H.
  - apply spset_quiet; auto. eapply Forall_impl; [|exact N]. intros p H. apply H.
Qed.

(** A page with the resource dictionary in it. *)
Definition page_items (ps : list prop) (sps : list prop) : list item -> Prop := fun l =>
  exists a p b, ps = a ++ p :: b /\ pkey p = B"Resources" /\ getPropByKey (B"Resources") a = None /\
    getPropByKey (B"Font") a = None /\ l = strs a ++ ICr (pkey p) (strs sps) :: strs b.

Lemma page_text : forall fs new ps sps l, Forall named (fs ++ new) -> page_items ps sps l -> good ps -> Forall visible ps ->
  good sps -> Forall visible sps -> Forall nests sps ->
  exists v, readProperties (dictwrap (inline_text new fs l)) = Ok (setPropByKey (B"Resources") v ps) /\ propertyType v = PObject /\
    readProperties v = Ok (setPropByKey (B"Font") (norm (fonts_dict (fs ++ new))) sps).
Proof.
  intros fs new ps sps l F (a & p & b & E & K & Na & Nf & ->) G V Gs Vs Ns.
  set (S := spset (B"Font") [32] (fonts_dict (fs ++ new)) [10; 10] sps).
  pose proof (sub_nestable (fs ++ new) sps F Gs Ns) as NS. fold S in NS.
  assert (W0 : wsp []) by constructor.
  exists (norm (dtext [] S)). split; [|split].
  - unfold inline_text. rewrite font_value, setValOf_skip, setValOf_cr, setValOf_strs by auto.
    subst ps. apply Forall_app in V. destruct V as (Va & V). inversion V as [|? ? Vp Vb]; subst.
    assert (T : items_text (strs a ++ ICr (pkey p) (strs (setPropByKey (B"Font") (fonts_dict (fs ++ new) ++ [10]) sps)) :: strs b) =
      ptext (spset (B"Resources") [32; 10; 9] (dtext [] S) [10] (a ++ p :: b))).
    { rewrite spset_split by auto. rewrite ptext_app, ptext_cons. cbn [pc_key pc_gap pc_val pc_end].
      rewrite items_app, strs_text by auto. f_equal.
      match goal with |- items_text (?x :: ?y) = _ => change (items_text (x :: y)) with (item_text x ++ items_text y) end.
      rewrite (strs_text b) by auto. cbn [item_text].
      change (flat_map item_text (strs (setPropByKey (B"Font") (fonts_dict (fs ++ new) ++ [10]) sps)))
        with (items_text (strs (setPropByKey (B"Font") (fonts_dict (fs ++ new) ++ [10]) sps))).
      rewrite spset_text by (auto using fonts_trim). fold S. unfold dtext. cbn [app]. repeat (rewrite <- ?app_assoc; cbn [app]). reflexivity. }
    rewrite T. set (L := spset (B"Resources") [32; 10; 9] (dtext [] S) [10] (a ++ p :: b)).
    replace (dictwrap (ptext L)) with (dtext [10] L ++ [10]) by (unfold dictwrap, dtext; rewrite <- !app_assoc; reflexivity).
    rewrite pieces_read; try (apply ws1; reflexivity).
    + unfold L. rewrite spset_props, set_norm by apply G. reflexivity.
    + apply spset_ok; [|discriminate|apply ws1; reflexivity]. repeat (constructor; [reflexivity|]). constructor.
    + unfold L. rewrite spset_props. apply wlist_set; [apply nest_wvalue; auto|apply good_wlist; auto].
  - apply nest_type; auto.
  - rewrite nest_read by auto. unfold S. rewrite spset_props, set_norm by apply Gs. reflexivity.
Qed.
