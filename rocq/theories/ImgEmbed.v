(** Image dictionaries added to resources that stand in the pages. *)
From Coq Require Import String List ZArith Lia Bool Permutation.
From Verif Require Import Base BaseProofs Output Props PropsSpec PropsFlat PropsWrite PropsRead PropsNorm PropsStable PropsRefs PropsFinal PdfData PagesSpec PagesProofs PagesEdit PagesOps
  PiecesRead PiecesNest Crawl Inject CrawlProofs Squeeze CrawlVisits PageCrawl InjectMaps InjectNames InjectItems InjectTexts InjectSpec InjectMarks InjectVisits InjectPages InjectTidy
  InjectFonts InjectFinal ResTexts ImgNames ImgSpec ImgLists ImgCrawl ImgPages.
Open Scope Z_scope.
Open Scope list_scope.

(** ** Reading on after some entries *)
Fixpoint mode (s : bytes) (m : mst) : mst :=
  match s with
  | [] => m
  | r :: s' =>
    match m with
    | MNone => mode s' (if r =? 47 then MKey else MNone)
    | MKey => mode s' (if r =? 32 then MVal 0 0 else if r =? 60 then MVal 1 0 else if r =? 91 then MVal 0 1 else MKey)
    | MVal c1 c2 =>
      if ((r =? 93) || (r =? 62)) && ((cnt1 r c1 =? 0) && (cnt2 r c2 =? 0)) then mode s' MNone
      else if (r =? 47) && ((cnt1 r c1 =? 0) && (cnt2 r c2 =? 0)) then mode s' MKey
      else mode s' (MVal (cnt1 r c1) (cnt2 r c2))
    end
  end.

Lemma flat_mode : forall a b m ps, flat (a ++ b) m ps = flat b (mode a m) (flat a m ps).
Proof.
  induction a as [|r a IH]; intros b m ps; [reflexivity|]. cbn [app flat mode]. destruct m as [| |c1 c2].
  - destruct (r =? 47); apply IH.
  - destruct (r =? 32); [apply IH|]. destruct (r =? 60); [apply IH|]. destruct (r =? 91); [apply IH|]. destruct (r =? 47); apply IH.
  - cbv zeta. destruct (((r =? 93) || (r =? 62)) && _); [apply IH|]. destruct ((r =? 47) && _); apply IH.
Qed.

(** The brackets open in a text. *)
Fixpoint open1 (c : Z) (v : bytes) : Z := match v with [] => c | r :: v' => open1 (cnt1 r c) v' end.
Fixpoint open2 (c : Z) (v : bytes) : Z := match v with [] => c | r :: v' => open2 (cnt2 r c) v' end.
Lemma open1_app : forall a b c, open1 c (a ++ b) = open1 (open1 c a) b.
Proof. induction a as [|r a IH]; intros b c; [reflexivity|]. cbn [app open1]. apply IH. Qed.
Lemma open2_app : forall a b c, open2 c (a ++ b) = open2 (open2 c a) b.
Proof. induction a as [|r a IH]; intros b c; [reflexivity|]. cbn [app open2]. apply IH. Qed.
Lemma bal_open : forall v c1 c2, bal c1 c2 v = true -> open1 c1 v = 0 /\ open2 c2 v = 0.
Proof.
  induction v as [|r v IH]; intros c1 c2 H; cbn [bal open1 open2] in *; [lia|]. rewrite !andb_true_iff in H. destruct H as (_ & H). apply IH. exact H.
Qed.

Definition tracks (m : mst) (ps : list prop) : Prop :=
  match m with
  | MNone => True
  | MKey => exists ps0 k, ps = ps0 ++ [mkProp k []]
  | MVal c1 c2 => exists ps0 k v, ps = ps0 ++ [mkProp k v] /\ open1 0 v = c1 /\ open2 0 v = c2
  end.
Lemma flat_tracks : forall a m ps, Forall ascii a -> tracks m ps -> tracks (mode a m) (flat a m ps).
Proof.
  induction a as [|r a IH]; intros m ps F H; [exact H|]. inversion F as [|? ? Ar F']; subst. cbn [flat mode]. destruct m as [| |c1 c2].
  - destruct (r =? 47); apply IH; auto. cbn [tracks]. exists ps, []. reflexivity.
  - destruct H as (ps0 & k & ->). destruct (Z.eqb_spec r 32).
    + apply IH; auto. exists ps0, k, []. auto.
    + destruct (Z.eqb_spec r 60) as [->|].
      * apply IH; auto. unfold add_val. rewrite upd_last_snoc. exists ps0, k, [60]. auto.
      * destruct (Z.eqb_spec r 91) as [->|].
        { apply IH; auto. unfold add_val. rewrite upd_last_snoc. exists ps0, k, [91]. auto. }
        destruct (r =? 47); apply IH; auto.
        { exists (ps0 ++ [mkProp k []]), []. reflexivity. }
        { unfold add_key. rewrite upd_last_snoc. eexists _, _. reflexivity. }
  - destruct H as (ps0 & k & v & -> & <- & <-). cbv zeta. destruct (((r =? 93) || (r =? 62)) && _); [apply IH; [auto|exact Logic.I]|].
    destruct ((r =? 47) && _); apply IH; auto.
    + exists (ps0 ++ [mkProp k v]), []. reflexivity.
    + unfold add_val. rewrite upd_last_snoc, go_char_ascii by auto. cbn [pkey pval]. exists ps0, k, (v ++ [r]). rewrite open1_app, open2_app. auto.
Qed.
Lemma flat_ready : forall t, Forall ascii t -> Forall (fun q => bal 0 0 (pval q) = true) (flat t MNone []) -> ready (mode t MNone).
Proof.
  intros t F Bl. pose proof (flat_tracks t MNone [] F Logic.I) as H. destruct (mode t MNone) as [| |c1 c2]; [left; auto|right; left; auto|].
  destruct H as (ps0 & k & v & E & H1 & H2). rewrite E in Bl. apply Forall_app in Bl. destruct Bl as (_ & Bl). inversion Bl as [|? ? Bv _]; subst. cbn [pval] in Bv.
  destruct (bal_open v 0 0 Bv) as (-> & ->). right. right. reflexivity.
Qed.

(** ** The text with an entry added at the end *)
Section Added.
  Variable K : bytes.
  Variable X : list piece.
  Hypothesis NX : nestable X.
  Hypothesis Kc : Forall key_char K.
  Hypothesis Kn : no_occ stream_kw K.
  Notation xd := (dtext [] X).
  Variables (v t : bytes) (ps : list prop).
  Hypothesis Ev : v = B"<<" ++ t ++ B">>".
  Hypothesis Tt : trim_space t = t.
  Hypothesis Nt : norm t = t.
  Hypothesis Bt : bal 0 0 t = true.
  Hypothesis Bk : bal 0 0 K = true.
  Hypothesis At : Forall ascii t.
  Hypothesis St : no_occ stream_kw t.
  Hypothesis R : readProperties v = Ok ps.
  Hypothesis Bp : Forall (fun q => bal 0 0 (pval q) = true) ps.

  Definition added : bytes := B"<<" ++ t ++ B" /" ++ K ++ B" " ++ xd ++ B">>".

  Lemma nil_wsp : wsp []. Proof. constructor. Qed.

  Lemma t_trimmed : trimmed t.
  Proof. rewrite <- Tt. apply trim_space_trimmed. Qed.
  Lemma t_last : t = [] \/ last_nws t.
  Proof.
    destruct (list_eq_dec Z.eq_dec t []) as [E|Ne]; [auto|right]. apply last_nws_last; auto. apply trimmed_last; auto. apply t_trimmed.
  Qed.

  Lemma xd_end : forall q, ~ open_end q xd.
  Proof.
    intros q (y & c & Ey & Cw). unfold dtext in Ey. replace (B"<<" ++ [] ++ ptext X ++ B">>") with ((B"<<" ++ ptext X) ++ [62; 62]) in Ey by (rewrite <- app_assoc; reflexivity).
    apply (f_equal (@rev Z)) in Ey. rewrite !rev_app_distr in Ey. cbn [rev app] in Ey. inversion Ey; subst. discriminate.
  Qed.
  Lemma xd_last : last_nws xd.
  Proof. unfold dtext, last_nws. rewrite !rev_app_distr. reflexivity. Qed.

  Lemma inner_norm : forall r, r = [] \/ r = B">>" -> sq (t ++ [32] ++ 47 :: K ++ [32] ++ xd ++ r) = t ++ 47 :: K ++ norm xd ++ r.
  Proof.
    intros r Hr. rewrite sq_gap_slash by (constructor; [reflexivity|constructor]).
    rewrite sq_app; [|apply t_last|reflexivity|intros q u Eq [-> | ->]; inversion Eq].
    rewrite <- (norm_sq t), Nt. f_equal.
    assert (Nw : nowsp (47 :: K)) by (apply key_nows; auto).
    change (47 :: K ++ [32] ++ xd ++ r) with ((47 :: K) ++ [32] ++ xd ++ r). rewrite sq_word by exact Nw.
    change (47 :: K ++ norm xd ++ r) with ((47 :: K) ++ norm xd ++ r). f_equal.
    assert (E1 : sq ([32] ++ xd ++ r) = sq (xd ++ r)).
    { change (sq ([] ++ [32] ++ (xd ++ r)) = sq ([] ++ xd ++ r)). apply sq_gap; [constructor; [reflexivity|constructor]|reflexivity|].
      intros q u _ _ (y & c & Ey & _). destruct y; discriminate. }
    rewrite E1. rewrite (norm_sq xd). destruct Hr as [-> | ->]; [rewrite !app_nil_r; reflexivity|]. rewrite sq_app; [reflexivity|right; apply xd_last|reflexivity|].
    intros q u _ _. apply xd_end.
  Qed.
  Lemma added_norm : norm added = B"<<" ++ (t ++ 47 :: K ++ norm xd) ++ B">>".
  Proof.
    unfold added. rewrite norm_sq, sq_word by (repeat (constructor; [reflexivity|]); constructor).
    change (t ++ B" /" ++ K ++ B" " ++ xd ++ B">>") with (t ++ [32] ++ 47 :: K ++ [32] ++ xd ++ B">>").
    rewrite inner_norm by auto. rewrite <- !app_assoc. cbn [app]. rewrite <- !app_assoc. reflexivity.
  Qed.
  Lemma xd_form : exists x, norm xd = B"<<" ++ x ++ B">>" /\ bal 0 0 x = true.
  Proof. exists (ntext (map pc_prop X)). split; [apply norm_dtext; auto; constructor|]. apply (ntext_facts X NX). Qed.
  Notation core := (t ++ 47 :: K ++ norm xd).
  Lemma core_bal : bal 0 0 core = true.
  Proof.
    rewrite bal_app by exact Bt. change (bal 0 0 (47 :: K ++ norm xd)) with (bal 0 0 (K ++ norm xd)). rewrite bal_app by exact Bk.
    rewrite norm_sq, bal_sq by lia. apply nest_wvalue; [constructor|exact NX].
  Qed.
  Lemma kw_not : forall x, x = 60 \/ x = 62 \/ x = 47 \/ x = 32 -> ~ In x stream_kw.
  Proof. intros x H Hx. cbn in Hx. lia. Qed.
  Lemma no_dict : forall x, no_occ stream_kw x -> no_occ stream_kw (B"<<" ++ x ++ B">>").
  Proof.
    intros x H. change (B"<<" ++ x ++ B">>") with (60 :: 60 :: x ++ 62 :: [62]).
    apply (no_occ_sep _ [] 60); [discriminate|apply kw_not; auto|apply no_occ_nil|].
    apply (no_occ_sep _ [] 60); [discriminate|apply kw_not; auto|apply no_occ_nil|].
    apply no_occ_sep; [discriminate|apply kw_not; auto|auto|].
    apply (no_occ_sep _ [] 62); [discriminate|apply kw_not; auto|apply no_occ_nil|apply no_occ_nil].
  Qed.
  Lemma xd_wv : wvalue xd.
  Proof. apply nest_wvalue; [constructor|exact NX]. Qed.
  Lemma added_stream : no_occ stream_kw added.
  Proof.
    unfold added. replace (t ++ B" /" ++ K ++ B" " ++ xd ++ B">>") with ((t ++ 32 :: 47 :: K ++ 32 :: xd) ++ B">>") by (repeat (rewrite <- ?app_assoc; cbn [app]); reflexivity).
    apply no_dict. apply no_occ_sep; [discriminate|apply kw_not; auto|exact St|].
    apply (no_occ_sep _ [] 47); [discriminate|apply kw_not; auto|apply no_occ_nil|].
    apply no_occ_sep; [discriminate|apply kw_not; auto|exact Kn|]. destruct xd_wv as (_ & _ & _ & _ & N & _). exact N.
  Qed.
  Lemma key_asc : Forall ascii K.
  Proof. eapply Forall_impl; [|exact Kc]. intros a H. apply H. Qed.

  Lemma added_wvalue : wvalue added.
  Proof.
    assert (Eu : exists u, added = u ++ [62]) by (exists (B"<<" ++ t ++ B" /" ++ K ++ B" " ++ xd ++ [62]); unfold added; rewrite <- !app_assoc; reflexivity).
    destruct Eu as (u & Eu).
    split; [discriminate|]. split.
    { right. exists 60, (60 :: t ++ B" /" ++ K ++ B" " ++ xd ++ B">>"). split; [reflexivity|]. split; [reflexivity|]. split; [lia|]. split; [lia|].
      rewrite Eu. unfold last_nws. rewrite rev_app_distr. reflexivity. }
    split. { unfold added. destruct xd_wv as (_ & _ & A & _). assert (A2 : Forall ascii (B"<<") /\ Forall ascii (B" /") /\ Forall ascii (B" ") /\ Forall ascii (B">>"))
        by (split; [|split; [|split]]; apply Forall_forall; intros c Hc; cbn in Hc; unfold ascii; lia). destruct A2 as (A2 & A3 & A4 & A5).
      apply Forall_app; split; [auto|]. apply Forall_app; split; [auto|]. apply Forall_app; split; [auto|]. apply Forall_app; split; [apply key_asc|].
      apply Forall_app; split; [auto|]. apply Forall_app; split; auto. }
    split. { change added with (60 :: 60 :: t ++ B" /" ++ K ++ B" " ++ xd ++ B">>"). unfold norm4. rewrite collapse_hd, !strip_hd by reflexivity. exact Logic.I. }
    split; [exact added_stream|]. split; [rewrite added_norm; apply bal_dict, core_bal|]. rewrite Eu, last_last. reflexivity.
  Qed.
  Lemma added_type : propertyType (norm added) = PObject.
  Proof. rewrite added_norm. apply dict_type. eauto. Qed.
  Lemma added_trim : trim_space (added ++ [10]) <> [].
  Proof.
    unfold added. replace (B"<<" ++ t ++ B" /" ++ K ++ B" " ++ xd ++ B">>") with (B"<<" ++ (t ++ B" /" ++ K ++ B" " ++ xd) ++ B">>") by (rewrite <- !app_assoc; reflexivity).
    apply dict_trim.
  Qed.

  Lemma core_trimmed : trimmed core.
  Proof.
    destruct xd_form as (x & Ex & _). assert (Ac : Forall ascii core).
    { apply Forall_app. split; [exact At|]. constructor; [unfold ascii; lia|]. apply Forall_app. split; [apply key_asc|]. apply norm_ascii. apply xd_wv. }
    split.
    - pose proof t_trimmed as (H & _). pose proof At as A. revert H A. generalize t. intros [|c t0] H A; [apply space_len_cons; [unfold ascii; lia|reflexivity]|]. cbn [app]. inversion A; subst.
      apply space_len_cons; [assumption|]. unfold space_len in H. destruct (is_space1 c); [discriminate|reflexivity].
    - rewrite Ex. replace (t ++ 47 :: K ++ B"<<" ++ x ++ B">>") with ((t ++ 47 :: K ++ B"<<" ++ x ++ [62]) ++ [62]) by (repeat (rewrite <- ?app_assoc; cbn [app]); reflexivity).
      rewrite rev_app_distr. cbn [rev app]. apply rspace_len_cons; [unfold ascii; lia|reflexivity].
  Qed.

  Lemma old_read : flat t MNone [] = ps.
  Proof.
    assert (N : no_occ stream_kw (B"<<" ++ t ++ B">>" ++ [])) by (rewrite app_nil_r; apply no_dict; exact St).
    pose proof (read_wrap t [] ltac:(constructor) N) as E. rewrite app_nil_r, <- Ev, R, Tt, Nt, parse_props_flat in E. inversion E. reflexivity.
  Qed.

  Lemma added_read : readProperties (norm added) = Ok (ps ++ [mkProp K (norm xd)]).
  Proof.
    assert (N : no_occ stream_kw (B"<<" ++ core ++ B">>" ++ [])) by (rewrite app_nil_r, <- added_norm; apply no_occ_norm, added_stream).
    pose proof (read_wrap core [] ltac:(constructor) N) as E. rewrite app_nil_r in E. rewrite added_norm, E.
    rewrite (trim_space_id core core_trimmed).
    assert (Nc : norm core = core).
    { pose proof (inner_norm [] (or_introl eq_refl)) as H. rewrite !app_nil_r in H. rewrite <- H at 2. rewrite norm_sq.
      (* the core is itself squeezed *)
      rewrite H. destruct xd_form as (x & Ex & _).
      rewrite sq_app; [|apply t_last|reflexivity|intros q u Eq [-> | ->]; inversion Eq]. rewrite <- (norm_sq t), Nt. f_equal.
      assert (Nw : nowsp (47 :: K)) by (apply key_nows; auto).
      change (47 :: K ++ norm xd) with ((47 :: K) ++ norm xd). rewrite sq_word by exact Nw. f_equal. rewrite <- norm_sq.
      apply (norm_idem [] X ltac:(constructor) NX). }
    rewrite Nc, parse_props_flat. f_equal.
    rewrite flat_mode, old_read. rewrite flat_slash by (apply flat_ready; [exact At|rewrite old_read; exact Bp]).
    rewrite flat_key by exact Kc. cbn [app]. destruct xd_form as (x & Ex & Bx). pose proof (bal_dict x Bx) as C.
    assert (A : Forall ascii (norm xd)) by (apply norm_ascii; apply xd_wv). rewrite Ex in *.
    change (B"<<" ++ x ++ B">>") with (60 :: 60 :: x ++ B">>") in *. set (y := 60 :: x ++ B">>") in *. cbn [flat].
    change (60 =? 32) with false. change (60 =? 60) with true. cbv iota. unfold add_val. rewrite upd_last_snoc. cbn [pkey pval app].
    rewrite <- (app_nil_r y) at 1. rewrite flat_val by (inversion A; auto).
    unfold complete in C. cbn [vrun] in C. change ((60 =? 93) || (60 =? 62)) with false in C. change (60 =? 47) with false in C. cbn [andb] in C.
    change (cnt1 60 0) with 1 in C. change (cnt2 60 0) with 0 in C. cbv zeta in C. destruct C as [C|C]; rewrite C; reflexivity.
  Qed.

  (** The object with the dictionary in it. *)
  Lemma added_text : forall k qs, good qs -> Forall visible qs ->
    readProperties (dictwrap (items_text (setValOf k (added ++ [10]) (strs qs)))) = Ok (setPropByKey k (norm added) qs).
  Proof.
    intros k qs G V. rewrite setValOf_strs, spset_text by (auto using added_trim).
    set (L := spset k [32] added [10; 10] qs).
    replace (dictwrap (ptext L)) with (dtext [10] L ++ [10]) by (unfold dictwrap, dtext; rewrite <- !app_assoc; reflexivity).
    rewrite pieces_read; try (apply ws1; reflexivity).
    - unfold L. rewrite spset_props, set_norm by apply G. reflexivity.
    - apply spset_ok; [apply ws1; reflexivity|discriminate|]. repeat (constructor; [reflexivity|]). constructor.
    - unfold L. rewrite spset_props. apply wlist_set; [apply added_wvalue|apply good_wlist; auto].
  Qed.
End Added.

(** ** The texts of the pages *)
Definition embed_text (xs : list xobj) (l : list item) (s : bytes) : Prop :=
  exists v inner, valOf (B"Resources") l = Some v /\ slice (trim_space v) 2 (blen (trim_space v) - 2) = Ok inner /\
    s = items_text (setValOf (B"Resources") (B"<<" ++ inner ++ B" /XObject <<" ++ xobjs_text xs ++ B">>>>" ++ [10]) l).
Lemma embed_get : forall xs rs m, NoDup (map fst rs) -> imgReplacesEmbed xs rs = Ok m -> NoDup (map fst m) /\
  forall k, match map_get m k with
    | Some s => exists l, map_get rs k = Some l /\ embed_text xs l s
    | None => match map_get rs k with Some l => valOf (B"Resources") l = None | None => True end
    end.
Proof.
  intros xs. induction rs as [|[i l] rs IH]; intros m N H; cbn [imgReplacesEmbed] in H; [inversion H; subst; split; [constructor|intros; exact Logic.I]|].
  cbn [map fst] in N. inversion N as [|? ? N1 N2]; subst.
  destruct (valOf (B"Resources") l) as [v|] eqn:V.
  - destruct (slice (trim_space v) 2 (blen (trim_space v) - 2)) as [inner| | |] eqn:S; cbn [bind] in H; try discriminate.
    destruct (imgReplacesEmbed xs rs) as [m0| | |] eqn:E; cbn [bind] in H; try discriminate. inversion H; subst m. destruct (IH m0 N2 eq_refl) as (A & G). split.
    + cbn [map fst]. constructor; [|exact A]. intros X. apply in_map_iff in X. destruct X as ((i' & s) & Ei & X). cbn [fst] in Ei. subst i'. apply in_get in X; [|exact A].
      pose proof (G i) as Gi. rewrite X in Gi. destruct Gi as (l' & Gl & _). apply get_in in Gl. apply N1. apply (in_map fst) in Gl. exact Gl.
    + intros k. cbn [map_get]. destruct (Z.eqb_spec k i) as [->|]; [|apply G]. exists l. split; [reflexivity|]. exists v, inner. auto.
  - destruct (IH m N2 H) as (A & G). split; [exact A|]. intros k. cbn [map_get]. destruct (Z.eqb_spec k i) as [->|]; [|apply G].
    destruct (map_get m i) as [s|] eqn:X; [|exact V]. pose proof (G i) as Gi. rewrite X in Gi. destruct Gi as (l' & Gl & _). apply get_in in Gl. exfalso. apply N1. apply (in_map fst) in Gl. exact Gl.
Qed.

Section Embedded.
  Variable ord : morder.
  Variable p p' : pdf.
  Variable imgs : list Z.
  Variable names : list (bytes * Z).
  Variable rid : Z.
  Variable ts : list tree.
  Variable info : Z -> res_place.
  Hypothesis Fr : fair ord.
  Hypothesis T : tidy XO p rid ts info.
  Hypothesis Top : bare_top p rid.
  Variables (rsRes cw1 cw : results) (rx : Z) (embed : bool) (vals : list (Z * bytes)) (old : list xobj) (ch : bytes) (idx : Z) (must : list (Z * bytes)).
  Hypothesis Rn : iran ord p p' imgs names rsRes cw1 cw rx embed vals old ch idx must.
  Hypothesis Nw : images_nowhere (flat_map leaves ts) info.
  Notation ids := (flat_map leaves ts).
  Notation new := (newXobjs imgs ch idx).
  Notation spath := [B"Kids"; B"Resources"].

  Lemma nw_inside : images_inside ids info.
  Proof. intros L HL. pose proof (Nw L HL) as H. destruct (info L) as [|? []|? ? []]; auto. Qed.

  Lemma nw_first : embed = true.
  Proof.
    destruct (first_is ord p p' imgs names rid ts info Fr T Top rsRes cw1 cw rx embed vals old ch idx must Rn) as (L & HL & C).
    pose proof (Nw L HL) as I1. destruct (info L) as [|rps fp|r rps fp]; [destruct C| |destruct I1]. destruct C as (_ & ->). reflexivity.
  Qed.
  Lemma nw_vals : vals = [].
  Proof.
    pose proof (third ord p p' imgs names rid ts info Fr T rsRes cw1 cw rx embed vals old ch idx must Rn (inside_first ord p p' imgs names rid ts info Fr T Top rsRes cw1 cw rx embed vals old ch idx must Rn nw_inside)) as St.
    rewrite (ir_vals _ _ _ _ _ _ _ _ _ _ _ _ _ _ _ Rn). destruct (xobjectVals cw) as [|[k v] l0] eqn:E; [reflexivity|]. exfalso.
    assert (H : In (k, v) (xobjectVals cw)) by (rewrite E; left; auto). apply vals_in in H. destruct H as (l & H & V). apply in_get in H; [|apply (st_nodup _ _ _ _ _ St)].
    destruct (val_cases p rid ts info T cw St k l v H V) as [(rps & fp & HL & EL & Nf & _)|(L & rps & fp & HL & EL & Nf & _)].
    - pose proof (Nw k HL) as I1. rewrite EL in I1. destruct fp; congruence || contradiction.
    - pose proof (Nw L HL) as I1. rewrite EL in I1. exact I1.
  Qed.
  Lemma nw_must : ch = B"I" /\ idx = 0 /\ exists cw01, crawl_checked (objs p) (root p) (B"Pages" :: spath) = Ok cw01 /\ imgReplacesEmbed new (ord [15] _ cw01) = Ok must.
  Proof.
    pose proof nw_vals as Ev. pose proof nw_first as Ee.
    pose proof (ir_scan _ _ _ _ _ _ _ _ _ _ _ _ _ _ _ Rn) as Sc. pose proof (Fr [14] _ vals) as Pm. rewrite Ev in Sc, Pm. apply Permutation_sym, Permutation_nil in Pm. rewrite Pm in Sc.
    cbn [scanXobjs] in Sc. inversion Sc as [[E1 E2 E3]]. pose proof (ir_must _ _ _ _ _ _ _ _ _ _ _ _ _ _ _ Rn) as M. rewrite Ev, Ee, <- E1, <- E2, <- E3 in M.
    split; [auto|]. split; [auto|]. exact M.
  Qed.

  (** The pages below the root are looked at once, no others. *)
  Lemma nw_crawl : crawl_from (objs p) (root p) (B"Pages" :: spath) =
    (root p, B"Pages" :: spath) :: (rid, spath) :: map (fun t => (tid t, [B"Resources"])) ts.
  Proof.
    destruct (td_catalog _ _ _ _ T) as (ps & v & D & O' & I' & _). apply dict_data in D. destruct D as (_ & R).
    destruct (td_root _ _ _ _ T) as (ps2 & v2 & D2 & O2 & Ty2 & I2 & _). apply dict_data in D2. destruct D2 as (_ & R2).
    unfold crawl_from. f_equal. destruct (once_ref (objs p) (B"Pages") spath _ ps v rid R O' I') as (-> & _). f_equal.
    destruct (once_arr (objs p) (B"Kids") [B"Resources"] _ ps2 v2 _ R2 O2 Ty2 I2) as (-> & _).
    assert (H : forall t, In t ts -> visits (objs p) [B"Resources"] (data_of (objs p) (tid t)) = []).
    { intros t Ht. destruct t as [L|k kids]; cbn [tid].
      - assert (HL : In L ids) by (apply in_flat_map; exists (Leaf L); split; [exact Ht|left; reflexivity]).
        destruct (page_of _ _ _ _ T L HL) as (ps3 & (D3 & P) & _). apply dict_data in D3. destruct D3 as (_ & R3).
        pose proof (Nw L HL) as I1. destruct (info L) as [|rps fp|r rps fp].
        + apply (absent_all (objs p) (B"Resources") [] _ ps3 R3 P).
        + destruct P as (w & Ow & Tw & _). apply (alike_all (objs p) (B"Resources") [] _ ps3 w R3 (once_alike _ _ _ Ow) Tw eq_refl).
        + destruct I1.
      - destruct (td_inner _ _ _ _ T k kids Ht) as (ps3 & v3 & D3 & _ & _ & _ & _ & _ & _ & NR & _). apply dict_data in D3. destruct D3 as (_ & R3).
        apply (absent_all (objs p) (B"Resources") [] _ ps3 R3 NR). }
    clear - H. induction ts as [|t l IH]; [reflexivity|]. cbn [map flat_map]. rewrite (H t (or_introl eq_refl)). cbn [app]. f_equal. apply IH. intros u Hu. apply H. right. exact Hu.
  Qed.

  Lemma tids_in : forall t, In t ts -> In (tid t) (flat_map tree_ids ts).
  Proof. intros t H. apply in_flat_map. exists t. split; [exact H|]. destruct t; left; reflexivity. Qed.
  Lemma tids_nodup : NoDup (map tid ts).
  Proof.
    pose proof (td_distinct _ _ _ _ T) as N. inversion N as [|? ? _ N1]; subst. inversion N1 as [|? ? _ N2]; subst. clear - N2.
    induction ts as [|t l IH]; [constructor|]. cbn [flat_map map] in *.
    assert (A : forall a b : list Z, NoDup (a ++ b) -> NoDup b) by (induction a as [|x a IHa]; intros b0 H; [exact H|]; inversion H; auto).
    constructor; [|apply IH; eapply A; eauto]. intros H. apply in_map_iff in H. destruct H as (u & Eu & Hu).
    assert (X : In (tid t) (tree_ids t)) by (destruct t; left; reflexivity).
    assert (Y : In (tid t) (flat_map tree_ids l)) by (apply in_flat_map; exists u; split; [exact Hu|rewrite <- Eu; destruct u; left; reflexivity]).
    apply in_split in X. destruct X as (x1 & x2 & Ex). rewrite Ex in N2. rewrite <- app_assoc in N2. cbn [app] in N2. apply NoDup_remove_2 in N2. apply N2.
    apply in_or_app. right. apply in_or_app. right. exact Y.
  Qed.

  Lemma nw_found : forall cw01, crawl_checked (objs p) (root p) (B"Pages" :: spath) = Ok cw01 -> NoDup (map fst cw01) /\
    (forall L ps, In (Leaf L) ts -> dict (objs p) L ps -> map_get cw01 L = Some (strs ps)) /\
    (forall k l, map_get cw01 k = Some l -> In k (root p :: rid :: map tid ts)).
  Proof.
    intros cw01 E. destruct (crawl_walk (objs p) (root p) (B"Pages" :: spath)) as (m & Em & N & G); [apply (short_smooth p rid ts info T Top)|].
    unfold crawl_checked in E. rewrite Em in E. inversion E; subst m. split; [exact N|]. rewrite nw_crawl in G. split.
    - intros L ps HL D. rewrite G.
      assert (HL' : In L ids) by (apply in_flat_map; exists (Leaf L); split; [exact HL|left; reflexivity]).
      pose proof (td_distinct _ _ _ _ T) as Nn. pose proof (tids_in _ HL) as Ht. cbn [tid] in Ht.
      assert (N1 : root p =? L = false). { apply Z.eqb_neq. intros E0. inversion Nn as [|? ? X _]; subst. apply X. right. exact Ht. }
      assert (N2 : rid =? L = false). { apply Z.eqb_neq. intros E0. inversion Nn as [|? ? _ X]; subst. inversion X as [|? ? X1 _]; subst. apply X1. exact Ht. }
      assert (Im : img [B"Resources"] (data_of (objs p) L) = strs ps).
      { apply dict_data in D. destruct D as (_ & R3). destruct (page_of _ _ _ _ T L HL') as (ps3 & (D3 & P) & _). apply dict_data in D3. destruct D3 as (_ & R3').
        assert (ps3 = ps) by congruence. subst ps3. pose proof (Nw L HL') as I1. destruct (info L) as [|rps fp|r rps fp].
        + apply (absent_all (objs p) (B"Resources") [] _ ps R3 P).
        + destruct P as (w & Ow & Tw & _). apply (alike_all (objs p) (B"Resources") [] _ ps w R3 (once_alike _ _ _ Ow) Tw eq_refl).
        + destruct I1. }
      assert (H : vis L (map (fun t => (tid t, [B"Resources"])) ts) = true /\ collect (objs p) L (map (fun t => (tid t, [B"Resources"])) ts) = strs ps).
      { apply in_split in HL. destruct HL as (a & b & El). pose proof tids_nodup as Nd. rewrite El in Nd |- *. rewrite map_app in Nd. cbn [map tid] in Nd. apply NoDup_remove_2 in Nd.
        rewrite map_app. cbn [map tid]. split.
        - rewrite vis_app. cbn [vis existsb fst]. rewrite Z.eqb_refl. apply orb_true_r.
        - assert (Z0 : forall l, ~ In L (map tid l) -> collect (objs p) L (map (fun t => (tid t, [B"Resources"])) l) = []).
          { induction l as [|u l IHl]; intros Hn; [reflexivity|]. unfold collect in *. cbn [map flat_map fst snd] in *. destruct (Z.eqb_spec (tid u) L); [exfalso; apply Hn; left; auto|].
            apply IHl. intros X. apply Hn. right. exact X. }
          unfold collect in *. rewrite flat_map_app. cbn [flat_map fst snd]. rewrite Z.eqb_refl, Im, (Z0 a), (Z0 b), app_nil_r; [reflexivity| |]; intros X; apply Nd; apply in_or_app; auto. }
      destruct H as (H1 & H2). cbn [vis existsb fst]. unfold vis in H1. rewrite N1, N2, H1. cbn [orb]. f_equal. unfold collect in *. cbn [flat_map fst snd]. rewrite N1, N2. cbn [app]. exact H2.
    - intros k l H. rewrite G in H. destruct (vis k _) eqn:V; [|discriminate]. apply vis_in in V. cbn [map fst] in V. rewrite map_map in V. cbn [fst] in V. exact V.
  Qed.

  (** Only pages with resources in them are written anew. *)
  Lemma nw_quiet : forall j l, (forall rps, In j ids -> info j <> ResIn rps NoFont) -> forall cw01, crawl_checked (objs p) (root p) (B"Pages" :: spath) = Ok cw01 ->
    map_get cw01 j = Some l -> valOf (B"Resources") l = None.
  Proof.
    intros j l Hj cw01 E H. destruct (crawl_walk (objs p) (root p) (B"Pages" :: spath)) as (m & Em & N & G); [apply (short_smooth p rid ts info T Top)|].
    unfold crawl_checked in E. rewrite Em in E. inversion E; subst m. rewrite nw_crawl in G. rewrite G in H. destruct (vis j _); [|discriminate].
    assert (S0 : forall (x y : list item), Some x = Some y -> x = y) by (clear; congruence). apply S0 in H. subst l. clear S0 G Em E N.
    assert (Z0 : forall l, Forall (fun it => exists k v, it = IStr k v /\ k <> B"Resources") l -> valOf (B"Resources") l = None).
    { intros l F. induction F as [|it l (k & v & -> & Ne) F IH]; [reflexivity|]. cbn [valOf valOf_item]. destruct (beqb k (B"Resources")) eqn:Ek; [apply beqb_eq in Ek; congruence|exact IH]. }
    apply Z0. clear Z0. apply Forall_forall. intros it Hit. unfold collect in Hit. apply in_flat_map in Hit. destruct Hit as ((id & q) & Hin & Hit). cbn [fst snd] in Hit.
    destruct (Z.eqb_spec id j) as [->|_]; [|destruct Hit].
    assert (Z1 : forall ps, img q (data_of (objs p) j) = strs ps -> ~ has_key ps (B"Resources") -> exists k v, it = IStr k v /\ k <> B"Resources").
    { intros ps Ei Nk. rewrite Ei in Hit. unfold strs in Hit. apply in_map_iff in Hit. destruct Hit as ([k v] & <- & Hq). exists k, v. split; [reflexivity|]. intros ->. apply Nk. exists v. exact Hq. }
    destruct Hin as [Hin|[Hin|Hin]].
    - injection Hin as <- <-. destruct (td_catalog _ _ _ _ T) as (ps & v & D & O' & I' & _). apply (Z1 ps); [|apply (Top (root p)); auto].
      apply dict_data in D. destruct D as (_ & R). apply (once_ref (objs p) (B"Pages") spath _ ps v rid R O' I').
    - injection Hin as <- <-. destruct (td_root _ _ _ _ T) as (ps & v & D & O' & Ty & I' & _). apply (Z1 ps); [|apply (Top rid); auto].
      apply dict_data in D. destruct D as (_ & R). apply (once_arr (objs p) (B"Kids") [B"Resources"] _ ps v _ R O' Ty I').
    - apply in_map_iff in Hin. destruct Hin as (t & Et & Ht). injection Et as <- <-. destruct t as [L|k kids]; cbn [tid] in *.
      + assert (HL : In L ids) by (apply in_flat_map; exists (Leaf L); split; [exact Ht|left; reflexivity]).
        destruct (page_of _ _ _ _ T L HL) as (ps & (D & P) & _). apply dict_data in D. destruct D as (_ & R). pose proof (Nw L HL) as I1.
        destruct (info L) as [|rps fp|r rps fp] eqn:EL; [|destruct fp; try contradiction; exfalso; eapply Hj; eauto|contradiction].
        apply (Z1 ps); [|exact P]. apply (absent_all (objs p) (B"Resources") [] _ ps R P).
      + destruct (td_inner _ _ _ _ T k kids Ht) as (ps & v & D & _ & _ & _ & _ & _ & _ & NR & _). apply dict_data in D. destruct D as (_ & R).
        apply (Z1 ps); [|exact NR]. apply (absent_all (objs p) (B"Resources") [] _ ps R NR).
  Qed.
  Lemma nw_same : forall j, (forall rps, In j ids -> info j <> ResIn rps NoFont) -> has_obj (objs p') j = has_obj (objs p) j /\ data_of (objs p') j = data_of (objs p) j.
  Proof.
    intros j Hj. destruct nw_must as (_ & _ & cw01 & Ecw & M). destruct (nw_found cw01 Ecw) as (N & _ & _).
    destruct (embed_get new (ord [15] _ cw01) must (fair_nodup _ _ _ _ Fr N) M) as (Nm & Gm).
    destruct (must_data ord p p' imgs names rid ts info Fr T rsRes cw1 cw rx embed vals old ch idx must Rn Nm) as (Ho & Da). split; [apply Ho|]. rewrite Da.
    pose proof (Gm j) as G. destruct (map_get must j) as [s|]; [|reflexivity]. destruct G as (l & G & v & inner & V & _). rewrite fair_get in G by auto.
    rewrite (nw_quiet j l Hj cw01 Ecw G) in V. discriminate.
  Qed.

  Lemma nw_good : forall L rps ps v, In (Leaf L) ts -> info L = ResIn rps NoFont -> dict (objs p) L ps -> good ps -> Forall seen_value ps ->
    once ps (B"Resources") v -> readProperties v = Ok rps -> well_bracketed v rps ->
    exists w x, dict (objs p') L (setPropByKey (B"Resources") w ps) /\ propertyType w = PObject /\ readProperties w = Ok (rps ++ [mkProp XO x]) /\
      propertyType x = PObject /\ readProperties x = Ok (map xprop new).
  Proof.
    intros L rps ps v HL EL D Gp Sv Ov Rv (t & Ev & Tt & Nt & Bt & Bp).
    destruct nw_must as (Ec & Ei & cw01 & Ecw & M). destruct (nw_found cw01 Ecw) as (N & F & _). pose proof (F L ps HL D) as G.
    destruct (embed_get new (ord [15] _ cw01) must (fair_nodup _ _ _ _ Fr N) M) as (Nm & Gm).
    destruct (must_data ord p p' imgs names rid ts info Fr T rsRes cw1 cw rx embed vals old ch idx must Rn Nm) as (Ho & Da).
    assert (Nx : Forall xnamed new) by (rewrite Ec; apply xnew_named, I_plain).
    pose proof (once_value _ _ _ Ov) as Vv. apply value_get in Vv.
    pose proof (Gm L) as GL. rewrite fair_get in GL by auto. rewrite G in GL. destruct (map_get must L) as [s|] eqn:Es; [|rewrite valOf_strs, Vv in GL; discriminate].
    destruct GL as (l & El & v' & inner & V' & Sl & Et). inversion El; subst l. rewrite valOf_strs, Vv in V'. cbn [option_map pval] in V'. inversion V'; subst v'.
    assert (Ei2 : inner = t).
    { rewrite Ev, (trim_space_id _ (dict_trimmed t)) in Sl. assert (Sl' : slice (B"<<" ++ t ++ B">>") 2 (blen (B"<<" ++ t ++ B">>") - 2) = Ok t).
      { apply slice_app; [reflexivity|]. unfold blen. rewrite !app_length. change (List.length (B"<<")) with 2%nat. change (List.length (B">>")) with 2%nat. lia. }
      congruence. }
    subst inner.
    assert (Sq : stable (mkProp (B"Resources") v)) by (destruct Gp as (S0 & _); rewrite Forall_forall in S0; apply S0; destruct Ov as (a & b & -> & _); apply in_or_app; right; left; reflexivity).
    destruct Sq as (_ & _ & Av & _ & _ & _ & Ns). cbn [pval] in Av, Ns.
    assert (At : Forall ascii t) by (rewrite Ev in Av; apply Forall_app in Av; destruct Av as (_ & Av); apply Forall_app in Av; apply Av).
    assert (St : no_occ stream_kw t) by (rewrite Ev in Ns; apply no_occ_suffix in Ns; apply no_occ_pre in Ns; exact Ns).
    assert (Kc : Forall key_char XO) by (repeat (constructor; [unfold key_char; cbn; repeat split; try lia; try reflexivity|]); constructor).
    assert (Ks : no_occ stream_kw XO) by (apply contains_false; reflexivity).
    assert (Bq : Forall (fun q => bal 0 0 (pval q) = true) rps) by (eapply Forall_impl; [|exact Bp]; cbn beta; intros q Hq; rewrite balanced_bal in Hq; exact Hq).
    assert (Bt' : bal 0 0 t = true) by (rewrite <- balanced_bal; exact Bt).
    set (w := added XO (map xpiece new) t).
    assert (Ew : B"<<" ++ t ++ B" /XObject <<" ++ xobjs_text new ++ B">>>>" ++ [10] = w ++ [10]).
    { unfold w, added, dtext. rewrite xobjs_ptext. cbn [app]. repeat (rewrite <- ?app_assoc; cbn [app]). reflexivity. }
    rewrite Ew in Et. destruct (xs_read new Nx) as (R3 & T3). exists (norm w), (norm (xs_dict new)). split; [|split; [|split; [|split]]].
    - apply dict_data. rewrite Ho, Da, Es, Et. split; [apply dict_data in D; apply D|].
      apply (added_text XO (map xpiece new)) with (v := v) (ps := rps); auto using xs_nestable.
    - apply (added_type XO (map xpiece new)) with (v := v) (ps := rps); auto using xs_nestable.
    - apply (added_read XO (map xpiece new)) with (v := v); auto using xs_nestable.
    - exact T3.
    - exact R3.
  Qed.

  Lemma nw_page : forall L rps ps v, In (Leaf L) ts -> info L = ResIn rps NoFont -> writable_object (objs p) L ps -> once ps (B"Resources") v -> readProperties v = Ok rps -> well_bracketed v rps ->
    exists w x, dict (objs p') L (setPropByKey (B"Resources") w ps) /\ propertyType w = PObject /\ readProperties w = Ok (rps ++ [mkProp XO x]) /\
      propertyType x = PObject /\ readProperties x = Ok (map xprop new).
  Proof.
    intros L rps ps v HL EL ((o & Vo & Rw) & D & Sv) Ov Rv Wb. apply (nw_good L rps ps v); auto.
    destruct D as (o1 & V1 & En); assert (o1 = o) by (apply version_get in Vo, V1; congruence); subst o1; eapply rewritable_good; eauto.
  Qed.

  Lemma nw_names : Forall is_int imgs -> images_named imgs names (map xprop new).
  Proof.
    intros Fi. destruct nw_must as (Ec & Ei & _).
    assert (Lc : Forall ltr (B"I")) by (constructor; [unfold ltr; cbn; lia|constructor]).
    unfold images_named. rewrite (ir_names _ _ _ _ _ _ _ _ _ _ _ _ _ _ _ Rn). apply (all_names (font_named (map xprop new))); [|apply newx_pairs]. intros x Hx. apply (xnew _ imgs ch idx); auto.
    - rewrite Ec. exact Lc.
    - lia.
    - intros y Hy. split; [|auto]. destruct (newx_char _ _ _ _ Hy) as (E1 & E2 & _). split; [rewrite E1, Ec; auto|lia].
    - exists x. split; [auto|]. apply same_iff. auto.
    - destruct (newx_char _ _ _ _ Hx) as (_ & _ & Hi). rewrite Forall_forall in Fi. apply is_int_in. auto.
  Qed.
  Theorem nowhere_after : Forall is_int imgs -> forall L rps ps v, In (Leaf L) ts -> info L = ResIn rps NoFont -> writable_object (objs p) L ps -> once ps (B"Resources") v -> readProperties v = Ok rps ->
    well_bracketed v rps -> exists xps', page_images (objs p') L xps' /\ images_named imgs names xps'.
  Proof.
    intros Fi L rps ps v HL EL W Ov Rv Wb. pose proof (nw_names Fi) as Kn.
    assert (HL' : In L ids) by (apply in_flat_map; exists (Leaf L); split; [exact HL|left; reflexivity]).
    exists (map xprop new). split; [|exact Kn].
    destruct (nw_page L rps ps v HL EL W Ov Rv Wb) as (w & x & D' & Tw & Rw & Tx & Rx).
    destruct (page_of _ _ _ _ T L HL') as (ps0 & (D0 & P) & _). destruct W as (_ & D & _). assert (ps0 = ps) by (eapply dict_fun; eauto). subst ps0.
    rewrite EL in P. destruct P as (v0 & Ov0 & _ & _ & F). cbn [font_is] in F.
    exists (setPropByKey (B"Resources") w ps), w, (rps ++ [mkProp XO x]), x. split; [|split; [|split; [|split]]].
    - exact D'.
    - apply value_set_same. eapply value_has, once_value; eauto.
    - left. auto.
    - exists rps, []. split; [reflexivity|]. intros q Hq E. apply F. destruct q as [kq vq]. cbn [pkey] in E. subst kq. exists vq. exact Hq.
    - left. auto.
  Qed.

  (** The other entries of the resources are kept. *)
  Variables (K2 : bytes) (info2 : Z -> res_place).
  Hypothesis T2 : tidy K2 p rid ts info2.
  Hypothesis Ne2 : K2 <> XO.
  Theorem nowhere_kept : forall L fps, In L ids ->
    (forall rps, In (Leaf L) ts -> info L = ResIn rps NoFont -> exists ps v, writable_object (objs p) L ps /\ once ps (B"Resources") v /\ well_bracketed v rps) ->
    page_dict K2 (objs p) L fps -> page_dict K2 (objs p') L fps.
  Proof.
    intros L fps HL Wp Pd. destruct (page_of _ _ _ _ T L HL) as (ps & P & _). destruct (page_of _ _ _ _ T2 L HL) as (ps2 & P2 & _).
    destruct (same_res _ _ _ _ _ _ _ _ P P2) as (<- & Sr).
    destruct nw_must as (_ & _ & cw01 & Ecw & M). destruct (nw_found cw01 Ecw) as (N & _ & Kk).
    destruct (embed_get new (ord [15] _ cw01) must (fair_nodup _ _ _ _ Fr N) M) as (Nm & Gm).
    destruct (must_data ord p p' imgs names rid ts info Fr T rsRes cw1 cw rx embed vals old ch idx must Rn Nm) as (Ho & Da).
    assert (Same : forall j, ~ In j (root p :: rid :: map tid ts) -> has_obj (objs p') j = has_obj (objs p) j /\ data_of (objs p') j = data_of (objs p) j).
    { intros j Hj. split; [apply Ho|]. rewrite Da. pose proof (Gm j) as G. destruct (map_get must j) as [s|]; [|reflexivity]. destruct G as (l & G & _). rewrite fair_get in G by auto.
      exfalso. apply Hj. eapply Kk; eauto. }
    assert (Kf : forall f, In f (font_objects (info2 L)) -> has_obj (objs p') f = has_obj (objs p) f /\ data_of (objs p') f = data_of (objs p) f).
    { intros f Hf. apply Same. pose proof (font_apart p rid ts info T K2 info2 T2 L f HL Hf) as (X & _). intros Y. apply X. destruct Y as [Y|[Y|Y]]; [left; exact Y|right; left; exact Y|right; right].
      apply in_map_iff in Y. destruct Y as (u & <- & Hu). apply tids_in. exact Hu. }
    pose proof (Nw L HL) as I1. destruct (info L) as [|rps fp|r rps fp] eqn:EL; [|destruct fp; try contradiction|contradiction].
    - exfalso. apply (page_place _ _ _ _ _ _ P2) in Pd. destruct (info2 L); [discriminate|contradiction|contradiction].
    - destruct P as (D & v & Ov & Tv & Rv & F).
      destruct (in_dec Z.eq_dec L (map tid ts)) as [Ht|Ht].
      + assert (HLf : In (Leaf L) ts).
        { apply in_map_iff in Ht. destruct Ht as (u & Eu & Hu). destruct u as [L0|k kids]; cbn [tid] in Eu; subst; [exact Hu|]. exfalso.
          apply (node_leaf _ _ _ _ T L); [right; right; eauto|exact HL]. }
        destruct (Wp rps HLf eq_refl) as (ps1 & v1 & W & Ov1 & Wb). assert (ps1 = ps) by (destruct W as (_ & W & _); eapply dict_fun; eauto). subst ps1.
        assert (v1 = v) by (eapply once_in; eauto). subst v1.
        destruct (nw_page L rps ps v HLf EL W Ov Rv Wb) as (w & x & D' & Tw & Rw & Tx & Rx).
        apply (still_there K2 (objs p) (objs p') L ps (info2 L) fps rps (setPropByKey (B"Resources") w ps) w (rps ++ [mkProp XO x])); auto.
        * destruct (info2 L); auto; contradiction.
        * apply value_set_same. eapply value_has, once_value; eauto.
        * left. auto.
        * intros u Vu. apply value_app_l. exact Vu.
      + destruct (Same L) as (H1 & H2).
        { intros [Y|[Y|Y]]; [| |contradiction]; apply (node_leaf _ _ _ _ T L); unfold isNode; auto. }
        apply (still_there K2 (objs p) (objs p') L ps (info2 L) fps rps ps v rps); auto.
        * destruct (info2 L); auto; contradiction.
        * apply (same_dict (objs p)); auto.
        * apply once_value. auto.
        * left. auto.
  Qed.
End Embedded.
