(** Fonts, failed calls, page heights, opening again, saving again. *)
From Coq Require Import String List ZArith Lia Bool Permutation.
From Coq.Floats Require Import SpecFloat.
From Verif Require Import Base BaseProofs Output Props PdfData PagesProofs Crawl CrawlProofs Inject Md5Rc4 Crypto Png Utf8 Float64 Ttf Subset Text Wrap Parse Api ApiSpec ApiProofs ApiIds ApiFrames ApiImages.
Open Scope Z_scope.
Open Scope list_scope.

(** ** Fonts *)
Lemma registered_some : forall log s name k file, inv log s -> registered log name k file -> lookup name (s_names s) = Some k.
Proof. intros log s name k file I R. apply (inv_reg _ _ I). exists file. exact R. Qed.
Lemma registered_none : forall log s name, inv log s -> (forall k file, ~ registered log name k file) -> lookup name (s_names s) = None.
Proof.
  intros log s name I R. destruct (lookup name (s_names s)) as [k|] eqn:E; [|reflexivity].
  apply (inv_reg _ _ I) in E as (f & E). exfalso. exact (R _ _ E).
Qed.

Lemma add_twice : forall w fuel cs s log name k file f b, history w fuel cs new_pdft = Ok (s, log) -> registered log name k file ->
  call_of w fuel (KAddFont name f b) s = Ok (s, Some EAddSameFontName).
Proof.
  intros w fuel cs s log name k file f b H R. apply history_inv in H. cbn [call_of]. unfold addFont.
  rewrite (registered_some _ _ _ _ _ H R). reflexivity.
Qed.
Lemma add_new : forall w fuel cs s log name d b, history w fuel cs new_pdft = Ok (s, log) ->
  (forall k file, ~ registered log name k file) -> forallb (fun e => negb (opens e)) log = false ->
  (forall t, parseTtf d = Ok t -> exists s', call_of w fuel (KAddFont name (Some d) b) s = Ok (s', None)) /\
  (forall e, parseTtf d = Err e -> call_of w fuel (KAddFont name (Some d) b) s = Ok (s, Some e)).
Proof.
  intros w fuel cs s log name d b H R O. apply history_inv in H. cbn [call_of]. unfold addFont.
  rewrite (registered_none _ _ _ H R). destruct (s_names s) as [ns|] eqn:N; [|apply (inv_nil _ _ H) in N; congruence].
  split; intros t ->; [eexists; reflexivity|reflexivity].
Qed.
Lemma set_unknown : forall w fuel cs s log name st sz, history w fuel cs new_pdft = Ok (s, log) ->
  (forall k file, ~ registered log name k file) -> call_of w fuel (KSetFont name st sz) s = Ok (s, Some EFontNameNotFound).
Proof.
  intros w fuel cs s log name st sz H R. apply history_inv in H. cbn [call_of]. unfold setFont.
  rewrite (registered_none _ _ _ H R). reflexivity.
Qed.
Lemma set_known : forall w fuel cs s log name st sz k file, history w fuel cs new_pdft = Ok (s, log) ->
  registered log name k file -> exists s', call_of w fuel (KSetFont name st sz) s = Ok (s', None).
Proof.
  intros w fuel cs s log name st sz k file H R. apply history_inv in H. cbn [call_of]. unfold setFont.
  rewrite (registered_some _ _ _ _ _ H R). eexists. reflexivity.
Qed.

Definition inserts (t : bytes) (pg : Z) (x y w h : f64) (al : Z) (c : option (Z * Z * Z)) : call := KInsert t pg x y w h al c.

Lemma insert_no_font : forall w fuel cs s log t pg x y wd h al c s' e, history w fuel cs new_pdft = Ok (s, log) ->
  (forall name st sz, selected log name st sz -> forall k file, ~ registered log name k file) ->
  (forallb (fun e => negb (sets_font e)) log = true -> forall k file, ~ registered log [] k file) ->
  call_of w fuel (KInsert t pg x y wd h al c) s = Ok (s', e) -> s' = s /\ e = Some EFontNameNotFound.
Proof.
  intros w fuel cs s log t pg x y wd h al c s' e H R1 R2 C. apply history_inv in H. cbn [call_of] in C. unfold insert_text in C.
  apply bind_ok in C as (ph & _ & C). cbv beta in C.
  assert (N : lookup (s_fname s) (s_names s) = None).
  { apply (registered_none _ _ _ H). destruct (inv_sel _ _ H) as [(n & st & sz & Se & Cu)|(Un & Cu)].
    - unfold curr in Cu. assert (E : s_fname s = n) by congruence. rewrite E. exact (R1 _ _ _ Se).
    - unfold curr in Cu. assert (E : s_fname s = []) by congruence. rewrite E. exact (R2 Un). }
  rewrite N in C. unfold fails in C. split; congruence.
Qed.

Lemma selected_unique : forall log n st sz n' st' sz', selected log n st sz -> selected log n' st' sz' -> n = n' /\ st = st' /\ sz = sz'.
Proof.
  intros log n st sz n' st' sz' (b & a & E & U) (b' & a' & E' & U'). subst.
  revert b' a' E' U'. induction b as [|x b IH]; intros b' a' E' U'.
  - destruct b' as [|x' b']; [cbn in E'; injection E' as -> -> -> ->; auto|].
    cbn in E'. injection E' as <- ->. rewrite forallb_app in U. apply andb_true_iff in U as [_ U]. discriminate U.
  - destruct b' as [|x' b'].
    + cbn in E'. injection E' as -> <-. rewrite forallb_app in U'. apply andb_true_iff in U' as [_ U']. discriminate U'.
    + cbn in E'. injection E' as _ E'. eauto.
Qed.

Lemma insert_uses : forall w fuel cs s log t pg x y wd h al c s' e name st sz k d, history w fuel cs new_pdft = Ok (s, log) ->
  selected log name st sz -> registered log name k (Some d) ->
  call_of w fuel (KInsert t pg x y wd h al c) s = Ok (s', e) ->
  exists line ph, s_cont s' = s_cont s ++ [CText k (mkText t c (getConvertedStyle st) sz pg x y wd h al line ph)] /\
  pageHeight s pg = Ok ph /\
  exists f, nth_error (s_fonts s') k = Some f /\ fd_family f = name /\ parseTtf d = Ok (fd_ttf f).
Proof.
  intros w fuel cs s log t pg x y wd h al c s' e name st sz k d H Se R C.
  assert (H' : history w fuel (cs ++ [KInsert t pg x y wd h al c]) new_pdft = Ok (s', log ++ [(KInsert t pg x y wd h al c, e)])).
  { clear - H C. revert log H. generalize new_pdft. induction cs as [|z cs IH]; intros s0 log H; cbn [history app] in *.
    - assert (s0 = s) by congruence. assert (log = []) by congruence. subst. rewrite C. reflexivity.
    - apply bind_ok in H as ([s1 e1] & E1 & H). cbn [fst snd] in H. apply bind_ok in H as ([s2 l2] & E2 & H). cbn [fst snd] in H.
      rewrite E1. cbn [bind fst snd]. assert (s2 = s) by congruence. subst. rewrite (IH _ _ E2). cbn [bind fst snd]. injection H as <-. reflexivity. }
  apply history_inv in H'. apply history_inv in H. pose proof (registered_some _ _ _ _ _ H R) as L.
  assert (R' : registered (log ++ [(KInsert t pg x y wd h al c, e)]) name k (Some d)).
  { apply registered_snoc. right. split; [reflexivity|exact R]. }
  destruct (inv_font _ _ H' _ _ _ R') as (f' & d' & N' & Fa & Fi & Pa). injection Fi as <-.
  destruct (inv_sel _ _ H) as [(n & st' & sz' & Se' & Cu)|(Un & Cu)].
  2: { exfalso. destruct Se as (b & a & -> & _). rewrite forallb_app in Un. apply andb_true_iff in Un as [_ Un]. discriminate Un. }
  destruct (selected_unique _ _ _ _ _ _ _ Se Se') as (<- & <- & <-). unfold curr in Cu.
  assert (C1 : s_fname s = name) by congruence. assert (C2 : s_style s = getConvertedStyle st) by congruence. assert (C3 : s_size s = sz) by congruence.
  cbn [call_of] in C. unfold insert_text in C. apply bind_ok in C as (ph & Hp & C). cbv beta in C. rewrite C1, L, C2, C3 in C.
  destruct (nth_error (s_fonts s) k) as [f|]; [|discriminate]. destruct (font_add f t) as [g r]. cbv zeta in C.
  exists (s_line s), ph. split; [|split; [exact Hp|exists f'; auto]].
  destruct r; try discriminate; unfold ok, fails in C; injection C as <- <-; reflexivity.
Qed.

Lemma style_has_in : forall u l s, style_has u l s = true <-> letter u l s.
Proof.
  unfold letter. induction s as [|c s IH]; cbn; [split; [discriminate|tauto]|]. rewrite !orb_true_iff, !Z.eqb_eq, IH.
  split; intros H; [intuition congruence|]. destruct H as [[->|H]|[->|H]]; tauto.
Qed.
Lemma style_bits : forall st,
  (Z.testbit (getConvertedStyle st) 1 = true <-> letter 66 98 st) /\
  (Z.testbit (getConvertedStyle st) 0 = true <-> letter 73 105 st \/ contains [196; 177] st = true) /\
  (Z.testbit (getConvertedStyle st) 2 = true <-> letter 85 117 st) /\ 0 <= getConvertedStyle st < 8.
Proof.
  intros st. unfold getConvertedStyle. rewrite <- !style_has_in.
  destruct (style_has 66 98 st), (style_has 73 105 st), (contains [196; 177] st), (style_has 85 117 st); cbn;
    repeat split; intros; try lia; try reflexivity; try discriminate; try tauto; intuition discriminate.
Qed.

(** ** Calls that fail and change nothing *)
Lemma place_no_error : forall id pg x y w h s s' e, place_image id pg x y w h s = Ok (s', Some e) -> False.
Proof. intros id pg x y w h s s' e X. unfold place_image in X. apply bind_ok in X as (ph & _ & X). discriminate X. Qed.
Lemma img_error : forall wd b i pg x y w h s s' e, insertImg wd b i pg x y w h s = Ok (s', Some e) -> s' = s.
Proof.
  intros wd b i pg x y w h s s' e H. unfold insertImg in H. apply bind_ok in H as ([s1 e1] & E & H). cbn [fst snd] in H. destruct e1 as [z|].
  - unfold fails in H. assert (s' = s1) by congruence. subst. unfold new_image in E.
    destruct (insertImgObj _ _ _ _ _ _) as [[p d]| | |]; unfold ok, fails in E; congruence.
  - exfalso. eapply place_no_error; eauto.
Qed.
(** The calls for which an error leaves everything as it was. *)
Definition atomic (c : call) : bool :=
  match c with KAddFont _ _ _ | KRise _ _ | KKern _ _ | KSetFont _ _ _ | KImg _ _ _ _ _ _ _ | KImg64 _ _ _ _ _ _ _
  | KImgCache _ _ _ _ _ _ _ | KBorder _ | KRemove _ | KKeep _ | KProtect _ _ _ _ => true | _ => false end.
Lemma with_pdf_same : forall s, with_pdf s (d_pdf (s_doc s)) = s.
Proof. intros []. unfold with_pdf, with_doc. cbn. destruct s_doc. reflexivity. Qed.
Lemma settle_error : forall p r p' e, settle p r = Ok (p', Some e) -> p' = p.
Proof. intros p r p' e H. destruct r; cbn in H; congruence. Qed.
Lemma atomic_error : forall w fuel c s s' e, atomic c = true -> call_of w fuel c s = Ok (s', Some e) -> s' = s.
Proof.
  intros w fuel c s s' e A H. destruct c; try discriminate; cbn [call_of] in H.
  - unfold addFont in H. destruct (lookup _ _); [unfold fails in H; congruence|].
    destruct (match file with Some d => parseTtf d | None => Err EOther end); try discriminate; [|unfold fails in H; congruence].
    destruct (s_names s); discriminate.
  - unfold textriseOverride in H. destruct (lookup _ _); unfold ok, fails in H; congruence.
  - unfold kernOverride in H. destruct (lookup _ _); unfold ok, fails in H; congruence.
  - unfold setFont in H. destruct (lookup _ _); unfold ok, fails in H; congruence.
  - eapply img_error; eauto.
  - unfold insertImgBase64 in H. destruct (w_base64 w b64); try discriminate; [eapply img_error; eauto|unfold fails in H; congruence].
  - eapply cache_error; eauto.
  - unfold page_call in H. destruct (removePage _ _ _) as [[p q]| | |] eqn:E; try discriminate; [|unfold fails in H; congruence].
    assert (q = Some e) by congruence. subst q. assert (p = d_pdf (s_doc s)).
    { unfold removePage in E. apply bind_ok in E as (ids & _ & E). cbv zeta in E. destruct (_ && _); [congruence|].
      apply bind_ok in E as (ids1 & _ & E). cbv beta in E. destruct (1 <=? _); [|discriminate]. eapply settle_error; eauto. }
    subst p. rewrite with_pdf_same in H. congruence.
  - unfold page_call in H. destruct (removeOtherPages _ _ _) as [[p q]| | |] eqn:E; try discriminate; [|unfold fails in H; congruence].
    assert (q = Some e) by congruence. subst q. assert (p = d_pdf (s_doc s)).
    { unfold removeOtherPages in E. apply bind_ok in E as (ids & _ & E). cbv zeta in E. destruct (_ && _); [congruence|].
      apply bind_ok in E as (ids1 & _ & E). cbv beta in E. eapply settle_error; eauto. }
    subst p. rewrite with_pdf_same in H. congruence.
  - unfold setProt in H. destruct (setProtection _ _ _ _); unfold ok, fails in H; congruence.
Qed.
(** Insert: the only trace is behind the font lookup. *)
Lemma insert_error : forall t pg x y w h al c s s' e, insert_text t pg x y w h al c s = Ok (s', Some e) ->
  s' = s \/ exists id f m, lookup (s_fname s) (s_names s) = Some id /\ nth_error (s_fonts s) id = Some f /\ add_chars (fd_ttf f) t (fd_map f) = (m, Err e).
Proof.
  intros t pg x y w h al c s s' e H. unfold insert_text in H. apply bind_ok in H as (ph & _ & H). cbv beta in H.
  destruct (lookup _ _) as [id|] eqn:L; [|left; unfold fails in H; congruence]. destruct (nth_error _ id) as [f|] eqn:N; [|discriminate].
  unfold font_add in H. destruct (add_chars _ _ _) as [m r] eqn:A. cbv zeta in H. right. exists id, f, m. split; [reflexivity|]. split; [exact N|].
  destruct r; try discriminate; unfold ok, fails in H; congruence.
Qed.
(** A call that changed nothing could be left out. *)
Lemma skip_call : forall w fuel c s e cs, call_of w fuel c s = Ok (s, e) ->
  history w fuel (c :: cs) s = do q <- history w fuel cs s; Ok (fst q, (c, e) :: snd q).
Proof. intros w fuel c s e cs H. cbn [history]. rewrite H. reflexivity. Qed.

(** ** Page heights *)
Lemma page_sizes_get : forall float os ids n acc sz, page_sizes float os n ids acc = (sz, Ok tt) ->
  (forall j, n <= j -> map_get acc j = None) -> 0 <= n ->
  (forall j, j < n -> map_get sz j = map_get acc j) /\
  forall k id, nth_error ids k = Some id -> exists o pr, getObj id os = Ok o /\ readProperty (odata o) (B"MediaBox") = Ok (Some pr) /\
    (propertyType (pval pr) = PArray -> exists l, parseFloatSlice float (pval pr) = Ok l /\ map_get sz (n + Z.of_nat k) = Some l) /\
    (propertyType (pval pr) <> PArray -> map_get sz (n + Z.of_nat k) = None).
Proof.
  intros float os ids. induction ids as [|i ids IH]; intros n acc sz H Nn Pn; cbn [page_sizes] in H.
  - assert (sz = acc) by congruence. subst. split; [reflexivity|]. intros [|k] id X; discriminate.
  - destruct (do o <- getObj i os; readProperty (odata o) (B"MediaBox")) as [[pr|]| | |] eqn:E; try discriminate.
    apply bind_ok in E as (o & Eo & Er).
    assert (Sn : forall (l : list f64) j, map_get (acc ++ [(n, l)]) j = if j =? n then Some l else map_get acc j).
    { intros l j. assert (X : map_get acc n = None) by (apply Nn; lia). clear - X. induction acc as [|[a v] acc IHa]; cbn in *.
      - reflexivity.
      - destruct (Z.eqb_spec n a); [discriminate|]. rewrite (IHa X). destruct (Z.eqb_spec j a); destruct (Z.eqb_spec j n); try reflexivity. lia. }
    destruct (propertyType (pval pr)) eqn:T.
    all: try (apply IH in H as [H1 H2]; [|intros j Hj; apply Nn; lia|lia]; split; [intros j Hj; apply H1; lia|];
      intros [|k] id X; cbn in X;
      [injection X as <-; exists o, pr; split; [exact Eo|]; split; [exact Er|]; split; [congruence|]; intros _; rewrite Z.add_0_r, H1 by lia; apply Nn; lia
      |destruct (H2 _ _ X) as (o' & pr' & A1 & A2 & A3 & A4); exists o', pr'; split; [exact A1|]; split; [exact A2|];
       replace (n + Z.of_nat (S k)) with (n + 1 + Z.of_nat k) by lia; auto]; fail).
    destruct (parseFloatSlice float (pval pr)) as [l| | |] eqn:P; try discriminate.
    apply IH in H as [H1 H2]; [| |lia].
    2: { intros j Hj. rewrite Sn. destruct (Z.eqb_spec j n); [lia|]. apply Nn. lia. }
    split; [intros j Hj; rewrite H1 by lia; rewrite Sn; destruct (Z.eqb_spec j n); [lia|reflexivity]|].
    intros [|k] id X; cbn in X.
    + injection X as <-. exists o, pr. split; [exact Eo|]. split; [exact Er|]. split; [|congruence]. intros _. exists l. split; [exact P|].
      rewrite Z.add_0_r, H1 by lia. rewrite Sn, Z.eqb_refl. reflexivity.
    + destruct (H2 _ _ X) as (o' & pr' & A1 & A2 & A3 & A4). exists o', pr'. split; [exact A1|]. split; [exact A2|].
      replace (n + Z.of_nat (S k)) with (n + 1 + Z.of_nat k) by lia. auto.
Qed.

Lemma parse_sizes : forall float fuel raw d d', PDFParse float fuel raw d = (d', Ok tt) ->
  exists ids, getPageObjIDs fuel (d_pdf d') = Ok ids /\ page_sizes float (objs (d_pdf d')) 0 ids [] = (d_sizes d', Ok tt).
Proof.
  intros float fuel raw d d' H. unfold PDFParse in H. destruct (parseXref raw (d_xrefs d)) as [xs r1].
  destruct r1; try (injection H as _ H; discriminate H). destruct (parseTrailer raw) as [rt| | |]; try (injection H as _ H; discriminate H).
  destruct (parseObjs _ _ _) as [p r2]. destruct r2; try (injection H as _ H; discriminate H).
  destruct (setPagesObj p); try (injection H as _ H; discriminate H).
  destruct (getPageObjIDs fuel p) as [ids| | |] eqn:G; try (injection H as _ H; discriminate H).
  destruct (page_sizes _ _ _ _ _) as [s r3] eqn:P. injection H as <- ->. exists ids. cbn. auto.
Qed.
Lemma open_ok : forall w fuel raw s s', openFrom w fuel raw s = Ok (s', None) ->
  exists d, PDFParse (w_float w) fuel raw (s_doc s) = (d, Ok tt) /\ s_doc s' = d /\ s_cont s' = s_cont s ++ [CLine false (fofz 0)] /\
    s_imgs s' = s_imgs s /\ s_cache s' = Some [] /\ s_names s' = Some [] /\ s_prot s' = s_prot s /\ s_fonts s' = s_fonts s.
Proof.
  intros w fuel raw s s' H. unfold openFrom in H. cbv zeta in H. destruct (PDFParse _ _ _ _) as [d r]. destruct r as [[]| | |]; try discriminate.
  unfold ok in H. injection H as <-. exists d. repeat split.
Qed.

Theorem heights : forall w fuel raw s0 s1 cs s log, openFrom w fuel raw s0 = Ok (s1, None) ->
  history w fuel cs s1 = Ok (s, log) -> forallb (fun c => negb (is_open c)) cs = true ->
  exists ids, getPageObjIDs fuel (d_pdf (s_doc s1)) = Ok ids /\
    forall k id h, nth_error ids k = Some id -> media_height (w_float w) (objs (d_pdf (s_doc s1))) id h ->
      pageHeight s (Z.of_nat k + 1) = Ok h.
Proof.
  intros w fuel raw s0 s1 cs s log H Hh A. apply open_ok in H as (d & P & D & _). apply parse_sizes in P as (ids & G & S).
  apply history_sizes in Hh; [|exact A]. rewrite D in *. exists ids. split; [exact G|]. intros k id h N (o & pr & l & M1 & M2 & M3 & M4 & M5).
  apply page_sizes_get in S as [_ S]; [|intros; reflexivity|lia]. destruct (S _ _ N) as (o' & pr' & A1 & A2 & A3 & _).
  assert (o' = o) by congruence. subst o'. assert (pr' = pr) by congruence. subst pr'. destruct (A3 M3) as (l' & A4 & A5).
  assert (l' = l) by congruence. subst l'. unfold pageHeight. rewrite Hh. replace (Z.of_nat k + 1 - 1) with (0 + Z.of_nat k) by lia.
  rewrite A5, M5. reflexivity.
Qed.

(** ** Opening again *)
Lemma parseObjs_prefix : forall raw xs p p' r, parseObjs raw xs p = (p', r) -> exists new, objs p' = objs p ++ new.
Proof.
  induction xs as [|[n k] xs IH]; intros p p' r H; cbn [parseObjs] in H; [exists []; rewrite app_nil_r; congruence|].
  destruct (beqb k (B"n")); [|eauto]. destruct (obj_parse raw n) as [o| | |]; try (exists []; rewrite app_nil_r; congruence).
  apply IH in H as (new & ->). exists ([o] ++ new). cbn. rewrite <- app_assoc. reflexivity.
Qed.
Lemma parse_prefix : forall float fuel raw d d', PDFParse float fuel raw d = (d', Ok tt) -> exists new, objs (d_pdf d') = objs (d_pdf d) ++ new.
Proof.
  intros float fuel raw d d' H. unfold PDFParse in H. destruct (parseXref raw (d_xrefs d)) as [xs r1].
  destruct r1; try (injection H as _ H; discriminate H). destruct (parseTrailer raw) as [rt| | |]; try (injection H as _ H; discriminate H).
  destruct (parseObjs _ _ _) as [p r2] eqn:E. destruct r2; try (injection H as _ H; discriminate H).
  destruct (setPagesObj p); try (injection H as _ H; discriminate H).
  destruct (getPageObjIDs fuel p) as [ids| | |]; try (injection H as _ H; discriminate H).
  destruct (page_sizes _ _ _ _ _) as [s r3]. injection H as <- ->. apply parseObjs_prefix in E. exact E.
Qed.
Theorem open_again : forall w fuel raw s s', openFrom w fuel raw s = Ok (s', None) ->
  s_cont s' = s_cont s ++ [CLine false (fofz 0)] /\ s_imgs s' = s_imgs s /\ s_prot s' = s_prot s /\
  (exists new, objs (d_pdf (s_doc s')) = objs (d_pdf (s_doc s)) ++ new) /\
  s_names s' = Some [] /\ s_cache s' = Some [].
Proof.
  intros w fuel raw s s' H. apply open_ok in H as (d & P & D & C & I & Ca & N & Pr & _). apply parse_prefix in P. rewrite D. auto 10.
Qed.

(** ** Versions of an object *)
Lemma indices_spec : forall id os n i, In i (indices id n os) <-> (exists o, (n <= i)%nat /\ nth_error os (i - n) = Some o /\ oid o = id).
Proof.
  induction os as [|o os IH]; intros n i; cbn.
  - split; [intros []|intros (o & _ & H & _); destruct (i - n)%nat; discriminate].
  - assert (X : (exists o', (n <= i)%nat /\ nth_error (o :: os) (i - n) = Some o' /\ oid o' = id) <->
      (i = n /\ oid o = id) \/ exists o', (S n <= i)%nat /\ nth_error os (i - S n) = Some o' /\ oid o' = id).
    { split.
      - intros (o' & L & N & E). destruct (Nat.eq_dec i n) as [->|Ne].
        + rewrite Nat.sub_diag in N. cbn in N. injection N as ->. auto.
        + right. exists o'. replace (i - n)%nat with (S (i - S n)) in N by lia. cbn in N. split; [lia|auto].
      - intros [[-> E]|(o' & L & N & E)].
        + exists o. rewrite Nat.sub_diag. auto.
        + exists o'. replace (i - n)%nat with (S (i - S n)) by lia. split; [lia|auto]. }
    rewrite X. destruct (Z.eqb_spec (oid o) id); cbn; rewrite IH; [split; [intros [->|H]; auto|intros [[-> _]|H]; auto]|].
    split; [auto|intros [[_ Y]|H]; [contradiction|exact H]].
Qed.
Lemma indices_distinct : forall os id, NoDup (map oid os) -> forall n, (List.length (indices id n os) <= 1)%nat.
Proof.
  induction os as [|o os IH]; intros id ND n; cbn; [lia|]. inversion ND; subst. destruct (Z.eqb_spec (oid o) id); [|auto].
  cbn. destruct (indices id (S n) os) as [|i l] eqn:E; [cbn; lia|]. exfalso. apply H1.
  assert (Hi : In i (indices id (S n) os)) by (rewrite E; left; reflexivity). apply indices_spec in Hi as (o' & _ & N & E').
  apply nth_error_In in N. rewrite e, <- E'. apply in_map. exact N.
Qed.
Theorem one_version : forall os o, NoDup (map oid os) -> In o os -> getObj (oid o) os = Ok o.
Proof.
  intros os o ND Ho. pose proof (indices_distinct os (oid o) ND 0) as L. apply In_nth_error in Ho as (i & Hi).
  assert (Hin : In i (indices (oid o) 0 os)) by (apply indices_spec; exists o; rewrite Nat.sub_0_r; split; [lia|auto]).
  unfold getObj, getIdx. destruct (indices (oid o) 0 os) as [|j [|j' l]]; [destruct Hin| |cbn in L; lia].
  destruct Hin as [<-|[]]. rewrite Hi. reflexivity.
Qed.

(** ** Saving again *)
Lemma fair_nil : forall o, fair o -> forall t A, o t A [] = [].
Proof. intros o H t A. apply Permutation_nil. symmetry. apply H. Qed.
Lemma img_objs_datas : forall a b n, map im_data a = map im_data b -> img_objs a n = img_objs b n.
Proof.
  induction a as [|x a IH]; intros [|y b] n H; cbn in *; try discriminate; [reflexivity|]. injection H as H1 H2. rewrite H1, (IH b); auto.
Qed.
Lemma combine_same : forall (a b : list image) (names : list (bytes * Z)), map im_data a = map im_data b ->
  map (fun x => mkImage (im_data (fst x)) (fst (snd x)) (snd (snd x))) (combine a names) =
  map (fun x => mkImage (im_data (fst x)) (fst (snd x)) (snd (snd x))) (combine b names).
Proof.
  induction a as [|x a IH]; intros [|y b] ns H; cbn in *; try discriminate; [reflexivity|]. injection H as H1 H2.
  destruct ns; [reflexivity|]. cbn. rewrite H1, (IH b); auto.
Qed.
(** Images only, on a document without font resources, when the copy of the
    document got an array of its own: nothing is left behind. *)
Theorem save_again : forall w fuel ch s s' F, names_of s = [] -> s_imgs s <> [] -> ch_room ch = false -> fair (ch_ord ch) ->
  injectFonts (ch_ord ch) (d_pdf (s_doc s)) [] = Ok (d_pdf (s_doc s), []) ->
  saveTo w fuel ch s = Ok (s', Ok F) -> saveTo w fuel ch s' = Ok (s', Ok F).
Proof.
  intros w fuel ch s s' F N I R Fa J H.
  unfold saveTo in H. cbv zeta in H.
  set (handles := match s_names s with Some n => map (fun x => (Z.of_nat (snd x), tt)) n | None => [] end) in H.
  assert (Hh : handles = []) by (unfold handles, names_of in *; destruct (s_names s); [rewrite N|]; reflexivity).
  rewrite Hh in H. rewrite !(fair_nil _ Fa) in H. cbn [map build_fonts] in H. rewrite J in H. cbn [fold_left flat_map app] in H.
  set (imgs := img_objs (s_imgs s) (maxID (objs (d_pdf (s_doc s))))) in H.
  destruct (injectImgs _ _ (map oid imgs)) as [[p4 names]| | |] eqn:Ei; try discriminate.
  assert (Sh : match imgs with [] => true | _ => ch_room ch end = false).
  { unfold imgs. destruct (s_imgs s); [congruence|]. cbn. exact R. }
  rewrite Sh in H.
  set (is := map _ (combine (s_imgs s) names)) in H.
  assert (Dt : map im_data is = map im_data (s_imgs s)).
  { pose proof (injectImgs_length _ _ _ _ _ Ei) as L. unfold imgs in L. rewrite map_length, img_objs_length in L. apply combine_datas. exact L. }
  destruct (injectContent _ _ _ _ _ _) as [p5| | |] eqn:Ec; try discriminate.
  set (t := with_imgs (with_pdf (with_fonts (with_fonts s (s_fonts s)) (s_fonts s)) (d_pdf (s_doc s))) is) in H.
  assert (Hs : s' = t).
  { destruct (s_prot s); [apply bind_ok in H as (os & _ & H)|]; congruence. }
  rewrite Hs in *. clear Hs s'.
  unfold saveTo. cbv zeta.
  change (s_names t) with (s_names s). fold handles. rewrite Hh, !(fair_nil _ Fa). cbn [map build_fonts].
  change (d_pdf (s_doc t)) with (d_pdf (s_doc s)). rewrite J. cbn [fold_left flat_map app].
  change (s_fonts t) with (s_fonts s). change (s_imgs t) with is. rewrite (img_objs_datas is (s_imgs s) _ Dt). fold imgs.
  rewrite Ei, Sh. rewrite (combine_same is (s_imgs s) names Dt). fold is.
  change (s_cont t) with (s_cont s). rewrite Ec. change (s_prot t) with (s_prot s). exact H.
Qed.

(** Which version is read: the first, or the last one with annotations. *)
Definition versions (id : Z) (os : list obj) : list obj := filter (fun o => oid o =? id) os.
Lemma indices_versions : forall id all os n, (forall i o, nth_error os i = Some o -> nth_error all (n + i)%nat = Some o) ->
  Forall2 (fun i v => nth_error all i = Some v) (indices id n os) (versions id os).
Proof.
  induction os as [|o os IH]; intros n H; cbn; [constructor|].
  assert (T : forall i v, nth_error os i = Some v -> nth_error all (S n + i)%nat = Some v).
  { intros i v E. specialize (H (S i) v E). rewrite <- plus_n_Sm in H. exact H. }
  destruct (oid o =? id).
  - constructor; [|apply IH; exact T]. specialize (H O o eq_refl). rewrite <- plus_n_O in H. exact H.
  - apply IH. exact T.
Qed.
Lemma pick_version : forall os is vs, Forall2 (fun i v => nth_error os i = Some v) is vs ->
  forall r v, nth_error os r = Some v ->
  nth_error os (fold_left (fun r i => match nth_error os i with Some o => if has_annots o then i else r | None => r end) is r)
  = Some (last (filter has_annots vs) v).
Proof.
  intros os is vs F. induction F as [|i x is vs H F IH]; intros r v R; cbn [fold_left filter]; [exact R|].
  rewrite H. destruct (has_annots x); [|auto]. rewrite (IH _ _ H). f_equal. clear.
  revert x v. induction (filter has_annots vs) as [|a l IHl]; intros x v; [reflexivity|]. cbn [last]. destruct l; [reflexivity|apply IHl].
Qed.
Theorem version_read : forall id os, getObj id os =
  match versions id os with [] => Panic | o :: l => Ok (last (filter has_annots (o :: l)) o) end.
Proof.
  intros id os. pose proof (indices_versions id os os 0 (fun i o H => H)) as F. unfold getObj, getIdx.
  destruct F as [|i o is vs H F]; [reflexivity|]. destruct F as [|i' o' is vs H' F].
  - rewrite H. cbn [filter]. destruct (has_annots o); reflexivity.
  - rewrite (pick_version os (i :: i' :: is) (o :: o' :: vs) (Forall2_cons _ _ H (Forall2_cons _ _ H' F)) i o H). reflexivity.
Qed.
