(** Line styles and the pieces of a page (C80). *)
From Coq Require Import String List ZArith Lia Bool Reals Lra.
From Coq.Floats Require Import SpecFloat.
From Verif Require Import Base BaseProofs PdfSyntax PdfSyntaxProofs Utf8 Float64 FloatReal Ttf TtfSpec CharMap Output OutputSpec Props PropsSpec PdfData Inject ContentSpec Subset Text TextSpec TextPlaceSpec TextNumbers TextDraw TextBody TextContent TextFinal TextCases TextCases2 TextPlace TextPlaced
  ImgDraw Wrap Parse Png Crypto Api ApiSpec ApiProofs ApiFrames BorderSpec.
Open Scope Z_scope.
Open Scope list_scope.

(** ** What the calls do with the line width *)
Definition width_of_border (b : bool) : f64 := if b then fconst 1 10 else fofz 0.
Definition is_line (e : contenter) : bool := match e with CLine _ _ => true | _ => false end.
Definition unlined (s s' : state) : Prop := s_line s' = s_line s /\ exists l, s_cont s' = s_cont s ++ l /\ forallb (fun e => negb (is_line e)) l = true.
Lemma unlined_same : forall s s', s_line s' = s_line s -> s_cont s' = s_cont s -> unlined s s'.
Proof. intros s s' A C. split; [exact A|]. exists []. rewrite app_nil_r. auto. Qed.
Lemma unlined_trans : forall a b c, unlined a b -> unlined b c -> unlined a c.
Proof.
  intros a b c (A1 & l & A2 & A3) (B1 & k & B2 & B3). split; [congruence|]. exists (l ++ k). rewrite B2, A2, <- app_assoc. split; [reflexivity|]. rewrite forallb_app, A3, B3. reflexivity.
Qed.
Lemma unlined_one : forall s s' e, s_line s' = s_line s -> s_cont s' = s_cont s ++ [e] -> is_line e = false -> unlined s s'.
Proof. intros s s' e A C N. split; [exact A|]. exists [e]. split; [exact C|]. cbn [forallb]. rewrite N. reflexivity. Qed.
Lemma insert_unlined : forall t pg x y w h al c s s' e, insert_text t pg x y w h al c s = Ok (s', e) -> unlined s s'.
Proof.
  intros t pg x y w h al c s s' e H. unfold insert_text in H. apply bind_ok in H as (ph & _ & H). cbv beta in H.
  destruct (lookup _ _) as [id|]; [|unfold fails in H; assert (s' = s) by congruence; subst; apply unlined_same; reflexivity].
  destruct (nth_error _ id) as [f|] eqn:Ef; [|discriminate]. destruct (font_add f t) as [f' r] eqn:Ea. cbv zeta in H.
  destruct r; try discriminate; unfold ok, fails in H; injection H as <- _; (eapply unlined_one; [reflexivity|reflexivity|reflexivity]).
Qed.
Lemma lines_unlined : forall ls pg x w h al c s s' e, insert_lines ls pg x w h al c s = Ok (s', e) -> unlined s s'.
Proof.
  induction ls as [|[t y] ls IH]; intros pg x w h al c s s' e H; cbn [insert_lines] in H; [unfold ok in H; assert (s' = s) by congruence; subst; apply unlined_same; reflexivity|].
  apply bind_ok in H as ([s1 e1] & E & H). cbn [fst snd] in H. apply insert_unlined in E.
  destruct e1; [unfold fails in H; assert (s' = s1) by congruence; subst; exact E|]. eapply unlined_trans; [exact E|eauto].
Qed.
Lemma new_image_unlined : forall w b i s s' e, new_image w b i s = Ok (s', e) -> unlined s s'.
Proof.
  intros w b i s s' e H. unfold new_image in H. destruct (insertImgObj _ _ _ _ _ _) as [[p d]| | |]; try discriminate; unfold ok, fails in H; injection H as <- _; apply unlined_same; reflexivity.
Qed.
Lemma place_unlined : forall id pg x y w h s s' e, place_image id pg x y w h s = Ok (s', e) -> unlined s s'.
Proof. intros id pg x y w h s s' e H. unfold place_image in H. apply bind_ok in H as (ph & _ & H). unfold ok in H. injection H as <- _. eapply unlined_one; reflexivity. Qed.
Lemma insertImg_unlined : forall wd b i pg x y w h s s' e, insertImg wd b i pg x y w h s = Ok (s', e) -> unlined s s'.
Proof.
  intros wd b i pg x y w h s s' e H. unfold insertImg in H. apply bind_ok in H as ([s1 e1] & E & H). cbn [fst snd] in H. apply new_image_unlined in E.
  destruct e1; [unfold fails in H; assert (s' = s1) by congruence; subst; exact E|]. eapply unlined_trans; [exact E|]. eapply place_unlined; eauto.
Qed.
Lemma page_unlined : forall s o s' e, page_call s o = Ok (s', e) -> unlined s s'.
Proof.
  intros s o s' e H. unfold page_call in H. destruct o as [[p q]| | |]; try discriminate; [injection H as <- _; apply unlined_same; reflexivity|].
  unfold fails in H. injection H as <- _. apply unlined_same; reflexivity.
Qed.
Lemma save_line : forall w fuel ch s s' r, saveTo w fuel ch s = Ok (s', r) -> s_line s' = s_line s.
Proof.
  intros w fuel ch s s' r H. unfold saveTo in H. cbv zeta in H.
  destruct (build_fonts _ _ _ _) as [fs1 r1]. destruct r1 as [next|e| |]; try discriminate; [|injection H as <- <-; reflexivity].
  destruct (injectFonts _ _ _) as [[p1 idx]|e| |]; try discriminate; [|injection H as <- <-; reflexivity].
  set (new := flat_map _ (ch_ord ch [32] _ _)) in H. clearbody new.
  destruct (injectImgs _ _ _) as [[p4 names]|e| |]; try discriminate; [|injection H as <- <-; reflexivity].
  set (is := map _ (combine (s_imgs s) names)) in *. clearbody is.
  set (fs2 := fold_left set_index idx fs1) in *. clearbody fs2. set (b := match new ++ _ with [] => true | _ => ch_room ch end) in H. clearbody b.
  destruct (injectContent _ _ _ _ _ _) as [p5|e| |]; try discriminate.
  - destruct (s_prot s) as [pr|].
    + apply bind_ok in H as (os & _ & H). destruct b; injection H as <- <-; reflexivity.
    + destruct b; injection H as <- <-; reflexivity.
  - destruct b; injection H as <- <-; reflexivity.
Qed.

Lemma call_unlined : forall w fuel c s s' e, border_matter (c, e) = false -> call_of w fuel c s = Ok (s', e) -> unlined s s'.
Proof.
  intros w fuel c s s' e N H.
  assert (R : forall z, Ok (s, z) = Ok (s', e) -> unlined s s') by (intros z X; assert (s' = s) by congruence; subst; apply unlined_same; reflexivity).
  destruct c; try discriminate; cbn [call_of] in H.
  - unfold addFont in H. destruct (lookup _ _); [unfold fails in H; eauto|].
    destruct (match file with Some d => parseTtf d | None => Err EOther end) as [t| | |]; try discriminate; [|unfold fails in H; eauto].
    destruct (s_names s) as [ns|]; [|discriminate]. unfold ok in H. injection H as <- _. apply unlined_same; reflexivity.
  - unfold textriseOverride in H. destruct (lookup _ _) as [id|]; [|unfold fails in H; eauto]. unfold ok in H. injection H as <- _. apply unlined_same; reflexivity.
  - unfold kernOverride in H. destruct (lookup _ _) as [id|]; [|unfold fails in H; eauto]. unfold ok in H. injection H as <- _. apply unlined_same; reflexivity.
  - unfold setFont in H. destruct (lookup _ _); [|unfold fails in H; eauto]. unfold ok in H. injection H as <- _. apply unlined_same; reflexivity.
  - eapply insert_unlined; eauto.
  - unfold insertWrapText in H. destruct breaker as [b0|]; [|eapply insert_unlined; eauto].
    destruct (b0 text) as [toks| | |]; try discriminate; [|unfold fails in H; eauto]. destruct (forallb _ toks); [unfold ok in H; eauto|].
    destruct (lookup _ _) as [id|]; [|discriminate]. destruct (nth_error _ id) as [f|]; [|discriminate]. apply bind_ok in H as (ph & _ & H). cbv beta in H.
    destruct (wrap_lines _ _ _ _ _ _) as [f' r]. cbv zeta in H. assert (G : unlined s (upd_font s id (fun f => set_map f (sf_map f')))) by (apply unlined_same; reflexivity).
    destruct r as [ls| | |]; try discriminate; [|unfold fails in H; injection H as <- _; exact G]. eapply unlined_trans; [exact G|]. eapply lines_unlined; eauto.
  - apply bind_ok in H as ([s1 r] & E & H). cbn [fst snd] in H. assert (s' = s1) by congruence. subst. unfold measureTextWidth in E.
    destruct (lookup _ _) as [id|]; [|discriminate]. destruct (nth_error _ id) as [f|]; [|discriminate]. destruct (measure_text _ _ _) as [f' q]. apply bind_ok in E as (ph & _ & E). cbv beta zeta in E.
    destruct q; try discriminate; injection E as <- _; apply unlined_same; reflexivity.
  - eapply insertImg_unlined; eauto.
  - unfold insertImgBase64 in H. destruct (w_base64 w b64); try discriminate; [|unfold fails in H; eauto]. eapply insertImg_unlined; eauto.
  - unfold insertImgWithCache in H. cbv zeta in H. destruct (lookup _ _); [eapply place_unlined; eauto|].
    apply bind_ok in H as ([s1 e1] & E & H). cbn [fst snd] in H. apply new_image_unlined in E. destruct e1; [unfold fails in H; assert (s' = s1) by congruence; subst; exact E|].
    destruct (s_cache s) as [c|]; [|discriminate]. apply place_unlined in H. eapply unlined_trans; [exact E|]. eapply unlined_trans; [|exact H]. apply unlined_same; reflexivity.
  - eapply page_unlined; eauto.
  - eapply page_unlined; eauto.
  - eapply page_unlined; eauto.
  - unfold setProt in H. destruct (setProtection _ _ _ _); try discriminate; [|unfold fails in H; eauto]. unfold ok in H. injection H as <- _. apply unlined_same; reflexivity.
  - apply bind_ok in H as ([s1 r] & E & H). cbn [fst snd] in H. assert (s' = s1) by congruence. subst. destruct (save_iframe _ _ _ _ _ _ E) as (_ & C & _).
    apply unlined_same; [eapply save_line; exact E|exact C].
Qed.

Definition lines_right (s : state) : Prop := Forall (fun e => match e with CLine b w => w = width_of_border b | _ => True end) (s_cont s).
Lemma unlined_lined : forall s s', unlined s s' -> lines_right s -> lines_right s'.
Proof.
  intros s s' (_ & l & E & N) L. unfold lines_right. rewrite E. apply Forall_app. split; [exact L|]. clear E. induction l as [|e l IH]; constructor; cbn [forallb] in N; apply andb_true_iff in N as (N1 & N2); auto.
  destruct e; auto. discriminate.
Qed.
Lemma border_step : forall w fuel c s s' e b, says_border (c, e) b -> call_of w fuel c s = Ok (s', e) -> s_line s' = width_of_border b /\ s_cont s' = s_cont s ++ [CLine b (width_of_border b)].
Proof.
  intros w fuel c s s' e b [H|( -> & raw & H)] C; injection H as -> ->; cbn [call_of] in C.
  - unfold ok in C. injection C as <-. split; reflexivity.
  - unfold openFrom in C. cbv zeta in C. destruct (PDFParse _ _ _ _) as (d, r). destruct r; try discriminate. unfold ok in C. injection C as <-. split; reflexivity.
Qed.
Lemma call_lined : forall w fuel c s s' e, call_of w fuel c s = Ok (s', e) -> lines_right s -> lines_right s'.
Proof.
  intros w fuel c s s' e H L. destruct (border_matter (c, e)) eqn:N; [|eapply unlined_lined; [eapply call_unlined; eauto|exact L]].
  assert (G : forall b, says_border (c, e) b -> lines_right s').
  { intros b Sb. destruct (border_step _ _ _ _ _ _ _ Sb H) as (_ & E). unfold lines_right. rewrite E. apply Forall_app. split; [exact L|]. constructor; [reflexivity|constructor]. }
  destruct c; try discriminate.
  - destruct e as [e|]; [|apply (G false); right; eauto]. cbn [call_of] in H. unfold openFrom in H. cbv zeta in H. destruct (PDFParse _ _ _ _) as (d, r). destruct r; try discriminate. unfold fails in H. injection H as <- _. exact L.
  - assert (e = None) by (cbn [call_of] in H; unfold ok in H; congruence). subst e. apply (G b). left. reflexivity.
Qed.
Lemma history_lined : forall w fuel cs s s' log, history w fuel cs s = Ok (s', log) -> lines_right s -> lines_right s'.
Proof.
  intros w fuel. induction cs as [|c cs IH]; intros s s' log H L; cbn [history] in H; [assert (s' = s) by congruence; subst; exact L|].
  apply bind_ok in H as ([s1 e] & E & H). cbn [fst snd] in H. apply bind_ok in H as ([s2 l2] & E2 & H). cbn [fst snd] in H. assert (s' = s2) by congruence. subst. eapply IH; [exact E2|]. eapply call_lined; eauto.
Qed.
Lemma history_unlined : forall w fuel cs s s' log, history w fuel cs s = Ok (s', log) -> forallb (fun e => negb (border_matter e)) log = true -> unlined s s'.
Proof.
  intros w fuel. induction cs as [|c cs IH]; intros s s' log H N; cbn [history] in H; [assert (s' = s) by congruence; subst; apply unlined_same; reflexivity|].
  apply bind_ok in H as ([s1 e] & E & H). cbn [fst snd] in H. apply bind_ok in H as ([s2 l2] & E2 & H). cbn [fst snd] in H. assert (log = (c, e) :: l2) by congruence. assert (s' = s2) by congruence. subst.
  cbn [forallb] in N. apply andb_true_iff in N as (N1 & N2). apply negb_true_iff in N1. eapply unlined_trans; [eapply call_unlined; eauto|eapply IH; eauto].
Qed.
Lemma history_parts : forall w fuel cs s s' log before e after, history w fuel cs s = Ok (s', log) -> log = before ++ e :: after ->
  exists a s1 s2 b, history w fuel a s = Ok (s1, before) /\ call_of w fuel (fst e) s1 = Ok (s2, snd e) /\ history w fuel b s2 = Ok (s', after).
Proof.
  intros w fuel. induction cs as [|c cs IH]; intros s s' log before e after H L; cbn [history] in H; [assert (log = []) by congruence; subst; destruct before; discriminate|].
  apply bind_ok in H as ([s1 e1] & E & H). cbn [fst snd] in H. apply bind_ok in H as ([s2 l2] & E2 & H). cbn [fst snd] in H. assert (log = (c, e1) :: l2) by congruence. assert (s' = s2) by congruence. subst s' . rewrite L in H0.
  destruct before as [|x before]; cbn [app] in H0.
  - assert (e = (c, e1)) by congruence. assert (after = l2) by congruence. subst. exists [], s, s1, cs. split; [reflexivity|]. split; [exact E|exact E2].
  - assert (x = (c, e1)) by congruence. assert (l2 = before ++ e :: after) by congruence. subst x. destruct (IH _ _ _ _ _ _ E2 H2) as (a & s3 & s4 & k & A1 & A2 & A3).
    exists (c :: a), s3, s4, k. split; [|auto]. cbn [history]. rewrite E. cbn [bind fst snd]. rewrite A1. reflexivity.
Qed.
Lemma border_state : forall w fuel cs s log b, history w fuel cs new_pdft = Ok (s, log) -> border_is log b ->
  s_line s = width_of_border b /\ exists x l, s_cont s = x ++ CLine b (width_of_border b) :: l /\ forallb (fun e => negb (is_line e)) l = true.
Proof.
  intros w fuel cs s log b H (before & [c e] & after & L & Sb & N). destruct (history_parts _ _ _ _ _ _ _ _ _ H L) as (a & s1 & s2 & k & A1 & A2 & A3). cbn [fst snd] in A2.
  destruct (border_step _ _ _ _ _ _ _ Sb A2) as (B1 & B2). destruct (history_unlined _ _ _ _ _ _ A3 N) as (C1 & l & C2 & C3). split; [congruence|].
  exists (s_cont s1), l. rewrite C2, B2, <- app_assoc. split; [reflexivity|exact C3].
Qed.

(** ** The pieces *)
Definition set_style (st : gstate) (v : Z * (list Z * Z)) : gstate :=
  mkG (g_fill st) (g_font st) (g_size st) (g_rise st) (g_at st) (g_text st) (fst v) (snd v) (g_path st) (g_cm st).
Definition style_for (b : bool) : Z * (list Z * Z) := if b then dotted_thin else (0, ([], 0)).
Lemma line_then : forall b st after g2 ms2, drawn after (set_style st (style_for b), None) g2 ms2 -> drawn (line_stream b (width_of_border b) ++ after) (st, None) g2 ms2.
Proof.
  intros b [fill font size rise at_ text line dash path cm] after g2 ms2 D.
  change ms2 with (([] : list mark) ++ [] ++ ms2).
  set (st1 := mkG fill font size rise at_ text line (snd (style_for b)) path cm).
  destruct b.
  - replace (line_stream true (width_of_border true) ++ after) with (B"[2 3] 11 d" ++ [10] ++ B"0.10 w" ++ [10] ++ after) by (unfold line_stream; rewrite <- !app_assoc; reflexivity).
    eapply (drawn_op _ [PArr [PInt 2; PInt 3]; PInt 11] _ (B"d") ([10] ++ B"0.10 w" ++ [10] ++ after) _ (st1, None)).
    + eapply opd_cons; [exists 20%nat; reflexivity|exact Logic.I|]. eapply opd_cons; [exists 20%nat; reflexivity|exact Logic.I|]. apply opd_nil.
    + exists 20%nat. reflexivity.
    + reflexivity.
    + reflexivity.
    + eapply (drawn_op _ [PWord (B"0.10")] _ (B"w") ([10] ++ after)).
      * eapply opd_cons; [exists 20%nat; reflexivity|cbn [operand]; discriminate|apply opd_nil].
      * exists 20%nat. reflexivity.
      * reflexivity.
      * reflexivity.
      * apply (drawn_blank [10]); [blanks|]. exact D.
  - replace (line_stream false (width_of_border false) ++ after) with (B"[] 0 d" ++ [10] ++ B"0.00 w" ++ [10] ++ after) by (unfold line_stream; rewrite <- !app_assoc; reflexivity).
    eapply (drawn_op _ [PArr []; PInt 0] _ (B"d") ([10] ++ B"0.00 w" ++ [10] ++ after) _ (st1, None)).
    + eapply opd_cons; [exists 20%nat; reflexivity|exact Logic.I|]. eapply opd_cons; [exists 20%nat; reflexivity|exact Logic.I|]. apply opd_nil.
    + exists 20%nat. reflexivity.
    + reflexivity.
    + reflexivity.
    + eapply (drawn_op _ [PWord (B"0.00")] _ (B"w") ([10] ++ after)).
      * eapply opd_cons; [exists 20%nat; reflexivity|cbn [operand]; discriminate|apply opd_nil].
      * exists 20%nat. reflexivity.
      * reflexivity.
      * reflexivity.
      * apply (drawn_blank [10]); [blanks|]. exact D.
Qed.

Lemma text_then : forall d f c u a b up uh, set_in d f c u a b up uh -> forall index st, g_text st = false ->
  exists o st2 ms, text_stream f index c = Ok o /\ (forall rest g2 ms2, drawn rest (st2, None) g2 ms2 -> drawn (o ++ rest) (st, None) g2 (ms ++ ms2)) /\
    g_text st2 = false /\ g_cm st2 = g_cm st /\ line_style st2 = line_style st.
Proof.
  intros d f c u a b up uh Si index st T. destruct (set_drawable _ _ _ _ _ _ _ _ Si) as (Dx & Dy & Dr & Du & Db). pose proof (ready_glyphs _ _ _ (si_ready _ _ _ _ _ _ _ _ Si)) as (Hu & l & L1 & L2 & L3).
  set (sum := sum_of f None l). assert (M : measure f (ct_size c) (ct_text c) = Ok (scale_width sum (ct_size c))).
  { unfold measure. rewrite (content_eq f (ct_size c) (ct_text c) l Hu L1 L2). reflexivity. }
  destruct (text_drawn_then f index c l st Hu L1 L2 Dr (Dx _ M) Dy Du Db T) as (o & s2 & E1 & E2 & E3 & E4 & E5 & E6 & E7).
  exists o, s2. eexists. split; [exact E1|]. split; [exact E2|]. split; [exact E3|]. split; [exact E7|]. unfold line_style. congruence.
Qed.
Lemma image_then : forall w h x y height ch idx st, on_paper w -> on_paper h -> on_paper x -> on_paper y -> on_paper height -> reg_word ch -> g_cm st = None ->
  exists ms, forall rest g2 ms2, drawn rest (st, None) g2 ms2 -> drawn (img_stream w h x y height ch idx ++ rest) (st, None) g2 (ms ++ ms2).
Proof.
  intros w h x y height ch idx st Pw Ph Px Py Pt Rc Cm. destruct (paper_appr _ Pw) as (Aw & Mw). destruct (paper_appr _ Ph) as (Ah & Mh). destruct (paper_appr _ Px) as (Ax & Mx).
  destruct (paper_appr _ Py) as (Ay & My). destruct (paper_appr _ Pt) as (At & Mt).
  assert (Av : appr (fsub height (fadd y h)) (val height - (val y + val h))%R (1 / 1000)%R).
  { eapply appr_weaken; [apply near_sub; [exact At|apply near_add; [exact Ay|exact Ah|lra..]|lra|mag|lra..]|lra]. }
  exists [Image (ch ++ itoa idx) (Some (cents w, 0, 0, cents h, cents x, cents (fsub height (fadd y h))))]. intros rest g2 ms2 D. cbn [app]. apply (img_draws_then w h x y height ch idx st rest g2 ms2); [|exact Rc|exact Cm|exact D].
  repeat (apply Forall_cons; [eapply appr_finite; eassumption|]). apply Forall_nil.
Qed.

(** What is needed when it is written. *)
Definition set_for (fs : list font) (is : list image) (pg : Z) (e : contenter) : Prop :=
  match e with
  | CLine b w => w = width_of_border b
  | CText id c => ct_page c = pg -> exists f d u a b up uh, nth_error fs id = Some f /\ set_in d (sfont_of f) c u a b up uh
  | CImg id p x y w h height => p = pg -> on_paper x /\ on_paper y /\ on_paper w /\ on_paper h /\ on_paper height /\ exists i, nth_error is id = Some i /\ reg_word (im_char i)
  end.
Definition style_after (pg : Z) (cs : list contenter) (v : Z * (list Z * Z)) : Z * (list Z * Z) :=
  fold_left (fun v e => match e with CLine b _ => if pg =? 1 then style_for b else v | _ => v end) cs v.
Lemma pieces_drawn : forall fs is pg cs ins st, Forall2 (fun c i => content_of fs is c = (fst i, Ok (snd i))) cs ins -> Forall (set_for fs is pg) cs -> g_text st = false -> g_cm st = None ->
  exists st2 ms, (forall rest g2 ms2, drawn rest (st2, None) g2 ms2 -> drawn (ContentSpec.drawn ins pg ++ rest) (st, None) g2 (ms ++ ms2)) /\
    g_text st2 = false /\ g_cm st2 = None /\ line_style st2 = style_after pg cs (line_style st).
Proof.
  intros fs is pg cs ins st H. revert st. induction H as [|c [p o] cs ins E H IH]; intros st F T Cm.
  - exists st, []. split; [intros rest g2 ms2 D; exact D|]. auto.
  - inversion F as [|? ? Fc Fs]; subst. cbn [fst snd] in E. cbn [ContentSpec.drawn].
    assert (K : exists st1 ms1, (forall rest g2 ms2, drawn rest (st1, None) g2 ms2 -> drawn ((if p =? pg then o else []) ++ rest) (st, None) g2 (ms1 ++ ms2)) /\
      g_text st1 = false /\ g_cm st1 = None /\ line_style st1 = match c with CLine b _ => if pg =? 1 then style_for b else line_style st | _ => line_style st end).
    { destruct (Z.eqb_spec p pg) as [->|N].
      - destruct c as [b w|id c|id pg' x y w h height]; cbn [content_of set_for] in E, Fc.
        + assert (pg = 1) by congruence. assert (o = line_stream b w) by congruence. subst pg o w. exists (set_style st (style_for b)), []. split; [intros rest g2 ms2 D; apply line_then; exact D|].
          split; [exact T|]. split; [exact Cm|]. unfold line_style, set_style. cbn [g_line g_dash]. destruct (style_for b); reflexivity.
        + assert (Ep : ct_page c = pg) by congruence. destruct (Fc Ep) as (f & d & u & a & b & up & uh & Hf & Si). rewrite Hf in E.
          destruct (text_then _ _ _ _ _ _ _ _ Si (fd_index f) st T) as (o' & st2 & ms & Eo & D & T2 & C2 & L2). assert (o' = o) by congruence. subst o'. exists st2, ms. split; [exact D|]. split; [exact T2|]. split; [congruence|exact L2].
        + assert (Ep : pg' = pg) by congruence. destruct (Fc Ep) as (Px & Py & Pw & Ph & Pt & i & Hi & Ri). rewrite Hi in E. assert (o = img_stream w h x y height (im_char i) (im_index i)) by congruence. subst o.
          destruct (image_then w h x y height (im_char i) (im_index i) st Pw Ph Px Py Pt Ri Cm) as (ms & D). exists st, ms. auto.
      - exists st, []. split; [intros rest g2 ms2 D; exact D|]. split; [exact T|]. split; [exact Cm|]. destruct c as [b w|id c|id pg' x y w h height]; try reflexivity. cbn [content_of] in E. destruct (Z.eqb_spec pg 1); [|reflexivity]. congruence. }
    destruct K as (st1 & ms1 & K1 & K2 & K3 & K4). destruct (IH st1 Fs K2 K3) as (st2 & ms2 & D & T2 & C2 & L2). exists st2, (ms1 ++ ms2).
    split; [|split; [exact T2|split; [exact C2|]]].
    + intros rest g2 ms3 Dr. rewrite <- (app_assoc ms1). clear K4. destruct (p =? pg); [rewrite <- (app_assoc o)|]; apply K1, D; exact Dr.
    + rewrite L2, K4. unfold style_after. cbn [fold_left]. reflexivity.
Qed.
Lemma style_last : forall pg x b w l v, forallb (fun e => negb (is_line e)) l = true -> style_after pg (x ++ CLine b w :: l) v = if pg =? 1 then style_for b else v.
Proof.
  intros pg x b w l v N. unfold style_after. rewrite fold_left_app. cbn [fold_left].
  assert (A : forall l v, forallb (fun e => negb (is_line e)) l = true -> fold_left (fun v e => match e with CLine b _ => if pg =? 1 then style_for b else v | _ => v end) l v = v).
  { clear. induction l as [|e l IH]; intros v N; [reflexivity|]. cbn [forallb] in N. apply andb_true_iff in N as (N1 & N2). destruct e; [discriminate| |]; cbn [fold_left]; apply IH; exact N2. }
  rewrite A by exact N. destruct (pg =? 1) eqn:E; [reflexivity|]. clear A. induction x as [|e x IH] using rev_ind; [reflexivity|]. rewrite fold_left_app. cbn [fold_left]. destruct e; exact IH.
Qed.
