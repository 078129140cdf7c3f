(** The contents of the pages are what the calls draw. *)
From Coq Require Import String List ZArith Lia Bool.
From Coq.Floats Require Import SpecFloat.
From Verif Require Import Base BaseProofs Utf8 Output Png Crypto PdfSyntax PdfSyntaxProofs Float64 Ttf TtfSpec TtfProofs Subset CharMap Text TextSpec TextNumbers TextDraw TextBody TextContent TextFinal TextCases
  ApiIds GoPdf GoPdfSpec GoPdfFile GoPdfPages GoPdfRun GoPdfDoc GoPdfTree GoPdfDrawSpec GoPdfDraw GoPdfLine GoPdfState.
Open Scope Z_scope.
Open Scope list_scope.

(** ** Graphics *)

Definition not_text (c : gcache) : Prop := forall k, c <> CText k.
Lemma writes_num : forall x w, plain_op w -> sound_op ([Near x], w) -> writes [([Near x], w)] (fmt2 x ++ B" " ++ w ++ [10]).
Proof. intros x w P H. exact (writes_fmts [x] w P H). Qed.

Lemma graphic_effect : forall w g c e h ws cs, graphic h c = Some ws -> snd (u_page (g_cur g)) = h -> exists k, effect w (g, c, e) cs = Some (cs ++ [k]) /\ not_text k /\
  (Forall sound_op ws -> exists s, (forall fs, cache_stream fs k = Ok s) /\ writes ws s).
Proof.
  intros w g c e h ws cs G Eh. unfold effect. rewrite Eh. destruct c; try discriminate; cbn [graphic] in G;
    match type of G with Some ?a = Some ws => assert (E : ws = a) by congruence end; clear G; subst ws; (eexists; split; [reflexivity|]); (split; [intros k; discriminate|]); intros S;
    (eexists; split; [intros fs; reflexivity|]).
  - inversion S as [|? ? S1 _]; subst. exact (writes_num _ (B"w") ltac:(plain) S1).
  - apply writes_type.
  - apply writes_line. exact S.
  - apply writes_rect. exact S.
  - apply writes_rect. exact S.
  - apply writes_oval. exact S.
  - eapply writes_curve; [reflexivity|exact S].
  - inversion S as [|? ? S1 _]; subst. exact (writes_num _ (B"g") ltac:(plain) S1).
  - inversion S as [|? ? S1 _]; subst. exact (writes_num _ (B"G") ltac:(plain) S1).
  - inversion S as [|? ? S1 _]; subst. rewrite color_fmts. apply writes_color; [plain|exact S1].
  - inversion S as [|? ? S1 _]; subst. rewrite color_fmts. apply writes_color; [plain|exact S1].
Qed.

(** ** Images *)

Lemma place_find : forall id l k, (forall i c, nth_error l i = Some c -> snd (fst c) = k + Z.of_nat i) ->
  match find (fun c => beqb id (fst (fst c))) l with
  | Some c => place id l k = (snd (fst c), Some (snd c)) /\ exists i, nth_error l i = Some c
  | None => place id l k = (k + Z.of_nat (List.length l), None)
  end.
Proof.
  intros id. induction l as [|[[nm j] r] l IH]; intros k H; cbn [find place fst snd List.length].
  - f_equal. lia.
  - destruct (beqb id nm) eqn:E.
    + split; [|exists 0%nat; reflexivity]. cbn [fst snd]. pose proof (H 0%nat _ eq_refl) as X. cbn [fst snd] in X. rewrite X. f_equal. lia.
    + specialize (IH (k + 1)). assert (H1 : forall i c, nth_error l i = Some c -> snd (fst c) = k + 1 + Z.of_nat i). { intros i c Hi. rewrite (H (S i) c Hi). lia. }
      specialize (IH H1). destruct (find _ l) as [c|].
      * destruct IH as (IH & i & Hi). split; [exact IH|]. exists (S i). exact Hi.
      * rewrite IH. f_equal. lia.
Qed.

Lemma rect_natural : forall w d q, img_rect w d = Ok q -> exists dx dy, gw_bounds w d = Some (dx, dy) /\ q = natural dx dy.
Proof.
  intros w d q H. unfold img_rect in H. destruct (gw_bounds w d) as [(dx, dy)|]; [|discriminate]. exists dx, dy. split; [reflexivity|]. unfold natural.
  assert (E : forall z, Z.quot (Z.quot (- z * 72) (-128)) 1 = Z.quot (72 * z) 128).
  { intros z. rewrite Z.quot_1_r. replace (- z * 72) with (- (72 * z)) by lia. change (-128) with (- (128)). apply Z.quot_opp_opp. lia. }
  rewrite !E in H. cbv zeta in *. destruct (Z.quot (72 * dx) 128 =? 0).
  - destruct (dy =? 0); [discriminate|]. cbn [bind] in H. destruct (Z.quot (72 * dy) 128 =? 0); [destruct (dx =? 0); [discriminate|]|]; cbn [bind] in H; congruence.
  - cbn [bind] in H. destruct (Z.quot (72 * dy) 128 =? 0); [destruct (dx =? 0); [discriminate|]|]; cbn [bind] in H; congruence.
Qed.

Lemma image_effect : forall w g id d b x y r g' cs, numbered (g_cur g) -> g_procset g <> -1 -> g_image w b id d x y r g = Ok (g', None) -> let h := snd (u_page (g_cur g)) in
  let ws := image_ops w h g id d x y r in
  exists k, effect w (g, ImageBy id d b x y r, None) cs = Some (cs ++ [k]) /\ not_text k /\
  (Forall sound_op ws -> exists s, (forall fs, cache_stream fs k = Ok s) /\ writes ws s).
Proof.
  intros w g id d b x y r g' cs (N1 & N2) HP H h ws. eexists. split; [reflexivity|]. split; [intros k; discriminate|]. intros S.
  eexists. split; [intros fs; reflexivity|]. fold h. unfold img_of. subst ws. unfold image_ops in *.
  destruct (image_small _ _ _ _ _ _ _ _ _ _ HP H) as (C & _). unfold cur_next in C. cbv zeta in C.
  pose proof (place_find id (u_cache (g_cur g)) 0 N2) as P.
  assert (X : forall k rw rh, Forall sound_op [([], B"q"); ([Near rw; Is (PInt 0); Is (PInt 0); Near rh; Near x; Near (fsub h (fadd y rh))], B"cm"); ([Is (PName (B"I" ++ itoa (k + 1)))], B"Do"); ([], B"Q")] ->
    writes [([], B"q"); ([Near rw; Is (PInt 0); Is (PInt 0); Near rh; Near x; Near (fsub h (fadd y rh))], B"cm"); ([Is (PName (B"I" ++ itoa (k + 1)))], B"Do"); ([], B"Q")] (image_cache k x y h (rw, rh))).
  { intros k rw rh Sx. eapply writes_image; [reflexivity|exact Sx]. }
  destruct (find _ (u_cache (g_cur g))) as [[[nm k] rr]|] eqn:Ef.
  - destruct P as (P & i & Hi). cbn [fst snd] in P. rewrite P in *. cbn [fst snd].
    assert (A : at_ (u_cache (g_cur g)) k = Ok (nm, k, rr)).
    { pose proof (N2 _ _ Hi) as Ek. cbn [fst snd] in Ek. unfold at_. rewrite Ek in Hi |- *. destruct (Z.ltb_spec (Z.of_nat i) 0); [lia|]. rewrite Nat2Z.id, Hi. reflexivity. }
    destruct r as [(rw, rh)|].
    + apply X. exact S.
    + rewrite A. cbn [snd]. destruct rr as (rw, rh). apply X. exact S.
  - rewrite P in *. rewrite Z.add_0_l in *. rewrite N1. cbn [fst snd]. destruct C as (q & _ & Cq). destruct r as [(rw, rh)|].
    + apply X. exact S.
    + rewrite Cq. destruct (rect_natural _ _ _ Cq) as (dx & dy & E1 & E2). rewrite E1, <- E2 in *. destruct q as (rw, rh). apply X. exact S.
Qed.

(** ** Lines of text *)

Lemma chars_like : forall g t g1 n e m fc, add_text_chars g t = Ok (g1, n, e) -> nth_error (g_fonts g1) m = Some fc ->
  exists f, nth_error (g_fonts g) m = Some f /\ like f fc.
Proof.
  intros g t g1 n e m fc H E. destruct (chars_small _ _ _ _ _ H) as (_ & (k & f & _ & Ek & Ef) & _). rewrite Ef in E.
  destruct (Nat.eq_dec m k) as [->|Ne].
  - rewrite nth_set, Ek in E. cbn [option_map] in E. exists f. split; [exact Ek|]. assert (X : fc = gf_set_map f (fst (add_chars (gf_ttf f) t (gf_map f)))) by congruence.
    subst fc. repeat split.
  - rewrite nth_set_other in E by exact Ne. exists fc. split; [exact E|]. repeat split.
Qed.

(** A call of text that returns no error. *)
Lemma text_ok : forall cfg g a o oc cell rect al bo fl t g', inv cfg g (a ++ [(o, oc)]) -> text_call cell rect al bo fl t g = Ok (g', None) ->
  exists g1 n cs' x y, add_text_chars g t = Ok (g1, n, None) /\ append_text (g_fonts g1) (held oc) (text_of (g_cur g) n cell rect al bo fl) t = (cs', x, y, Ok tt) /\
    g_fonts g' = g_fonts g1 /\ u_font (g_cur g) = Some n.
Proof.
  intros cfg g a o oc cell rect al bo fl t g' V H. unfold text_call in H. destruct (add_text_chars g t) as [[[g1 n] e1]| | |] eqn:E; cbn [bind] in H; try discriminate.
  destruct e1; [discriminate|]. pose proof (chars_frame _ _ _ _ _ E) as (E1 & E2 & E3 & E4 & E5 & E6). destruct (chars_small _ _ _ _ _ E) as (_ & _ & Eu & _).
  assert (V1 : inv cfg g1 (a ++ [(o, oc)])) by (eapply inv_same; eauto; congruence).
  unfold put_text in H. destruct (getContent g1) as [[[[g2 i] s] cs]| | |] eqn:EC; cbn [bind] in H; try discriminate.
  destruct (inv_draw _ _ _ _ _ _ _ V1 EC) as (Ec & Ef & P & V'). fold (text_of (g_cur g1) n cell rect al bo fl) in H. rewrite E6 in H.
  destruct P as [P|(x0 & y0 & oc' & P & Hc)]; [destruct a; discriminate|]. apply app_inj_tail in P. destruct P as (_ & P). assert (oc = oc') by congruence. subst oc'.
  rewrite <- Hc in H.
  destruct (append_text (g_fonts g1) (held oc) (text_of (g_cur g) n cell rect al bo fl) t) as [[[cs' x] y] r] eqn:EA.
  exists g1, n, cs', x, y. destruct r as [[]| | |]; try discriminate. split; [reflexivity|]. split; [exact EA|]. split; [|exact Eu].
  injection H as <-. cbn [g_fonts g_set_cur put_kind g_set_objs]. exact Ef.
Qed.

Lemma create_ok : forall f c text c' r, create_content f c text = (c', Ok r) -> exists sum cw ch, content (gsfont f) (x_size c) text = (x_content c', Ok sum) /\
  (cw, ch) = match x_rect c with None => (scale_width sum (x_size c), fsub (typo_asc (gf_ttf f) (x_size c)) (typo_desc (gf_ttf f) (x_size c))) | Some r => r end /\
  c' = mkGT (x_rect c) (x_color c) (x_gray c) (x_index c) (x_size c) (x_style c) (x_setx c) (x_x c) (x_y c) (x_font c)
         (x_height c) (x_cell c) (x_align c) (x_border c) (x_float c) (x_line c) (x_content c') text cw (scale_width sum (x_size c)) ch.
Proof.
  intros f c text c' r H. unfold create_content in H. destruct (content (gsfont f) (x_size c) text) as (body, [sum| | |]) eqn:E; try discriminate.
  exists sum. destruct (x_rect c) as [(rw, rh)|] eqn:Er.
  - exists rw, rh. match type of H with (?a, _) = _ => assert (X : c' = a) by congruence end. clear H. rewrite X. cbn [x_content]. auto.
  - eexists _, _. match type of H with (?a, _) = _ => assert (X : c' = a) by congruence end. clear H. rewrite X. cbn [x_content]. auto.
Qed.

(** The stored content of a piece; [fs] are the fonts now. *)
Definition rep (h : f64) (fs : list gfont) (p : piece) (c : gcache) : Prop :=
  match p with
  | Ops ws => not_text c /\ (Forall sound_op ws -> exists s, (forall fs, cache_stream fs c = Ok s) /\ writes ws s)
  | Words l => exists k f fc sum f', c = CText k /\ text_rep h l k f fc sum /\ nth_error fs (x_font k) = Some f' /\ gf_ttf f' = gf_ttf f
  end.
Lemma rep_grows : forall h fs fs' p c, grows fs fs' -> rep h fs p c -> rep h fs' p c.
Proof.
  intros h fs fs' [ws|l] c G R; [exact R|]. destruct R as (k & f & fc & sum & f' & E & T & N & Et). destruct (G _ _ N) as (f2 & N2 & E2).
  exists k, f, fc, sum, f2. split; [exact E|]. split; [exact T|]. split; [exact N2|congruence].
Qed.

Lemma same_goes : forall h l k f fc sum g n cell rect al bo fl, text_rep h l k f fc sum -> is_same k (text_of (g_cur g) n cell rect al bo fl) = goes_on l g.
Proof.
  intros h l k f fc sum g n cell rect al bo fl R. destruct R. unfold is_same, goes_on. cbv zeta. rewrite tr_rect. destruct (a_rect (l_args l)); [reflexivity|].
  cbn [text_of x_color x_gray x_index x_size x_style x_setx x_y]. rewrite tr_color, tr_gray, tr_index, tr_size, tr_style, tr_setx, tr_y. unfold rgb_eq.
  destruct (u_color (g_cur (l_first l))) as ((r, gg), bb), (u_color (g_cur g)) as ((r', gg'), bb').
  replace (u_count (g_cur (l_first l)) + 1 =? u_count (g_cur g) + 1) with (u_count (g_cur (l_first l)) =? u_count (g_cur g)); [reflexivity|].
  destruct (Z.eqb_spec (u_count (g_cur (l_first l))) (u_count (g_cur g))), (Z.eqb_spec (u_count (g_cur (l_first l)) + 1) (u_count (g_cur g) + 1)); lia.
Qed.

Lemma append_inv : forall fs l c text l' x y, append_text fs l c text = (l', x, y, Ok tt) -> exists before cur f cur' r,
  (match rev l with CText old :: r => if is_same old c then (rev r, old) else (l, c) | _ => (l, c) end) = (before, cur) /\
  nth_error fs (x_font cur) = Some f /\ create_content f cur (x_text cur ++ text) = (cur', Ok r) /\ l' = before ++ [CText cur'].
Proof.
  intros fs l c text l' x y H. unfold append_text in H. destruct (match rev l with CText old :: r => if is_same old c then (rev r, old) else (l, c) | _ => (l, c) end) as (before, cur).
  exists before, cur. destruct (nth_error fs (x_font cur)) as [f|]; [|discriminate]. destruct (create_content f cur (x_text cur ++ text)) as (cur', r) eqn:E.
  destruct r as [(rw, rh)| | |]; try discriminate. exists f, cur', (rw, rh). split; [reflexivity|]. split; [reflexivity|]. split; [exact E|]. congruence.
Qed.

Lemma text_step : forall h w g c e ps cs cs' x y g1 g' n cell rect al bo fl t,
  text_args c = Some (mkTA cell rect al bo t) -> snd (u_page (g_cur g)) = h -> maps_good (g_fonts g1) ->
  Forall2 (rep h (g_fonts g1)) ps cs -> add_text_chars g t = Ok (g1, n, None) -> u_font (g_cur g) = Some n -> g_fonts g' = g_fonts g1 ->
  append_text (g_fonts g1) cs (text_of (g_cur g) n cell rect al bo fl) t = (cs', x, y, Ok tt) ->
  Forall2 (rep h (g_fonts g')) (piece_step w h ps (g, c, e)) cs'.
Proof.
  intros h w g c e ps cs cs' x y g1 g' n cell rect al bo fl t Ha Eh MG HF HC Eu Ef HA. rewrite Ef. unfold piece_step. rewrite Ha. cbn [a_text].
  destruct (append_inv _ _ _ _ _ _ _ HA) as (before & cur & fc & cur' & r & EB & En & EC & ->). clear HA.
  set (new := text_of (g_cur g) n cell rect al bo fl) in *.
  destruct (create_ok _ _ _ _ _ EC) as (sum & cw & ch & E1 & E2 & E3). destruct (chars_like _ _ _ _ _ _ _ HC En) as (f & Ef0 & L). pose proof L as (L1 & _).
  assert (G : good_map (gf_ttf fc) (gf_map fc)). { unfold maps_good in MG. rewrite Forall_forall in MG. apply (MG fc). exact (nth_error_In _ _ En). }
  assert (Fn : x_font cur' = x_font cur) by (rewrite E3; reflexivity).
  assert (NEW : before = cs -> cur = new -> Forall2 (rep h (g_fonts g1)) (ps ++ [Words (mkLine g (mkTA cell rect al bo t) t g)]) (before ++ [CText cur'])).
  { intros -> ->. apply Forall2_app; [exact HF|]. constructor; [|constructor]. exists cur', f, fc, sum, fc. split; [reflexivity|]. split; [|split; [rewrite Fn; exact En|exact L1]].
    rewrite E3. subst new. cbn [text_of x_rect x_color x_gray x_index x_size x_style x_setx x_x x_y x_font x_height x_cell x_align x_border x_float x_line x_text app] in *.
    constructor; cbn [l_first l_args l_text l_last a_rect a_cell a_align a_border a_text x_rect x_color x_gray x_index x_size x_style x_setx x_x x_y x_font x_height x_cell x_align x_border x_line x_text x_content x_tw x_cw x_ch];
      auto. rewrite E2, L1. reflexivity. }
  destruct (last_cases _ ps) as [->|(ps0 & q & ->)].
  - inversion HF; subst. cbn [rev] in *. apply NEW; congruence.
  - apply forall2_snoc in HF. destruct HF as (cs0 & k & -> & HF & R). rewrite !rev_app_distr in *. cbn [rev app] in *. destruct q as [ws|l].
    + assert (X : (before, cur) = (cs0 ++ [k], new)). { destruct k; try (symmetry; exact EB). destruct R as (R & _). destruct (R c0 eq_refl). }
      apply NEW; congruence.
    + destruct R as (old & f0 & fc0 & sum0 & f1 & -> & R & N0 & T0). pose proof (same_goes _ _ _ _ _ _ g n cell rect al bo fl R) as SG. fold new in SG. rewrite SG in EB.
      destruct (goes_on l g).
      * rewrite !rev_involutive in *. assert (before = cs0) by congruence. assert (cur = old) by congruence. subst before cur. apply Forall2_app; [exact HF|]. constructor; [|constructor].
        exists cur', f, fc, sum, fc. split; [reflexivity|]. split; [|split; [rewrite Fn; exact En|exact L1]].
        destruct R. rewrite E3. rewrite tr_text in *.
        constructor; cbn [l_first l_args l_text l_last a_rect a_cell a_align a_border a_text x_rect x_color x_gray x_index x_size x_style x_setx x_x x_y x_font x_height x_cell x_align x_border x_line x_text x_content x_tw x_cw x_ch];
          auto. rewrite E2, L1. reflexivity.
      * apply NEW; congruence.
Qed.

(** ** Pages *)

Definition page_rep (w : gworld) (cfg : gconfig) (fs : list gfont) (p : f64 * f64 * trace) : Prop :=
  let h := snd (asked cfg (fst p)) in
  texts_ok (snd p) -> Forall2 (rep h fs) (pieces w h (snd p)) (held (fold_left (cstep w) (snd p) None)).
Lemma page_grows : forall w cfg fs fs' p, grows fs fs' -> page_rep w cfg fs p -> page_rep w cfg fs' p.
Proof.
  intros w cfg fs fs' p G H T. specialize (H T). clear T. revert H. generalize (pieces w (snd (asked cfg (fst p))) (snd p)) (held (fold_left (cstep w) (snd p) None)).
  intros l l' H. induction H; constructor; auto. eapply rep_grows; eauto.
Qed.
Lemma pieces_snoc : forall w h t x, pieces w h (t ++ [x]) = piece_step w h (pieces w h t) x.
Proof. intros. unfold pieces. rewrite fold_left_app. reflexivity. Qed.
Lemma texts_snoc : forall t x, texts_ok (t ++ [x]) -> texts_ok t /\ (text_args (snd (fst x)) <> None -> snd x = None).
Proof. intros t x H. apply Forall_app in H. destruct H as (H & K). split; [exact H|]. inversion K; assumption. Qed.
Lemma on_last_forall : forall A (P : A -> Prop) f l, Forall P l -> (forall a x, l = a ++ [x] -> P (f x)) -> Forall P (on_last f l).
Proof.
  intros A P f l H K. destruct (last_cases _ l) as [->|(a & x & ->)]; [constructor|]. rewrite on_last_snoc. apply Forall_app in H. destruct H as (H & _).
  apply Forall_app. split; [exact H|]. constructor; [|constructor]. eapply K. reflexivity.
Qed.

Lemma page_call : forall w cfg g c g' e a p, inv cfg g (map (made w) (a ++ [p])) -> maps_good (g_fonts g') -> numbered (g_cur g) ->
  u_page (g_cur g) = asked cfg (fst p) -> gstep w g c = Ok (g', e) -> (forall o, c <> AddPage o) ->
  page_rep w cfg (g_fonts g') p -> page_rep w cfg (g_fonts g') (fst p, snd p ++ [(g, c, e)]).
Proof.
  intros w cfg g c g' e a p V MG N PG S NP H T. cbn [fst snd] in *. apply texts_snoc in T. destruct T as (T & TX). specialize (H T). cbv zeta in H. cbn [fst snd] in TX.
  rewrite pieces_snoc, fold_left_app. cbn [fold_left]. set (oc := fold_left (cstep w) (snd p) None) in *. set (h := snd (asked cfg (fst p))) in *.
  assert (Eh : snd (u_page (g_cur g)) = h) by (rewrite PG; reflexivity).
  pose proof (inv_proc _ _ _ V) as HP. rewrite map_app in V. cbn [map] in V. unfold made at 2 in V. fold oc in V.
  set (ps := pieces w h (snd p)) in *.
  assert (GR : forall ws k, effect w (g, c, e) (held oc) = Some (held oc ++ [k]) -> not_text k -> (Forall sound_op ws -> exists s, (forall fs, cache_stream fs k = Ok s) /\ writes ws s) ->
    Forall2 (rep h (g_fonts g')) (ps ++ [Ops ws]) (held (cstep w oc (g, c, e)))).
  { intros ws k E Nt Wr. unfold cstep. rewrite E. cbn [held]. apply Forall2_app; [exact H|]. constructor; [|constructor]. split; assumption. }
  assert (TE : forall cell rect al bo fl t, text_args c = Some (mkTA cell rect al bo t) -> gstep w g c = text_call cell rect al bo fl t g ->
    (forall cs, effect w (g, c, e) cs = text_effect g cell rect al bo fl t cs) -> Forall2 (rep h (g_fonts g')) (piece_step w h ps (g, c, e)) (held (cstep w oc (g, c, e)))).
  { intros cell rect al bo fl t Ha Es Ee. rewrite Es in S. rewrite TX in S by congruence.
    destruct (text_ok _ _ _ _ _ _ _ _ _ _ _ _ V S) as (g1 & n & cs' & x & y & C & A & Ef & Eu). unfold cstep. rewrite Ee. unfold text_effect. rewrite C.
    destruct (chars_frame _ _ _ _ _ C) as (_ & _ & _ & _ & _ & Ec). rewrite Ec, A. cbn [fst held].
    eapply text_step; [exact Ha|exact Eh| | |exact C|exact Eu|exact Ef|exact A]; [rewrite <- Ef; exact MG|rewrite <- Ef; exact H]. }
  destruct c; try (eapply TE; reflexivity); try (exact H); try (destruct (NP opt eq_refl));
    try (match goal with |- context [(g, ?c0, e)] => destruct (graphic_effect w g c0 e h _ (held oc) eq_refl Eh) as (k & E & Nt & Wr) end; exact (GR _ k E Nt Wr)).
  destruct e as [e|]; [exact H|]. cbn [gstep] in S.
  match goal with |- context [(g, ImageBy ?id ?d ?b ?x ?y ?r, None)] => destruct (image_effect w g id d b x y r g' (held oc) N HP S) as (k & E & Nt & Wr) end.
  rewrite Eh in Wr. exact (GR _ k E Nt Wr).
Qed.

Theorem rep_run : forall rnd cfg w g0 t g, g_start rnd cfg gp0 = Ok g0 -> runs w g0 t g -> Forall (page_rep w cfg (g_fonts g)) (pages_of t).
Proof.
  intros rnd cfg w g0 t g S R. pose proof (inv_start _ _ _ S) as V0.
  induction R as [|t g c g' e R IH Sc]; [constructor|].
  pose proof (inv_run _ _ _ _ _ V0 R) as V. pose proof (steady_run _ _ _ _ _ _ S R) as [M N P].
  pose proof (steady_run _ _ _ _ _ _ S (runs_call _ _ _ _ _ _ _ R Sc)) as [M' _ _].
  destruct (step_small _ _ _ _ _ (inv_proc _ _ _ V) Sc) as (_ & C & _). apply fonts_grow in C.
  assert (IH' : Forall (page_rep w cfg (g_fonts g')) (pages_of t)). { eapply Forall_impl; [|exact IH]. intros p. apply page_grows. exact C. }
  rewrite pages_snoc. unfold page_step. cbn [fst snd].
  assert (L : (forall o, c <> AddPage o) -> Forall (page_rep w cfg (g_fonts g')) (on_last (fun p => (fst p, snd p ++ [(g, c, e)])) (pages_of t))).
  { intros NP. apply on_last_forall; [exact IH'|]. intros a p E. rewrite E in V, IH'. apply Forall_app in IH'. destruct IH' as (_ & IH'). inversion IH'; subst.
    eapply page_call; eauto. }
  destruct c; try (apply L; intros; discriminate). apply Forall_app. split; [exact IH'|]. constructor; [|constructor]. intros _. constructor.
Qed.

(** The stream of a page. *)
Lemma caches_write : forall h fs ps cs s, Forall2 (rep h fs) ps cs -> Forall sound_op (flat_map (piece_wants h) ps) -> caches_stream fs cs = Ok s ->
  writes (flat_map (piece_wants h) ps) s.
Proof.
  intros h fs ps cs s H. revert s. induction H as [|p c ps cs R H IH]; intros s S E; cbn [caches_stream flat_map] in *.
  - injection E as <-. apply writes_nil.
  - apply Forall_app in S. destruct S as (S1 & S2). destruct (cache_stream fs c) as [a| | |] eqn:Ea; cbn [bind] in E; try discriminate.
    destruct (caches_stream fs cs) as [bb| | |] eqn:Eb; cbn [bind] in E; try discriminate. assert (s = a ++ bb) by congruence. subst s.
    apply writes_app; [|apply IH; auto]. destruct p as [ws|l]; cbn [piece_wants rep] in *.
    + destruct R as (_ & R). destruct (R S1) as (s & Es & W). rewrite Es in Ea. assert (s = a) by congruence. subst s. exact W.
    + destruct R as (k & f & fc & sum & f' & -> & T & Nf & Et). cbn [cache_stream] in Ea. rewrite Nf in Ea.
      assert (Lf : l_font l = Some f). { unfold l_font. rewrite (tr_font _ _ _ _ _ _ T). exact (tr_last _ _ _ _ _ _ T). }
      rewrite Lf in *. assert (X : a = gtext_stream (gf_ttf f') k) by congruence. subst a. rewrite Et. eapply writes_text; eauto.
Qed.
Theorem page_stream : forall w cfg fs p cs s, page_rep w cfg fs p -> texts_ok (snd p) -> let h := snd (asked cfg (fst p)) in
  Forall sound_op (wanted w h (snd p)) -> fold_left (cstep w) (snd p) None = Some cs -> caches_stream fs cs = Ok s ->
  exists ops, operators s ops /\ Forall2 fit_op (wanted w h (snd p)) ops.
Proof.
  intros w cfg fs p cs s R T h S E C. specialize (R T). cbv zeta in R. fold h in R. rewrite E in R. cbn [held] in R.
  pose proof (caches_write _ _ _ _ _ R S C) as W. destruct (W [] []) as (o & O & Fo); [apply ops_end; reflexivity|]. rewrite !app_nil_r in O. exists o. auto.
Qed.
