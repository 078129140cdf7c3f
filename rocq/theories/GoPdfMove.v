(** Where texts move the position to, and how contents are compressed. *)
From Coq Require Import String List ZArith Lia Bool.
From Coq.Floats Require Import SpecFloat.
From Verif Require Import Base BaseProofs Utf8 Output Png Crypto PdfSyntax PdfSyntaxProofs Float64 Ttf TtfSpec TtfProofs Subset CharMap Text TextSpec TextNumbers TextDraw TextBody TextContent TextFinal TextCases
  ApiIds GoPdf GoPdfSpec GoPdfFile GoPdfPages GoPdfRun GoPdfDoc GoPdfTree GoPdfDrawSpec GoPdfDraw GoPdfLine GoPdfState GoPdfText GoPdfDocSpec GoPdfOut GoPdfMain GoPdfFonts GoPdfKeep GoPdfMoveSpec.
Open Scope Z_scope.
Open Scope list_scope.

(** ** Levels *)

Lemma step_level : forall w g c g' e, g_procset g <> -1 -> gstep w g c = Ok (g', e) ->
  g_level g' = match c with CompressLevel l => if l <? -2 then -1 else if 9 <? l then g_level g else l | _ => g_level g end.
Proof.
  intros w g c g' e HP H. destruct c; cbn [gstep] in H;
    try (unfold gok in H; cbn [bind] in H; injection H as <- <-; reflexivity);
    try (destruct (gok_small _ _ _ _ H) as ((S1 & S2 & S3 & S4 & S5) & ->); exact S4).
  - unfold gok in H. cbn [bind] in H. injection H as <- <-. unfold g_add_page. cbn [addObj]. cbv zeta. cbn [g_first g_set_objs g_set_cur].
    destruct (g_first g =? -1); reflexivity.
  - destruct (select_small _ _ _ _ _ _ H) as (A & C & D & D2 & D3). exact D2.
  - destruct (select_small _ _ _ _ _ _ H) as (A & C & D & D2 & D3). exact D2.
  - destruct (font_small _ _ _ _ _ _ _ _ H) as (A & C & D & D2 & D3). exact D2.
  - destruct (kern_small _ _ _ _ _ H) as (A & C & D & D2 & D3). exact D2.
  - destruct (text_small _ _ _ _ _ _ _ _ _ H) as (A & C & D & D2 & D3). exact D2.
  - destruct (text_small _ _ _ _ _ _ _ _ _ H) as (A & C & D & D2 & D3). exact D2.
  - destruct (text_small _ _ _ _ _ _ _ _ _ H) as (A & C & D & D2 & D3). exact D2.
  - destruct (image_small _ _ _ _ _ _ _ _ _ _ HP H) as (A & C & D & D2 & D3). exact D2.
  - unfold g_compress_level in H. unfold gok in H. cbn [bind] in H. destruct (l <? -2); [injection H as <- <-; reflexivity|].
    destruct (9 <? l); injection H as <- <-; reflexivity.
  - unfold g_measure in H. destruct (add_text_chars g text) as [[[g1 n] [e1|]]| | |] eqn:E; cbn [bind] in H; try discriminate. injection H as <- <-.
    destruct (chars_small _ _ _ _ _ E) as (E1 & E2 & _ & E3 & E4 & E5). exact E4.
Qed.
Lemma level_run : forall rnd cfg w g0 t g, g_start rnd cfg gp0 = Ok g0 -> runs w g0 t g ->
  (forall x n, In x t -> snd (fst x) = CompressLevel n -> n <= 9) -> g_level g = level_of t.
Proof.
  intros rnd cfg w g0 t g S R. pose proof (inv_start _ _ _ S) as V0. induction R as [|t g c g' e R IH Sc]; intros H.
  - unfold g_start in S. cbv zeta in S. cbn [addObj] in S.
    match type of S with bind ?e _ = _ => destruct e as [p| | |]; cbn [bind] in S; try discriminate end. injection S as <-. reflexivity.
  - pose proof (inv_run _ _ _ _ _ V0 R) as V. rewrite (step_level _ _ _ _ _ (inv_proc _ _ _ V) Sc). rewrite IH by (intros x n Hx; apply H; apply in_or_app; left; exact Hx).
    unfold level_of. rewrite fold_left_app. cbn [fold_left fst snd]. destruct c; try reflexivity. unfold level_for.
    pose proof (H _ l ltac:(apply in_or_app; right; left; reflexivity) eq_refl). destruct (Z.ltb_spec 9 l); [lia|]. reflexivity.
Qed.

Lemma key_is : forall w rnd cfg t F key g0 g, document w rnd cfg t F -> blen F < 10 ^ 10 -> (forall i, info_of t = Some i -> simple_info i) -> 0 <= cfg_perm cfg < 256 ->
  opens F (cfg_user cfg) key -> g_start rnd cfg gp0 = Ok g0 -> runs w g0 t g -> key = option_map encryptionKey (g_prot g).
Proof.
  intros w rnd cfg t F key g0 g D Hs HI Hp HO S R. destruct (kept_run _ _ _ _ _ _ S R) as (Eq & Eg). destruct (doc_opens _ _ _ _ _ D Hs HI) as (P1 & P2).
  apply (key_of F (cfg_user cfg) _ _ HO); [|apply trailer_unique]. rewrite Eq. pose proof (start_prot _ _ _ S Hp) as SP. destruct (cfg_use cfg) eqn:Eu.
  - destruct SP as (p & -> & SP). destruct (P2 eq_refl Hp p SP) as (X & _). exact X.
  - rewrite SP. apply P1. reflexivity.
Qed.

Theorem doc_levels : forall w rnd cfg t F key, document w rnd cfg t F -> blen F < 10 ^ 10 -> finite (cfg_w cfg) -> finite (cfg_h cfg) ->
  Forall drawn_page (pages_of t) -> 0 <= cfg_perm cfg < 256 -> (forall i, info_of t = Some i -> simple_info i) -> opens F (cfg_user cfg) key ->
  (forall x n, In x t -> snd (fst x) = CompressLevel n -> n <= 9) ->
  exists kids, root_is F (cfg_w cfg, cfg_h cfg) kids /\ NoDup kids /\
    Forall2 (fun k p => exists c s, page_is F k (cfg_w cfg, cfg_h cfg) (asked cfg (fst p)) c /\ packed w (level_of t) key F c s /\
      (texts_ok (snd p) -> Forall sound_op (wanted w (snd (asked cfg (fst p))) (snd p)) ->
       exists ops, operators s ops /\ Forall2 fit_op (wanted w (snd (asked cfg (fst p))) (snd p)) ops)) kids (pages_of t).
Proof.
  intros w rnd cfg t F key D Hs Fw Fh HP Hp HI HO HL.
  destruct (doc_pages _ _ _ _ _ D Hs Fw Fh HP) as (g0 & g & kids & S & R & RI & ND & F2).
  pose proof (rep_run _ _ _ _ _ _ S R) as RR. pose proof (key_is _ _ _ _ _ _ _ _ D Hs HI Hp HO S R) as EK. pose proof (level_run _ _ _ _ _ _ S R HL) as EL.
  exists kids. split; [exact RI|]. split; [exact ND|]. clear RI ND HP HL D. revert RR F2. generalize (pages_of t). intros ps0 RR F2.
  induction F2 as [|k p kids ps (c & cs & b & kd & l & l' & r & PI & CS & BD & OT) F2 IH]; constructor.
  - inversion RR as [|? ? R1 _]; subst. cbn [build1] in BD. destruct (caches_stream (g_fonts g) cs) as [s| | |] eqn:Ec; cbn [bind] in BD; try discriminate.
    destruct (content_build w (g_level g) (g_prot g) c [] s) as [(b0, st)| | |] eqn:Eb; cbn [bind] in BD; try discriminate.
    assert (b0 = b) by congruence. subst b0. clear BD.
    assert (Hc : 0 <= c). { destruct OT as (N & bb & off & dd & _ & Hid & _). lia. }
    destruct (content_packed w _ _ c s b st r Hc Eb) as (d & raw & mid & SO & DE & UN).
    exists c, s. split; [exact PI|]. split; [exists d, raw, mid; split; [eexists; split; [exact OT|exact SO]|split; [exact DE|rewrite <- EL; exact UN]]|].
    intros TO SD. eapply page_stream; eauto.
  - inversion RR; subst. apply IH; assumption.
Qed.

(** ** Positions *)

Lemma bit_of : forall k x, 0 <= k -> hasbit x (2 ^ k) = Z.testbit x k.
Proof.
  intros k x Hk. unfold hasbit. destruct (Z.testbit x k) eqn:E.
  - apply Z.eqb_eq. apply Z.bits_inj'. intros n Hn. rewrite Z.land_spec, Z.pow2_bits_eqb by exact Hk. destruct (Z.eqb_spec k n) as [<-|Ne]; [rewrite E; reflexivity|apply andb_false_r].
  - apply Z.eqb_neq. intros X. apply (f_equal (fun z => Z.testbit z k)) in X. rewrite Z.land_spec, E, Z.pow2_bits_true in X by exact Hk. discriminate.
Qed.

Lemma append_moves : forall fs l c text l' x y, append_text fs l c text = (l', x, y, Ok tt) -> exists before cur f cur' cw ch,
  (match rev l with CText old :: r => if is_same old c then (rev r, old) else (l, c) | _ => (l, c) end) = (before, cur) /\
  nth_error fs (x_font cur) = Some f /\ create_content f cur (x_text cur ++ text) = (cur', Ok (cw, ch)) /\
  x = (if (x_float cur =? 0) || Z.testbit (x_float cur) 1 || negb (x_cell cur) then fadd (x_x c) cw else x_x c) /\
  y = (if Z.testbit (x_float cur) 0 then fadd (x_y c) ch else x_y c).
Proof.
  intros fs l c text l' x y H. unfold append_text in H. destruct (match rev l with CText old :: r => if is_same old c then (rev r, old) else (l, c) | _ => (l, c) end) as (before, cur).
  exists before, cur. destruct (nth_error fs (x_font cur)) as [f|]; [|discriminate]. destruct (create_content f cur (x_text cur ++ text)) as (cur', r) eqn:E.
  destruct r as [(rw, rh)| | |]; try discriminate. exists f, cur', rw, rh. split; [reflexivity|]. split; [reflexivity|]. split; [exact E|].
  change aRight with (2 ^ 1) in H. change aBottom with (2 ^ 0) in H. rewrite !bit_of in H by lia. split; congruence.
Qed.
Lemma text_place : forall cfg g a o oc cell rect al bo fl t g', inv cfg g (a ++ [(o, oc)]) -> text_call cell rect al bo fl t g = Ok (g', None) ->
  exists g1 n cs', add_text_chars g t = Ok (g1, n, None) /\ u_font (g_cur g) = Some n /\ g_fonts g' = g_fonts g1 /\
    append_text (g_fonts g1) (held oc) (text_of (g_cur g) n cell rect al bo fl) t = (cs', u_x (g_cur g'), u_y (g_cur g'), Ok tt).
Proof.
  intros cfg g a o oc cell rect al bo fl t g' V H. unfold text_call in H. destruct (add_text_chars g t) as [[[g1 n] e1]| | |] eqn:E; cbn [bind] in H; try discriminate.
  destruct e1; [discriminate|]. pose proof (chars_frame _ _ _ _ _ E) as (E1 & E2 & E3 & E4 & E5 & E6). destruct (chars_small _ _ _ _ _ E) as (_ & _ & Eu & _).
  assert (V1 : inv cfg g1 (a ++ [(o, oc)])) by (eapply inv_same; eauto; congruence).
  unfold put_text in H. destruct (getContent g1) as [[[[g2 i] s] cs]| | |] eqn:EC; cbn [bind] in H; try discriminate.
  destruct (inv_draw _ _ _ _ _ _ _ V1 EC) as (Ec & Ef & P & V'). fold (text_of (g_cur g1) n cell rect al bo fl) in H. rewrite E6 in H.
  destruct P as [P|(x0 & y0 & oc' & P & Hc)]; [destruct a; discriminate|]. apply app_inj_tail in P. destruct P as (_ & P). assert (oc = oc') by congruence. subst oc'.
  rewrite <- Hc in H.
  destruct (append_text (g_fonts g1) (held oc) (text_of (g_cur g) n cell rect al bo fl) t) as [[[cs' x] y] r] eqn:EA.
  exists g1, n, cs'. destruct r as [[]| | |]; try discriminate. injection H as <-. cbn [g_fonts g_set_cur put_kind g_set_objs g_cur u_set_xy u_x u_y].
  split; [reflexivity|]. split; [exact Eu|]. split; [exact Ef|exact EA].
Qed.

Lemma width_is : forall f fc size text body sum, like f fc -> good_map (gf_ttf fc) (gf_map fc) -> 0 < unitsPerEm (gf_ttf f) ->
  (forall r g, In r (runes text) -> 65535 < r -> glyph_index (gf_ttf f) r = Ok g -> 0 <= g < 65536) ->
  content (gsfont fc) size text = (body, Ok sum) -> sum = advances f None (runes text).
Proof. intros f fc size text body sum L G Hu HS C. eapply (proj1 (written f fc size text body sum L G C (conj Hu HS))). Qed.

Lemma text_call_of : forall w c A g, text_args c = Some A -> gstep w g c = text_call (a_cell A) (a_rect A) (a_align A) (a_border A) (floats c) (a_text A) g /\
  (to_right c || negb (a_cell A)) = (floats c =? 0) || Z.testbit (floats c) 1 || negb (a_cell A).
Proof. intros w c A g H. destruct c; try discriminate; cbn [text_args] in H; injection H as <-; split; reflexivity. Qed.

Theorem text_moves : forall w rnd cfg t F, document w rnd cfg t F -> forall a q c q' c' e' b A ps p, t = a ++ (q, c, None) :: (q', c', e') :: b ->
  text_args c = Some A -> pages_of a = ps ++ [p] -> texts_ok (snd p) -> let old := pieces w (snd (asked cfg (fst p))) (snd p) in
  exists n f, u_font (g_cur q) = Some n /\ nth_error (g_fonts q) n = Some f /\
    ((forall l, ~ joins old l q) -> (a_rect A = None -> measurable f (a_text A)) -> let (w, h) := extent f (u_size (g_cur q)) (a_rect A) (a_text A) in
       u_x (g_cur q') = (if to_right c || negb (a_cell A) then fadd (u_x (g_cur q)) w else u_x (g_cur q)) /\
       u_y (g_cur q') = (if down c then fadd (u_y (g_cur q)) h else u_y (g_cur q))) /\
    (forall l, joins old l q -> a_cell (l_args l) = false -> exists m fl, u_font (g_cur (l_first l)) = Some m /\ nth_error (g_fonts q) m = Some fl /\
       (measurable fl (l_text l ++ a_text A) -> u_x (g_cur q') = fadd (u_x (g_cur q)) (fst (extent fl (u_size (g_cur (l_first l))) None (l_text l ++ a_text A))))).
Proof.
  intros w rnd cfg t F D a q c q' c' e' b A ps p E HA HP HT old. destruct D as (g0 & g & g' & S & R & _). pose proof (inv_start _ _ _ S) as V0.
  destruct (runs_split _ _ _ _ R _ _ _ _ _ E) as (q1 & Ra & Sc & _). assert (E2 : t = (a ++ [(q, c, None)]) ++ (q', c', e') :: b) by (rewrite <- app_assoc; exact E).
  destruct (runs_split _ _ _ _ R _ _ _ _ _ E2) as (q2 & Rb & _). assert (q1 = q').
  { inversion Rb as [Z|t1 g1 c1 g1' e1 R1 S1 Z Z2]; [destruct a; discriminate|]. apply app_inj_tail in Z. destruct Z as (-> & Z). assert (g1 = q /\ c1 = c) as (-> & ->) by (split; congruence). rewrite S1 in Sc. congruence. }
  subst q1. pose proof (inv_run _ _ _ _ _ V0 Ra) as V. pose proof (rep_run _ _ _ _ _ _ S Ra) as RR. pose proof (steady_run _ _ _ _ _ _ S Ra) as [MG NI PG].
  destruct (text_call_of w c A q HA) as (Et & Er). rewrite Et in Sc. rewrite Er. clear Er Et.
  rewrite HP in RR. apply Forall_app in RR. destruct RR as (_ & RR). inversion RR as [|? ? R1 _]; subst. specialize (R1 HT). cbv zeta in R1. fold old in R1.
  rewrite HP, map_app in V. cbn [map] in V. unfold made at 2 in V.
  destruct (text_place _ _ _ _ _ _ _ _ _ _ _ _ V Sc) as (g1 & n & cs' & EC & Eu & Ef & EA). clear V.
  set (cs := held (fold_left (cstep w) (snd p) None)) in *. clearbody cs.
  destruct (append_moves _ _ _ _ _ _ _ EA) as (before & cur & fc & cur' & cw & ch & EB & En & ECC & Ex & Ey). clear EA.
  set (new := text_of (g_cur q) n (a_cell A) (a_rect A) (a_align A) (a_border A) (floats c)) in *.
  assert (MG1 : maps_good (g_fonts g1)).
  { destruct (chars_small _ _ _ _ _ EC) as (_ & C & _). eapply (maps_next q (Text (a_text A)) None); [exact C|exact MG]. }
  assert (G : good_map (gf_ttf fc) (gf_map fc)). { unfold maps_good in MG1. rewrite Forall_forall in MG1. apply (MG1 fc). exact (nth_error_In _ _ En). }
  destruct (chars_like _ _ _ _ _ _ _ EC En) as (f0 & Ef0 & L). destruct (create_ok _ _ _ _ _ ECC) as (sum & cw' & ch' & C1 & C2 & C3).
  assert (CW : (cw', ch') = (cw, ch)).
  { unfold create_content in ECC. rewrite C1 in ECC. destruct (x_rect cur) as [(rw, rh)|]; congruence. }
  injection CW as -> ->.
  destruct (chars_small _ _ _ _ _ EC) as (_ & (n0 & f & Eu0 & Ef1 & _) & _). assert (n0 = n) by congruence. subst n0. exists n, f. split; [exact Eu|]. split; [exact Ef1|].
  assert (NEW : (before, cur) = (cs, new) -> (a_rect A = None -> measurable f (a_text A)) -> let (w0, h) := extent f (u_size (g_cur q)) (a_rect A) (a_text A) in
       u_x (g_cur q') = (if (floats c =? 0) || Z.testbit (floats c) 1 || negb (a_cell A) then fadd (u_x (g_cur q)) w0 else u_x (g_cur q)) /\
       u_y (g_cur q') = (if down c then fadd (u_y (g_cur q)) h else u_y (g_cur q))).
  { intros Eq HM. assert (cur = new) by congruence. subst cur. unfold new in *. cbn [text_of x_float x_cell x_rect x_size x_text x_font x_x x_y app] in *.
    assert (f0 = f) by congruence. subst f0. unfold extent. destruct (a_rect A) as [(rw, rh)|].
    - assert (cw = rw /\ ch = rh) as (-> & ->) by (split; congruence). split; [exact Ex|exact Ey].
    - destruct L as (L1 & L2). assert (sum = advances f None (runes (a_text A))) as <- by (destruct (HM eq_refl) as (M1 & M2); eapply width_is; eauto; split; eauto).
      rewrite <- L1. assert (cw = scale_width sum (u_size (g_cur q)) /\ ch = fsub (typo_asc (gf_ttf fc) (u_size (g_cur q))) (typo_desc (gf_ttf fc) (u_size (g_cur q)))) as (-> & ->) by (split; congruence).
      split; [exact Ex|exact Ey]. }
  clear C3. destruct (last_cases _ old) as [EO|(ps0 & pc & EO)]; rewrite EO in R1 |- *.
  - inversion R1; subst cs. cbn [rev] in EB. split; [intros _ HM; apply NEW; [congruence|exact HM]|]. intros l (r & X & _). destruct r; discriminate.
  - apply forall2_snoc in R1. destruct R1 as (cs0 & k & Ecs & HF & Rk). rewrite Ecs, rev_app_distr in EB. cbn [rev app] in EB. destruct pc as [ws|l0].
    + split; [intros _ HM; apply NEW; [|exact HM]|]; [|intros l (r & X & _); apply app_inj_tail in X; destruct X; discriminate].
      rewrite Ecs. destruct k; try congruence. destruct Rk as (Rk & _). destruct (Rk c0 eq_refl).
    + destruct Rk as (ot & ff & ffc & sum0 & f1 & -> & RT & N0 & T0). pose proof (same_goes _ _ _ _ _ _ q n (a_cell A) (a_rect A) (a_align A) (a_border A) (floats c) RT) as SG. fold new in SG. rewrite SG in EB.
      split.
      * intros NJ HM. apply NEW; [|exact HM]. destruct (goes_on l0 q) eqn:Eg; [destruct (NJ l0); exists ps0; auto|]. rewrite Ecs. congruence.
      * intros l (r & X & Hg) Hc. apply app_inj_tail in X. destruct X as (_ & X). injection X as <-. rewrite Hg in EB. assert (cur = ot) by congruence. subst cur.
        destruct RT. exists (x_font ot), f0. split; [exact tr_font|]. split; [exact Ef0|]. intros (M1 & M2).
        rewrite tr_cell, Hc, orb_true_r in Ex. rewrite Ex. unfold new. cbn [text_of x_x]. f_equal. cbn [extent fst]. rewrite tr_text in C1.
        assert (sum = advances f0 None (runes (l_text l0 ++ a_text A))) as <- by (eapply width_is; eauto). rewrite <- tr_size.
        assert (Rn : x_rect ot = None). { rewrite tr_rect. unfold goes_on in Hg. destruct (a_rect (l_args l0)); [discriminate|reflexivity]. }
        rewrite Rn in C2. congruence.
Qed.
