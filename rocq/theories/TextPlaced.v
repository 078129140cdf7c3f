(** The statements of Prop_Place.v. *)
From Coq Require Import String List ZArith Lia Bool Reals Lra.
From Coq.Floats Require Import SpecFloat.
From Flocq Require Import Core.Core IEEE754.BinarySingleNaN.
From Verif Require Import Base BaseProofs Utf8 PdfSyntax PdfSyntaxProofs Float64 Ttf TtfSpec TtfProofs TtfTables Subset CharMap TestFont Text TextSpec TextPlaceSpec FloatReal
  TextNumbers TextDraw TextFinal TextCases TextCases2 TextPlace TextPlace2 ImgDraw.
Open Scope R_scope.
Open Scope list_scope.

(** What is assumed of a font and a text: the lines the font names, numbers of
    at most a million points, and a rise function that gives numbers. *)
Record set_in (d : bytes) (f : sfont) (c : ctext) (u a b up uh : Z) : Prop := {
  si_ready : font_ready d f (ct_text c); si_units : units_per_em d u; si_lines : typo_lines d a b;
  si_under : underline_at d up uh; si_thick : (0 <= uh)%Z; si_cell : cell_ok c;
  si_wide : forall w, measure f (ct_size c) (ct_text c) = Ok w -> on_paper w; si_rise : rise_fin f (ct_size c) (ct_text c) }.

Section Cell.
  Variables (d : bytes) (f : sfont) (c : ctext) (u a b up uh : Z).
  Hypothesis S : set_in d f c u a b up uh.
  Notation t := (sf_ttf f).

  Lemma set_bytes : Forall bytep d /\ parseTtf d = Ok t.
  Proof. destruct (si_ready _ _ _ _ _ _ _ _ S) as (Hb & _ & P & _). auto. Qed.
  Lemma set_units : unitsPerEm t = u /\ (1 <= u <= 65535)%Z.
  Proof.
    destruct set_bytes as (Hb & P). pose proof (si_units _ _ _ _ _ _ _ _ S) as U. pose proof (units_ok _ _ _ Hb (parse_ok _ _ Hb P) U) as E. split; [exact E|].
    destruct (ready_glyphs _ _ _ (si_ready _ _ _ _ _ _ _ _ S)) as (Hu & _). destruct U as (h & hl & _ & U). apply u16_range in U; [|exact Hb]. lia.
  Qed.
  Lemma set_lines : typoAscender t = a /\ typoDescender t = b /\ (-32768 <= a <= 32767)%Z /\ (-32768 <= b <= 32767)%Z.
  Proof.
    destruct set_bytes as (Hb & P). pose proof (si_lines _ _ _ _ _ _ _ _ S) as L. destruct (lines_ok _ _ _ _ Hb P L) as (Ea & Eb).
    destruct L as (o & l & _ & Xa & Xb). repeat split; try assumption; first [apply (s16_range _ _ _ Hb Xa)|apply (s16_range _ _ _ Hb Xb)].
  Qed.
  Lemma set_under : underlinePosition t = up /\ underlineThickness t = uh /\ (-32768 <= up <= 32767)%Z /\ (0 <= uh <= 32767)%Z.
  Proof.
    destruct set_bytes as (Hb & P). pose proof (si_under _ _ _ _ _ _ _ _ S) as L. destruct (post_ok _ _ _ _ Hb P L) as (Ea & Eb).
    destruct L as (o & l & _ & Xa & Xb). apply (s16_range _ _ _ Hb) in Xa. apply (s16_range _ _ _ Hb) in Xb. pose proof (si_thick _ _ _ _ _ _ _ _ S). repeat split; try assumption; lia.
  Qed.
  Lemma set_drawable : drawable f c.
  Proof.
    destruct S as [R U L Un Th C W Ri]. destruct set_units as (E & Hu). destruct set_lines as (Ea & Eb & Ha & Hb). destruct set_under as (Ec & Ed & Hc & Hd).
    apply (cell_drawable d); rewrite ?Ea, ?Eb, ?Ec, ?Ed, ?E; assumption.
  Qed.

  Lemma text_placed : forall index s, g_text s = false ->
    exists o s2 ms tail w gs, text_stream f index c = Ok o /\ draws o s s2 (ms ++ tail) /\ Forall no_glyph tail /\
      measure f (ct_size c) (ct_text c) = Ok w /\ codes_of ms = gs /\ Forall2 (char_glyph d) (runes (ct_text c)) gs /\
      Forall (fun m => match m with
                       | Glyph _ font size _ _ (x, y) => font = B"F" ++ itoa index /\ size = (100 * ct_size c)%Z /\
                           across (ct_align c) (val (ct_x c)) (val (ct_w c)) (val w) x /\
                           along (ct_align c) (val (ct_height c) - val (ct_y c)) (val (ct_h c)) (units a u (ct_size c)) (units b u (ct_size c)) y
                       | Adjust _ => True
                       | _ => False
                       end) ms.
  Proof.
    intros index s T. destruct set_units as (E & Hu). destruct set_lines as (Ea & Eb & Ha & Hb).
    destruct (text_codes d f index c s (si_ready _ _ _ _ _ _ _ _ S) set_drawable T) as (o & s2 & ms & tail & w & gs & E1 & E2 & E3 & E4 & E5 & E6 & E7 & E8).
    exists o, s2, ms, tail, w, gs. repeat (split; [assumption|]). pose proof (si_cell _ _ _ _ _ _ _ _ S) as C.
    pose proof (cal_x_appr c w C (si_wide _ _ _ _ _ _ _ _ S w E5)) as Ax. pose proof (cal_y_appr t c C) as Ay. rewrite E, Ea, Eb in Ay. specialize (Ay Hu Ha Hb). cbv zeta in Ay.
    eapply Forall_impl; [|exact E8]. cbn beta. intros m H. destruct m as [g font size rise fill start|n|q wd ds|q fl|nm cm]; try assumption. destruct start as [x y]. cbn [fst snd] in H.
    destruct H as (H1 & H2 & H3 & H4). split; [exact H1|]. split; [exact H2|]. unfold across, along. split.
    - destruct (Z.testbit (ct_align c) 1); [|destruct (Z.testbit (ct_align c) 4)]; eapply cents_near; eassumption.
    - destruct (Z.testbit (ct_align c) 0); [|destruct (Z.testbit (ct_align c) 5)]; eapply cents_near; eassumption.
  Qed.

  Lemma decoration_placed : forall index s, g_text s = false ->
    let top := val (ct_height c) - val (ct_y c) in let x := val (ct_x c) in let w := val (ct_w c) in
    exists o s2 ms ul br, text_stream f index c = Ok o /\ draws o s s2 (ms ++ ul ++ br) /\
      Forall (fun m => match m with Glyph _ _ _ _ _ _ | Adjust _ => True | _ => False end) ms /\
      (if Z.testbit (ct_style c) 2
       then exists x0 y0 w0 h0 fill, ul = [Filled [(x0, y0); (x0 + w0, y0); (x0 + w0, y0 - h0); (x0, y0 - h0)]%Z fill] /\
              cents_of x0 x /\ cents_of y0 (top + units up u (ct_size c) - IZR (ct_size c) * 7 / 10) /\ cents_of w0 w /\ cents_of h0 (units uh u (ct_size c))
       else ul = []) /\
      (if fgt (ct_line c) (fofz 0)
       then exists x0 x1 x2 x3 y0 y1, br = map (fun p => Stroke p (g_line s) (g_dash s)) [[(x0, y0); (x3, y0)]; [(x1, y0); (x1, y1)]; [(x2, y0); (x2, y1)]; [(x0, y1); (x3, y1)]] /\
              cents_of x0 (x - val (ct_line c) / 2) /\ cents_of x1 x /\ cents_of x2 (x + w) /\ cents_of x3 (x + w + val (ct_line c) / 2) /\
              cents_of y0 top /\ cents_of y1 (top - val (ct_h c))
       else br = []).
  Proof.
    intros index s T top x w. destruct set_units as (E & Hu). destruct set_under as (Ec & Ed & Hc & Hd). pose proof (si_cell _ _ _ _ _ _ _ _ S) as C.
    destruct (text_decoration d f index c s (si_ready _ _ _ _ _ _ _ _ S) set_drawable T) as (o & s2 & ms & ul & br & E1 & E2 & E3 & E4 & E5).
    assert (K1 : appr (ct_x c) x (1 / 1000)) by (eapply appr_weaken; [apply (paper_appr _ (co_x c C))|lra]).
    exists o, s2, ms, ul, br. split; [exact E1|]. split; [exact E2|]. split; [exact E3|]. split.
    - destruct (Z.testbit (ct_style c) 2); [|exact E4]. destruct E4 as (x0 & y0 & w0 & h0 & fill & Eu & N1 & N2 & N3 & N4). exists x0, y0, w0, h0, fill. split; [exact Eu|].
      split; [eapply cents_near; eassumption|]. split.
      + eapply cents_near; [|exact N2]. rewrite <- Ec, <- E. apply ul_y_appr; [exact C|lia|lia].
      + split; [eapply cents_near; [|exact N3]; apply ul_w_appr; exact C|]. eapply cents_near; [|exact N4]. rewrite <- Ed, <- E. apply ul_h_appr; [exact C|lia|lia].
    - destruct (fgt (ct_line c) (fofz 0)); [|exact E5]. destruct E5 as (x0 & x1 & x2 & x3 & y0 & y1 & Eb & N0 & N1 & N2 & N3 & M0 & M1).
      destruct (border_appr c C) as (B1 & B2 & B3). exists x0, x1, x2, x3, y0, y1. split; [exact Eb|].
      split; [eapply cents_near; eassumption|]. split; [eapply cents_near; eassumption|].
      split; [eapply cents_near; [eapply appr_weaken; [apply right_appr; exact C|lra]|exact N2]|]. split; [eapply cents_near; eassumption|].
      split; [eapply cents_near; [eapply appr_weaken; [apply top_appr; exact C|lra]|exact M0]|]. eapply cents_near; eassumption.
  Qed.
End Cell.

(** ** Images *)
Lemma img_placed : forall w h x y height ch idx s, on_paper w -> on_paper h -> on_paper x -> on_paper y -> on_paper height -> reg_word ch -> g_cm s = None ->
  exists a b e f, draws (img_stream w h x y height ch idx) s s [Image (ch ++ itoa idx) (Some (a, 0%Z, 0%Z, b, e, f))] /\
    cents_of a (val w) /\ cents_of b (val h) /\ cents_of e (val x) /\ cents_of f (val height - val y - val h).
Proof.
  intros w h x y height ch idx s Pw Ph Px Py Pt Rc Cm. destruct (paper_appr _ Pw) as (Aw & Mw). destruct (paper_appr _ Ph) as (Ah & Mh). destruct (paper_appr _ Px) as (Ax & Mx).
  destruct (paper_appr _ Py) as (Ay & My). destruct (paper_appr _ Pt) as (At & Mt).
  assert (Av : appr (fsub height (fadd y h)) (val height - (val y + val h)) (1 / 1000)).
  { eapply appr_weaken; [apply near_sub; [exact At|apply near_add; [exact Ay|exact Ah|lra..]|lra|mag|lra..]|lra]. }
  exists (cents w), (cents h), (cents x), (cents (fsub height (fadd y h))). split.
  - apply img_draws; [|exact Rc|exact Cm]. repeat (apply Forall_cons; [eapply appr_finite; eassumption|]). apply Forall_nil.
  - assert (Q : forall z, appr z (val z) 0 -> cents_of (cents z) (val z)).
    { intros z A. eapply cents_near; [eapply appr_weaken; [exact A|lra]|apply cents_num; eapply appr_finite; exact A]. }
    split; [apply Q; exact Aw|]. split; [apply Q; exact Ah|]. split; [apply Q; exact Ax|].
    replace (val height - val y - val h) with (val height - (val y + val h)) by ring. eapply cents_near; [exact Av|apply cents_num; eapply appr_finite; exact Av].
Qed.
