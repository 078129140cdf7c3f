(** Places of underline, border and image; lines of a font. *)
From Coq Require Import String List ZArith Lia Bool Reals Lra.
From Coq.Floats Require Import SpecFloat.
From Flocq Require Import Core.Core IEEE754.BinarySingleNaN.
From Verif Require Import Base BaseProofs PdfSyntax PdfSyntaxProofs Float64 Ttf TtfSpec TtfProofs TtfTables Subset Text TextSpec TextPlaceSpec FloatReal TextNumbers TextDraw TextFinal TextCases TextCases2 TextPlace.
Open Scope R_scope.

(** ** The lines of the font *)
Lemma parse_lines : forall d t, Forall bytep d -> parseTtf d = Ok t ->
  (exists r, parseOS2 d (tables t) (ascender t) = Ok r /\ typoAscender t = snd (fst (fst (fst (fst (fst r))))) /\ typoDescender t = snd (fst (fst (fst (fst r))))) /\
  parsePost d (tables t) = Ok (italicAngle t, underlinePosition t, underlineThickness t).
Proof.
  intros d t Hb H. unfold parseTtf in H.
  apply bind_ok in H as ([version p1] & E1 & H). destruct (negb (beqb version [0; 1; 0; 0]%Z)); [discriminate|].
  apply bind_ok in H as ([n p2] & E2 & H).
  apply bind_ok in H as ([tb p3] & E3 & H).
  apply bind_ok in H as ([[u [[[x0 y0] x1] y1]] loc] & E4 & H).
  apply bind_ok in H as ([[asc desc] nm] & E5 & H).
  apply bind_ok in H as ([ng p6] & E6 & H).
  apply bind_ok in H as ([w p7] & E7 & H).
  apply bind_ok in H as ([[sc [[[[st en] de] ro] gi]] gs] & E8 & H).
  apply bind_ok in H as ([] & E9 & H).
  apply bind_ok in H as ([[[[[[ver ta] td] wa] wd] sx] ch] & E10 & H).
  apply bind_ok in H as ([[ia up] ut] & E11 & H).
  apply bind_ok in H as ([short l] & E12 & H).
  injection H as <-. cbn. split; [|exact E11]. eexists. split; [exact E10|]. split; reflexivity.
Qed.

Lemma s16_range : forall d p v, Forall bytep d -> s16 d p = Some v -> (-32768 <= v <= 32767)%Z.
Proof.
  intros d p v Hb H. unfold s16 in H. destruct (u16 d p) as [u|] eqn:E; [|discriminate]. apply u16_range in E; [|exact Hb]. inversion H. destruct (Z.leb_spec 32768 u); lia.
Qed.

Lemma lines_ok : forall d t a b, Forall bytep d -> parseTtf d = Ok t -> typo_lines d a b -> typoAscender t = a /\ typoDescender t = b.
Proof.
  intros d t a b Hb P (o & l & Ht & Ea & Eb). pose proof (parse_ok _ _ Hb P) as PD. destruct (parse_lines _ _ Hb P) as ((r & H & E1 & E2) & _). unfold parseOS2 in H.
  apply bind_ok in H as (p & E0 & H). apply (seekTag_ok _ _ _ _ _ _ (p_dir _ _ PD) Ht) in E0. subst p. pose proof (has_table_range _ _ _ _ Hb Ht).
  rd H ver p1 F1. rd H fst_ p2 F2. rd H sel p3 F3. rd H ta p4 F4. rd H td p5 F5. rd H gap p6 F6. rd H wa p7 F7. rd H wd p8 F8.
  replace (o + 2 + 6 + 2 + 52 + 2 + 4)%Z with (o + 68)%Z in F4 by lia. replace (o + 2 + 6 + 2 + 52 + 2 + 4 + 2)%Z with (o + 70)%Z in F5 by lia.
  assert (ta = a) by congruence. assert (td = b) by congruence.
  destruct (2 <=? ver)%Z.
  - apply bind_ok in H as ([sx q] & _ & H). apply bind_ok in H as ([ch q'] & _ & H). inversion H; subst. rewrite E1, E2. split; reflexivity.
  - inversion H; subst. rewrite E1, E2. split; reflexivity.
Qed.
Lemma post_ok : forall d t p h, Forall bytep d -> parseTtf d = Ok t -> underline_at d p h -> underlinePosition t = p /\ underlineThickness t = h.
Proof.
  intros d t p h Hb P (o & l & Ht & Ea & Eb). pose proof (parse_ok _ _ Hb P) as PD. destruct (parse_lines _ _ Hb P) as (_ & H). unfold parsePost in H.
  apply bind_ok in H as (q & E0 & H). apply (seekTag_ok _ _ _ _ _ _ (p_dir _ _ PD) Ht) in E0. subst q. pose proof (has_table_range _ _ _ _ Hb Ht).
  rd H ia p1 F1. rd H upos p2 F2. rd H ut p3 F3. rd H fp p4 F4.
  replace (o + 4 + 2 + 2)%Z with (o + 8)%Z in F2 by lia. replace (o + 4 + 2 + 2 + 2)%Z with (o + 10)%Z in F3 by lia. inversion H; subst. split; congruence.
Qed.

(** ** Underline and border *)
Lemma seven_tenths : appr (fconst 7 10) (7 / 10) (/ 8796093022208).
Proof.
  unfold fconst. eapply appr_weaken; [apply (appr_div _ _ _ 10 10 (appr_fofz 7 ltac:(lia))); [lia|lia|]|].
  - rewrite P10, Rabs_pos_eq; lra.
  - rewrite N43. lra.
Qed.

(** v / u * size, as the underline takes it *)
Lemma unit_appr : forall v u size, (-32768 <= v <= 32768)%Z -> (1 <= u <= 65535)%Z -> (0 <= size <= 10000)%Z ->
  appr (fmul (fdiv (fofz v) (fofz u)) (fofz size)) (units v u size) (3 / 10000) /\ Rabs (units v u size) <= 330000000.
Proof.
  intros v u size Hv Hu Hs. assert (Av : Rabs (IZR v) <= 32768) by (apply (abs_le_z v 32768); lia).
  assert (As : Rabs (IZR size) <= 10000) by (apply (abs_le_z size 10000); lia).
  assert (M2 : Rabs (IZR v / IZR u) <= 32768) by (apply div_le; [exact Av|lia]).
  assert (A2 : appr (fdiv (fofz v) (fofz u)) (IZR v / IZR u) (/ 268435456)).
  { eapply appr_weaken; [apply (appr_div _ _ _ u 25 (appr_fofz v ltac:(lia))); [lia|lia|]|].
    - rewrite P25. lra.
    - rewrite N28. lra. }
  assert (M3 : Rabs (units v u size) <= 330000000).
  { unfold units. apply div_le; [|lia]. rewrite Rabs_mult. apply Rle_trans with (32768 * 10000); [|lra]. apply Rmult_le_compat; try apply Rabs_pos; assumption. }
  split; [|exact M3]. assert (N0 : IZR u <> 0) by (apply not_0_IZR; lia).
  replace (units v u size) with (IZR v / IZR u * IZR size) in * by (unfold units; field; exact N0).
  eapply appr_weaken; [apply (appr_mul _ _ _ _ _ 0 30 A2); [apply appr_fofz; lia|lia|]|].
  - rewrite P30. lra.
  - rewrite N23. lra.
Qed.

Lemma ul_y_appr : forall t c, cell_ok c -> (1 <= unitsPerEm t <= 65535)%Z -> (-32768 <= underlinePosition t <= 32767)%Z ->
  appr (ul_y t c) (val (ct_height c) - val (ct_y c) + units (underlinePosition t) (unitsPerEm t) (ct_size c) - IZR (ct_size c) * 7 / 10) (1 / 1000).
Proof.
  intros t c C Hu Hp. destruct (paper_appr _ (co_y c C)) as (Ay & My). destruct (paper_appr _ (co_height c C)) as (At & Mt). pose proof (co_size c C) as Hs.
  destruct (unit_appr (underlinePosition t) (unitsPerEm t) (ct_size c)) as (A & M); [lia|lia|lia|].
  assert (As : Rabs (IZR (ct_size c)) <= 10000) by (apply (abs_le_z (ct_size c) 10000); lia).
  assert (A7 : appr (fmul (fofz (ct_size c)) (fconst 7 10)) (IZR (ct_size c) * (7 / 10)) (1 / 10000)).
  { eapply appr_weaken; [apply (appr_mul _ _ _ _ 0 _ 30 (appr_fofz (ct_size c) ltac:(lia)) seven_tenths); [lia|]|].
    - rewrite Rabs_mult, (Rabs_pos_eq (7 / 10)), P30 by lra. lra.
    - rewrite N23, (Rabs_pos_eq (7 / 10)) by lra. lra. }
  set (z := units (underlinePosition t) (unitsPerEm t) (ct_size c)) in *.
  assert (M7 : Rabs (IZR (ct_size c) * (7 / 10)) <= 10000) by (rewrite Rabs_mult, (Rabs_pos_eq (7 / 10)) by lra; lra).
  replace (val (ct_height c) - val (ct_y c) + z - IZR (ct_size c) * 7 / 10) with (val (ct_height c) - (val (ct_y c) - z) - IZR (ct_size c) * (7 / 10)) by field.
  unfold ul_y. cbv zeta. clearbody z.
  eapply appr_weaken; [apply near_sub; [apply near_sub; [exact At|apply near_sub; [exact Ay|exact A|lra..]|lra|mag|lra|lra]|exact A7|mag|lra..]|lra].
Qed.
Lemma ul_h_appr : forall t c, cell_ok c -> (1 <= unitsPerEm t <= 65535)%Z -> (-32768 <= underlineThickness t <= 32767)%Z ->
  appr (ul_h t c) (units (underlineThickness t) (unitsPerEm t) (ct_size c)) (1 / 1000).
Proof.
  intros t c C Hu Hp. pose proof (co_size c C) as Hs. destruct (unit_appr (underlineThickness t) (unitsPerEm t) (ct_size c)) as (A & M); [lia|lia|lia|].
  eapply appr_weaken; [exact A|lra].
Qed.
Lemma right_appr : forall c, cell_ok c -> appr (fadd (ct_x c) (ct_w c)) (val (ct_x c) + val (ct_w c)) (/ 8388608).
Proof.
  intros c C. destruct (paper_appr _ (co_x c C)) as (Ax & Mx). destruct (paper_appr _ (co_w c C)) as (Aw & Mw).
  eapply appr_weaken; [apply near_add; [exact Ax|exact Aw|lra..]|lra].
Qed.
Lemma top_appr : forall c, cell_ok c -> appr (fsub (ct_height c) (ct_y c)) (val (ct_height c) - val (ct_y c)) (/ 8388608).
Proof.
  intros c C. destruct (paper_appr _ (co_y c C)) as (Ax & Mx). destruct (paper_appr _ (co_height c C)) as (Aw & Mw).
  eapply appr_weaken; [apply near_sub; [exact Aw|exact Ax|lra..]|lra].
Qed.
Lemma off_appr : forall c, cell_ok c -> appr (fmul (ct_line c) half) (val (ct_line c) / 2) (/ 8388608).
Proof.
  intros c C. destruct (paper_appr _ (co_line c C)) as (Ax & Mx). eapply appr_weaken; [apply near_half; [exact Ax|lra..]|lra].
Qed.
Lemma mags : forall c, cell_ok c -> Rabs (val (ct_x c)) <= 1000000 /\ Rabs (val (ct_y c)) <= 1000000 /\ Rabs (val (ct_w c)) <= 1000000 /\
  Rabs (val (ct_h c)) <= 1000000 /\ Rabs (val (ct_line c)) <= 1000000 /\ Rabs (val (ct_height c)) <= 1000000.
Proof. intros c [X Y W H L T]. split; [apply X|]. split; [apply Y|]. split; [apply W|]. split; [apply H|]. split; [apply L|apply T]. Qed.
Lemma ul_w_appr : forall c, cell_ok c -> appr (fsub (fadd (ct_x c) (ct_w c)) (ct_x c)) (val (ct_w c)) (1 / 1000).
Proof.
  intros c C. destruct (mags c C) as (Mx & _ & Mw & _). destruct (paper_appr _ (co_x c C)) as (Ax & _).
  replace (val (ct_w c)) with (val (ct_x c) + val (ct_w c) - val (ct_x c)) by ring.
  eapply appr_weaken; [apply near_sub; [apply right_appr; exact C|exact Ax|mag|lra..]|lra].
Qed.
Lemma border_appr : forall c, cell_ok c ->
  appr (fsub (ct_x c) (fmul (ct_line c) half)) (val (ct_x c) - val (ct_line c) / 2) (1 / 1000) /\
  appr (fadd (fadd (ct_x c) (ct_w c)) (fmul (ct_line c) half)) (val (ct_x c) + val (ct_w c) + val (ct_line c) / 2) (1 / 1000) /\
  appr (fsub (fsub (ct_height c) (ct_y c)) (ct_h c)) (val (ct_height c) - val (ct_y c) - val (ct_h c)) (1 / 1000).
Proof.
  intros c C. destruct (mags c C) as (Mx & My & Mw & Mh & Ml & Mt). destruct (paper_appr _ (co_x c C)) as (Ax & _). destruct (paper_appr _ (co_h c C)) as (Ah & _).
  split; [|split].
  - eapply appr_weaken; [apply near_sub; [exact Ax|apply off_appr; exact C|lra|mag|lra..]|lra].
  - eapply appr_weaken; [apply near_add; [apply right_appr; exact C|apply off_appr; exact C|mag|mag|lra..]|lra].
  - eapply appr_weaken; [apply near_sub; [apply top_appr; exact C|exact Ah|mag|lra|lra..]|lra].
Qed.

(** ** Everything that is written is a number *)
Lemma cell_drawable : forall d f c, font_ready d f (ct_text c) -> cell_ok c -> (forall w, measure f (ct_size c) (ct_text c) = Ok w -> on_paper w) ->
  rise_fin f (ct_size c) (ct_text c) -> (-32768 <= typoAscender (sf_ttf f) <= 32767)%Z -> (-32768 <= typoDescender (sf_ttf f) <= 32767)%Z ->
  (-32768 <= underlinePosition (sf_ttf f) <= 32767)%Z -> (0 <= underlineThickness (sf_ttf f) <= 32767)%Z -> (1 <= unitsPerEm (sf_ttf f) <= 65535)%Z -> drawable f c.
Proof.
  intros d f c R C W Ri Ta Td Up Ut Hu. destruct (border_appr c C) as (B1 & B2 & B3). split; [|split; [|split; [exact Ri|split]]].
  - intros w Hw. eapply appr_finite, cal_x_appr; [exact C|apply W; exact Hw].
  - eapply appr_finite, cal_y_appr; assumption.
  - intros _. split; [|split; [lia|apply (co_size c C)]]. repeat apply Forall_cons; [| | | |apply Forall_nil].
    + eapply appr_finite, (paper_appr _ (co_x c C)).
    + eapply appr_finite, ul_y_appr; assumption.
    + eapply appr_finite, ul_w_appr; assumption.
    + eapply appr_finite, ul_h_appr; [assumption|assumption|lia].
  - intros _. pose proof (appr_finite _ _ _ B1) as F1. pose proof (appr_finite _ _ _ B2) as F2. pose proof (appr_finite _ _ _ B3) as F3.
    pose proof (appr_finite _ _ _ (top_appr c C)) as F4. pose proof (appr_finite _ _ _ (right_appr c C)) as F5. pose proof (appr_finite _ _ _ (proj1 (paper_appr _ (co_x c C)))) as F6.
    unfold border_lines. cbv zeta. repeat (apply Forall_cons; [cbn [four]; repeat (apply Forall_cons; [assumption|]); apply Forall_nil|]). apply Forall_nil.
Qed.
