(** The values the font maker takes from a font. *)
From Coq Require Import String List ZArith Lia Bool.
From Coq.Floats Require Import SpecFloat.
From Verif Require Import Base BaseProofs Float64 Ttf TtfSpec TtfProofs TtfTables Subset FontMaker FontMakerSpec FontMakerMap FontMakerChars RoundReal.
Open Scope Z_scope.
Open Scope list_scope.

Record more (d : bytes) (t : ttf) : Prop := {
  m_os2 : exists ver wa wd sx, parseOS2 d (tables t) (ascender t) = Ok (ver, typoAscender t, typoDescender t, wa, wd, sx, capHeight t);
  m_post : parsePost d (tables t) = Ok (italicAngle t, underlinePosition t, underlineThickness t) }.
Lemma parse_more : forall d t, parseTtf d = Ok t -> more d t.
Proof.
  intros d t H. unfold parseTtf in H.
  apply bind_ok in H as ([version p1] & E1 & H). destruct (negb (beqb version [0; 1; 0; 0])); [discriminate|].
  apply bind_ok in H as ([n p2] & E2 & H). apply bind_ok in H as ([tb p3] & E3 & H).
  apply bind_ok in H as ([[u [[[x0 y0] x1] y1]] loc] & E4 & H). apply bind_ok in H as ([[asc desc] nm] & E5 & H).
  apply bind_ok in H as ([ng p6] & E6 & H). apply bind_ok in H as ([w p7] & E7 & H).
  apply bind_ok in H as ([[sc [[[[st en] de] ro] gi]] gs] & E8 & H). apply bind_ok in H as ([] & E9 & H).
  apply bind_ok in H as ([[[[[[ver ta] td] wa] wd] sx] ch] & E10 & H). apply bind_ok in H as ([[ia up] ut] & E11 & H).
  apply bind_ok in H as ([short l] & E12 & H). injection H as <-. constructor; cbn; eauto.
Qed.

Section font.
Variables (d : bytes) (t : ttf).
Hypothesis (Hb : Forall bytep d) (P : parsed d t) (M : more d t).

Lemma os2_at : forall o l, has_table d (B"OS/2") o l -> s16 d (o + 68) = Some (typoAscender t) /\ s16 d (o + 70) = Some (typoDescender t) /\
  exists ver, u16 d o = Some ver /\ (2 <= ver /\ s16 d (o + 88) = Some (capHeight t) \/ ver < 2 /\ capHeight t = ascender t).
Proof.
  intros o l Ht. destruct (m_os2 _ _ M) as (ver & wa & wd & sx & H). unfold parseOS2 in H.
  apply bind_ok in H as (p & E0 & H). apply (seekTag_ok _ _ _ _ _ _ (p_dir _ _ P) Ht) in E0. subst p. pose proof (has_table_range _ _ _ _ Hb Ht).
  rd H v p1 E1. rd H ft p2 E2. rd H fs p3 E3. rd H ta p4 E4. rd H td p5 E5. rd H gap p6 E6. rd H wa' p7 E7. rd H wd' p8 E8.
  destruct (Z.leb_spec 2 v).
  - rd H sx' p9 E9. rd H ch p10 E10.
    assert (X : (v, ta, td, wa', wd', sx', ch) = (ver, typoAscender t, typoDescender t, wa, wd, sx, capHeight t)) by congruence. injection X as -> -> -> -> -> -> ->.
    split; [rewrite <- E4; f_equal; lia|]. split; [rewrite <- E5; f_equal; lia|]. exists ver. split; [exact E1|]. left. split; [assumption|]. rewrite <- E10. f_equal. lia.
  - assert (X : (v, ta, td, wa', wd', 0, ascender t) = (ver, typoAscender t, typoDescender t, wa, wd, sx, capHeight t)) by congruence. injection X as -> -> -> -> -> _ Xc.
    split; [rewrite <- E4; f_equal; lia|]. split; [rewrite <- E5; f_equal; lia|]. exists ver. split; [exact E1|]. right. split; [assumption|]. symmetry. exact Xc.
Qed.
Lemma post_at : forall o l, has_table d (B"post") o l -> s16 d (o + 4) = Some (italicAngle t) /\ s16 d (o + 8) = Some (underlinePosition t) /\ s16 d (o + 10) = Some (underlineThickness t).
Proof.
  intros o l Ht. pose proof (m_post _ _ M) as H. unfold parsePost in H.
  apply bind_ok in H as (p & E0 & H). apply (seekTag_ok _ _ _ _ _ _ (p_dir _ _ P) Ht) in E0. subst p. pose proof (has_table_range _ _ _ _ Hb Ht).
  rd H ia p1 E1. rd H up p2 E2. rd H ut p3 E3. rd H fp p4 E4.
  assert (X : (ia, up, ut) = (italicAngle t, underlinePosition t, underlineThickness t)) by congruence. injection X as -> -> ->.
  split; [rewrite <- E1; f_equal; lia|]. split; [rewrite <- E2; f_equal; lia|]. rewrite <- E3. f_equal. lia.
Qed.
Lemma head_at : forall o l, has_table d (B"head") o l -> s16 d (o + 36) = Some (xMin t) /\ s16 d (o + 38) = Some (yMin t) /\ s16 d (o + 40) = Some (xMax t) /\ s16 d (o + 42) = Some (yMax t).
Proof.
  intros off len Ht. pose proof (p_head _ _ P) as H. unfold parseHead in H.
  apply bind_ok in H as (p & E0 & H). apply (seekTag_ok _ _ _ _ _ _ (p_dir _ _ P) Ht) in E0. subst p. pose proof (has_table_range _ _ _ _ Hb Ht).
  rd H magic p1 E1. destruct (negb (magic =? 1594834165)); [discriminate|].
  rd H u p2 E2. rd H a0 p3 E3. rd H b0 p4 E4. rd H a1 p5 E5. rd H b1 p6 E6. rd H loc p7 E7.
  assert (X : (a0, b0, a1, b1) = (xMin t, yMin t, xMax t, yMax t)) by congruence. injection X as -> -> -> ->.
  split; [rewrite <- E3; f_equal; lia|]. split; [rewrite <- E4; f_equal; lia|]. split; [rewrite <- E5; f_equal; lia|]. rewrite <- E6. f_equal. lia.
Qed.
Lemma hhea_at : forall o l, has_table d (B"hhea") o l -> s16 d (o + 4) = Some (ascender t).
Proof.
  intros off len Ht. pose proof (p_hhea _ _ P) as H. unfold parseHhea in H.
  apply bind_ok in H as (p & E0 & H). apply (seekTag_ok _ _ _ _ _ _ (p_dir _ _ P) Ht) in E0. subst p. pose proof (has_table_range _ _ _ _ Hb Ht).
  rd H a p1 E1. rd H b p2 E2. rd H n p3 E3. assert (X : (a, b, n) = (ascender t, descender t, numberOfHMetrics t)) by congruence. injection X as -> -> ->. exact E1.
Qed.
Lemma s16_small : forall p v, s16 d p = Some v -> Z.abs v <= 65535.
Proof. intros p v H. unfold s16 in H. destruct (u16 d p) as [x|] eqn:E; [|discriminate]. apply u16_range in E; [|exact Hb]. destruct (Z.leb_spec 32768 x); injection H as <-; lia. Qed.

(** Numbers in thousandths *)
Hypothesis (U : forall u, units_per_em d u -> 0 < u) (Eu : exists u, units_per_em d u).
Lemma scaled_ok : forall v, Z.abs v <= 65535 -> scaled d v (mul_round (em_scale t) v).
Proof.
  intros v Hv. destruct Eu as (u & Hu). pose proof (U u Hu) as Pu. pose proof (units_ok d t u Hb P Hu) as E. exists u. split; [exact Hu|].
  assert (R : u <= 65535) by (destruct Hu as (h & hl & _ & X); apply u16_range in X; [lia|exact Hb]). subst u. apply mul_round_near; [lia|exact Hv].
Qed.
Lemma asc_ok : forall v, os2_s16 d 68 v -> scaled d v (mul_round (em_scale t) (typoAscender t)).
Proof. intros v (o & l & Ht & E). destruct (os2_at o l Ht) as (A & _). assert (v = typoAscender t) by congruence. subst v. apply scaled_ok. eapply s16_small; eassumption. Qed.
Lemma desc_ok : forall v, os2_s16 d 70 v -> scaled d v (mul_round (em_scale t) (typoDescender t)).
Proof. intros v (o & l & Ht & E). destruct (os2_at o l Ht) as (_ & A & _). assert (v = typoDescender t) by congruence. subst v. apply scaled_ok. eapply s16_small; eassumption. Qed.
Lemma table_unique_pos : forall tag o l o' l', has_table d tag o l -> has_table d tag o' l' -> o = o'.
Proof.
  intros tag o l o' l' (n & i & N & Hi & T & O1 & _ & Un) (n' & i' & N' & Hi' & T' & O2 & _ & _). assert (n' = n) by congruence. subst n'. assert (i' = i) by (apply Un; assumption). subst i'. congruence.
Qed.
Lemma cap_ok : forall v, cap_height d v -> scaled d v (mul_round (em_scale t) (capHeight t)).
Proof.
  intros v (ver & (o & l & Ht & Ev) & H). destruct (os2_at o l Ht) as (_ & _ & ver' & Ev' & C). replace (o + 0) with o in Ev by lia. assert (ver' = ver) by congruence. subst ver'.
  assert (X : capHeight t = v /\ Z.abs v <= 65535).
  { destruct H as [(Hv & o' & l' & Ht' & E)|(Hv & o' & l' & Ht' & E)].
    - pose proof (table_unique_pos _ _ _ _ _ Ht Ht') as <-. destruct C as [(_ & C)|(C & _)]; [|lia]. split; [congruence|eapply s16_small; eassumption].
    - destruct C as [(C & _)|(_ & C)]; [lia|]. pose proof (hhea_at _ _ Ht'). split; [congruence|eapply s16_small; eassumption]. }
  destruct X as (-> & X). apply scaled_ok. exact X.
Qed.
Lemma up_ok : forall v, post_s16 d 8 v -> scaled d v (mul_round (em_scale t) (underlinePosition t)).
Proof. intros v (o & l & Ht & E). destruct (post_at o l Ht) as (_ & A & _). assert (v = underlinePosition t) by congruence. subst v. apply scaled_ok. eapply s16_small; eassumption. Qed.
Lemma ut_ok : forall v, post_s16 d 10 v -> scaled d v (mul_round (em_scale t) (underlineThickness t)).
Proof. intros v (o & l & Ht & E). destruct (post_at o l Ht) as (_ & _ & A). assert (v = underlineThickness t) by congruence. subst v. apply scaled_ok. eapply s16_small; eassumption. Qed.
Lemma italic_ok : forall v, post_s16 d 4 v -> italicAngle t = v.
Proof. intros v (o & l & Ht & E). destruct (post_at o l Ht) as (A & _). congruence. Qed.
Lemma box_ok : (forall v, head_s16 d 36 v -> scaled d v (mul_round (em_scale t) (xMin t))) /\ (forall v, head_s16 d 38 v -> scaled d v (mul_round (em_scale t) (yMin t))) /\
  (forall v, head_s16 d 40 v -> scaled d v (mul_round (em_scale t) (xMax t))) /\ (forall v, head_s16 d 42 v -> scaled d v (mul_round (em_scale t) (yMax t))).
Proof.
  split; [|split; [|split]]; intros v (o & l & Ht & E); destruct (head_at o l Ht) as (A1 & A2 & A3 & A4).
  - assert (v = xMin t) by congruence. subst v. apply scaled_ok. eapply s16_small; eassumption.
  - assert (v = yMin t) by congruence. subst v. apply scaled_ok. eapply s16_small; eassumption.
  - assert (v = xMax t) by congruence. subst v. apply scaled_ok. eapply s16_small; eassumption.
  - assert (v = yMax t) by congruence. subst v. apply scaled_ok. eapply s16_small; eassumption.
Qed.
Lemma advance_small : forall g a, advance d g a -> Z.abs a <= 65535.
Proof. intros g a (h & hl & x & xl & n & _ & _ & _ & _ & E). apply u16_range in E; [lia|exact Hb]. Qed.
Lemma width_ok : forall g a w, 0 <= g -> advance d g a -> at_ (widths t) g = Ok w -> scaled d a (mul_round (em_scale t) w).
Proof. intros g a w Hg Ha E. rewrite (widths_all d t g w a Hb P Hg Ha E). apply scaled_ok. eapply advance_small; eassumption. Qed.

Lemma bold_ok : forall e bo, readLicense d t = Ok (e, bo) -> forall v, os2_u16 d 62 v -> bo = Z.testbit v 5.
Proof.
  intros e bo H v (o & l & Ht & E). unfold readLicense in H. apply bind_ok in H as (p & E0 & H). apply (seekTag_ok _ _ _ _ _ _ (p_dir _ _ P) Ht) in E0. subst p. pose proof (has_table_range _ _ _ _ Hb Ht).
  rd H ft p1 E1. rd H fs p2 E2. replace (o + 8 + 2 + 52) with (o + 62) in E2 by lia. assert (fs = v) by congruence. subst fs.
  assert (X : bo = negb (Z.land v 32 =? 0)) by congruence. rewrite X. change 32 with (2 ^ 5). destruct (Z.eqb_spec (Z.land v (2 ^ 5)) 0) as [Z0|Z0].
  - symmetry. cbn [negb]. assert (T : Z.testbit (Z.land v (2 ^ 5)) 5 = false) by (rewrite Z0; reflexivity). rewrite Z.land_spec, Z.pow2_bits_true in T by lia. rewrite andb_true_r in T. exact T.
  - cbn [negb]. destruct (Z.testbit v 5) eqn:T; [reflexivity|]. destruct Z0. apply Z.bits_inj'. intros n Hn. rewrite Z.land_spec, Z.bits_0. destruct (Z.eq_dec n 5) as [->|Ne]; [rewrite T; reflexivity|].
    rewrite Z.pow2_bits_false by lia. apply andb_false_r.
Qed.
Lemma fixed_ok : forall fx, readFixed d t = Ok fx -> forall f, post_u32 d 12 f -> fx = negb (f =? 0).
Proof.
  intros fx H f (o & l & Ht & E). unfold readFixed in H. apply bind_ok in H as (p & E0 & H). apply (seekTag_ok _ _ _ _ _ _ (p_dir _ _ P) Ht) in E0. subst p. pose proof (has_table_range _ _ _ _ Hb Ht).
  rd H x p1 E1. congruence.
Qed.
Lemma name_loop : forall n base o k pos s, pos = o + 6 + 12 * k -> 0 <= k -> 0 <= o -> 0 <= base -> nameLoop d base n pos = Ok s ->
  (exists l, has_table d (B"name") o l) -> forall i len off raw, k <= i < k + Z.of_nat n -> name_record d i 6 len off -> (forall j id ln of', k <= j < i -> name_record d j id ln of' -> id <> 6) ->
  bytes_at d (base + off) len = Some raw -> s = filter (fun c => negb (c =? 48)) (filter (fun c => negb (c =? 0)) raw).
Proof.
  induction n as [|n IH]; intros base o k pos s -> Hk Ho Hbase H (tl & Ht) i len off raw Hi R F E; [lia|]. cbn [nameLoop] in H.
  apply bind_ok in H as ([[[id ln] of'] p] & E1 & H). unfold readName in E1. rd E1 id' p1 X1. rd E1 ln' p2 X2. rd E1 of2 p3 X3.
  assert (p = o + 6 + 12 * k + 6 + 2 + 2 + 2) by congruence. assert (id' = id) by congruence. assert (ln' = ln) by congruence. assert (of2 = of') by congruence. subst p id' ln' of2. clear E1.
  assert (Rk : name_record d k id ln of').
  { exists o, tl. split; [exact Ht|]. split; [exact X1|]. split; [rewrite <- X2; f_equal; lia|]. rewrite <- X3. f_equal. lia. }
  destruct (Z.eq_dec i k) as [->|Ne].
  - destruct R as (o' & tl' & Ht' & Y1 & Y2 & Y3). pose proof (table_unique_pos _ _ _ _ _ Ht Ht') as <-. destruct Rk as (o' & tl2 & Ht2 & W1 & W2 & W3). pose proof (table_unique_pos _ _ _ _ _ Ht Ht2) as <-.
    assert (id = 6) by congruence. assert (ln = len) by congruence. assert (of' = off) by congruence. subst id ln of'. change (6 =? 6) with true in H. cbv iota in H.
    apply bind_ok in H as ([x q] & E2 & H). apply u16_range in Y2; [|exact Hb]. apply u16_range in Y3; [|exact Hb]. 
    assert (x = raw).
    { unfold readN in E2. destruct (blen d <=? base + off); [discriminate|]. cbv zeta in E2. destruct (_ =? len) in E2; [|discriminate]. unfold bytes_at in E. destruct (_ && _) in E; [|discriminate]. congruence. }
    congruence.
  - pose proof (F k id ln of' ltac:(lia) Rk). destruct (Z.eqb_spec id 6); [contradiction|].
    eapply (IH base o (k + 1) _ s); [|lia|exact Ho|exact Hbase|exact H|eauto|idtac|exact R|intros j id2 ln2 of3 Hj; apply (F j id2 ln2 of3); lia|exact E]; lia.
Qed.
Lemma psname_ok : forall s, readPSName d t = Ok s -> forall n, postscript_name d n -> s = filter (fun c => negb (c =? 48)) n.
Proof.
  intros s H n (o & l & count & so & i & len & off & raw & Ht & C & S & Hi & R & F & E & ->). unfold readPSName in H.
  apply bind_ok in H as (p & E0 & H). apply (seekTag_ok _ _ _ _ _ _ (p_dir _ _ P) Ht) in E0. subst p. pose proof (has_table_range _ _ _ _ Hb Ht).
  rd H c p1 E1. rd H so' p2 E2. assert (c = count) by congruence. subst c. assert (so' = so) by (replace (o + 2 + 2) with (o + 4) in E2 by lia; congruence). subst so'.
  pose proof (u16_range _ _ _ Hb S). eapply (name_loop (Z.to_nat count) (o + so) o 0 _ s); [|lia|lia|lia|exact H|eauto|idtac|exact R|exact F|exact E]; lia.
Qed.

(** ** The widths of the codes *)
Variable (m : list (Z * Z)).
Hypothesis (Hl : blen d < 4611686018427387904) (Rc : readChars d t = Ok m) (Apart : segments_apart d).
Lemma code_widths_ok : forall w0 fms ws warns, at_ (widths t) 0 = Ok w0 -> code_widths t m (mul_round (em_scale t) w0) fms = Ok (ws, warns) ->
  List.length ws = List.length fms /\ forall k f, nth_error fms k = Some f -> exists w, nth_error ws k = Some w /\
    (fm_name f = B".notdef" -> forall a, advance d 0 a -> scaled d a w) /\
    (fm_name f <> B".notdef" -> 0 <= fm_uv f -> fm_uv f <> 65535 -> forall g a, bmp_glyph d (fm_uv f) g -> advance d g a -> scaled d a w).
Proof.
  intros w0 fms. induction fms as [|f fms IH]; intros ws warns W0 H; cbn [code_widths] in H.
  { injection H as <- <-. split; [reflexivity|]. intros [|k] f E; discriminate E. }
  apply bind_ok in H as ([w warn] & E1 & H). apply bind_ok in H as ([ws' warns'] & E2 & H). assert (Ew : ws = w :: ws') by congruence. subst ws. clear H.
  destruct (IH ws' warns' W0 E2) as (L & N). split; [cbn [List.length]; congruence|].
  intros [|k] f' E; [|cbn [nth_error] in *; apply N; exact E]. cbn [nth_error] in *. assert (f' = f) by congruence. subst f'. exists w. split; [reflexivity|].
  destruct (beqb (fm_name f) (B".notdef")) eqn:Nd.
  - apply beqb_eq in Nd. assert (w = mul_round (em_scale t) w0) by congruence. subst w. split; [|intros X; contradiction].
    intros _ a Ha. apply (width_ok 0 a w0); [lia|exact Ha|exact W0].
  - split; [intros X; rewrite X in Nd; rewrite beqb_refl in Nd; discriminate|]. intros _ Pu N5 g a Hg Ha.
    pose proof (chars_ok d t m (fm_uv f) g Hb Hl P Rc Apart Pu N5 Hg) as C. rewrite C in E1. destruct (Z.eqb_spec g 0) as [Eg|Ng]; [subst g|].
    + assert (w = mul_round (em_scale t) w0) by congruence. subst w. apply (width_ok 0 a w0); [lia|exact Ha|exact W0].
    + apply bind_ok in E1 as (a' & E3 & E1). assert (w = mul_round (em_scale t) a') by congruence. subst w. apply (width_ok g a a'); [|exact Ha|exact E3].
      unfold at_ in E3. destruct (Z.ltb_spec g 0); [discriminate|lia].
Qed.
End font.
