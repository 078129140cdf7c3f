(** The map of characters and the widths of the font maker. *)
From Coq Require Import String List ZArith Lia Bool.
From Coq.Floats Require Import SpecFloat.
From Verif Require Import Base BaseProofs Float64 Ttf TtfSpec TtfProofs TtfTables TtfCmap Subset FontMaker FontMakerSpec.
Open Scope Z_scope.
Open Scope list_scope.

Definition seg_glyph (d : bytes) (de ro pos c1 c g : Z) : Prop :=
  if ro =? 0 then g = (c + de) mod 65536
  else exists x, u16 d (pos + 2 * (c - c1)) = Some x /\ g = if x =? 0 then 0 else (x + de) mod 65536.

Lemma wrap16 : forall n, 0 <= n < 131072 -> (if 65536 <=? n then n - 65536 else n) = n mod 65536.
Proof.
  intros n H. destruct (Z.leb_spec 65536 n); [|rewrite Z.mod_small by lia; reflexivity].
  apply Z.mod_unique with (q := 1); lia.
Qed.
Lemma charSeg_ok : forall d k c1 de ro pos m pos' m', Forall bytep d -> 0 <= pos -> 0 <= ro -> 0 <= de <= 65535 -> 0 <= c1 -> c1 + Z.of_nat k <= 65536 ->
  charSeg d k c1 de ro pos m = Ok (pos', m') ->
  0 <= pos' /\ (forall c, ~ (c1 <= c < c1 + Z.of_nat k) -> char_at m' c = char_at m c) /\
  (forall c, c1 <= c < c1 + Z.of_nat k -> c < 65535 -> exists g, seg_glyph d de ro pos c1 c g /\ char_at m' c = if g =? 0 then char_at m c else Some g).
Proof.
  intros d k. induction k as [|k IH]; intros c1 de ro pos m pos' m' Hb Hp Hr Hd Hc Hk H; cbn [charSeg] in H.
  { injection H as <- <-. split; [exact Hp|]. split; [reflexivity|]. intros c C. lia. }
  destruct (Z.eqb_spec c1 65535).
  { injection H as <- <-. split; [exact Hp|]. split; [reflexivity|]. intros c C. lia. }
  apply bind_ok in H as ([gid p] & E & H). cbv zeta in H. rewrite Nat2Z.inj_succ in *.
  assert (G : exists g, seg_glyph d de ro pos c1 c1 g /\ (if 65536 <=? gid then gid - 65536 else gid) = g /\ 0 <= g /\ 0 <= p /\ (ro = 0 -> p = pos) /\ (ro <> 0 -> p = pos + 2)).
  { unfold seg_glyph. destruct (Z.ltb_spec 0 ro).
    - apply bind_ok in E as ([g p1] & E & E'). apply readUShort_ok in E as [E ->]; [|exact Hp]. pose proof (u16_range _ _ _ Hb E). destruct (Z.eqb_spec ro 0); [lia|].
      assert (G : (if 0 <? g then g + de else g) = gid) by congruence. assert (p = pos + 2) by congruence. subst p gid.
      exists (if g =? 0 then 0 else (g + de) mod 65536). replace (pos + 2 * (c1 - c1)) with pos by lia. split; [eauto|]. 
      destruct (Z.ltb_spec 0 g), (Z.eqb_spec g 0); try lia.
      + rewrite wrap16 by lia. pose proof (Z.mod_pos_bound (g + de) 65536). lia.
      + subst g. change (65536 <=? 0) with false. cbv iota. lia.
    - assert (gid = c1 + de) by congruence. assert (p = pos) by congruence. subst gid p. destruct (Z.eqb_spec ro 0); [|lia].
      exists ((c1 + de) mod 65536). rewrite wrap16 by lia. pose proof (Z.mod_pos_bound (c1 + de) 65536). lia. }
  destruct G as (g & G1 & G2 & G3 & G4 & G5 & G6). rewrite G2 in H.
  destruct (IH (c1 + 1) de ro p (if 0 <? g then (c1, g) :: m else m) pos' m' Hb G4 Hr Hd ltac:(lia) ltac:(lia) H) as (P & N & Y).
  split; [exact P|]. split.
  - intros c C. rewrite N by lia. destruct (0 <? g); [|reflexivity]. cbn [char_at]. destruct (Z.eqb_spec c1 c); [lia|reflexivity].
  - intros c C C'. destruct (Z.eq_dec c c1) as [->|Ne].
    + exists g. split; [exact G1|]. rewrite N by lia. destruct (Z.ltb_spec 0 g), (Z.eqb_spec g 0); try lia; [|reflexivity].
      cbn [char_at]. rewrite Z.eqb_refl. reflexivity.
    + destruct (Y c ltac:(lia) C') as (g' & A & A'). exists g'. split.
      * unfold seg_glyph in *. destruct (Z.eqb_spec ro 0); [exact A|]. destruct A as (x & X & ->). rewrite (G6 n0) in X. exists x. split; [rewrite <- X; f_equal; lia|reflexivity].
      * rewrite A'. destruct (0 <? g); [|reflexivity]. cbn [char_at]. destruct (Z.eqb_spec c1 c); [lia|reflexivity].
Qed.

Definition short (n : Z) : Prop := 0 <= n <= 65535.
Lemma charSegs_ok : forall d off c, Forall bytep d -> 0 <= off -> 0 <= c -> forall starts ends deltas ros i pos m m', 0 <= i -> 0 <= pos ->
  Forall short starts -> Forall short ends -> Forall short deltas -> Forall short ros ->
  charSegs d off i starts ends deltas ros pos m = Ok m' ->
  ((forall j s e, nth_error starts j = Some s -> nth_error ends j = Some e -> ~ (s <= c <= e)) -> char_at m' c = char_at m c) /\
  (forall j s e de ro, nth_error starts j = Some s -> nth_error ends j = Some e -> nth_error deltas j = Some de -> nth_error ros j = Some ro -> s <= c <= e -> c < 65535 ->
    (forall j' s e, j' <> j -> nth_error starts j' = Some s -> nth_error ends j' = Some e -> ~ (s <= c <= e)) ->
    exists g, seg_glyph d de ro (off + 2 * (i + Z.of_nat j) + ro) s c g /\ char_at m' c = if g =? 0 then char_at m c else Some g).
Proof.
  intros d off c Hb Ho Hc. induction starts as [|c1 starts IH]; intros ends deltas ros i pos m m' Hi Hp F1 F2 F3 F4 H.
  { cbn [charSegs] in H. injection H as <-. split; [reflexivity|]. intros [|j] s e de ro E; discriminate E. }
  destruct ends as [|c2 ends]; [cbn [charSegs] in H; injection H as <-; split; [reflexivity|]; intros [|j] s e de ro E E'; discriminate E'|].
  destruct deltas as [|de deltas]; [cbn [charSegs] in H; injection H as <-; split; [reflexivity|]; intros [|j] s e de ro E E' E''; discriminate E''|].
  destruct ros as [|ro ros]; [cbn [charSegs] in H; injection H as <-; split; [reflexivity|]; intros [|j] s e de' ro E E' E'' E3; discriminate E3|].
  cbn [charSegs] in H. apply bind_ok in H as ([p1 m1] & E & H). inversion F1; inversion F2; inversion F3; inversion F4; subst. unfold short in *.
  assert (K : c1 <= c <= c2 <-> c1 <= c < c1 + Z.of_nat (Z.to_nat (c2 - c1 + 1))) by lia.
  apply charSeg_ok in E; [|exact Hb|destruct (0 <? ro) eqn:?; lia|lia|lia|lia|lia]. destruct E as (P1 & N1 & Y1).
  destruct (IH ends deltas ros (i + 1) p1 m1 m' ltac:(lia) P1 ltac:(assumption) ltac:(assumption) ltac:(assumption) ltac:(assumption) H) as (A & C). split.
  - intros N. rewrite A by (intros j s e E1 E2; apply (N (Datatypes.S j) s e E1 E2)). apply N1. rewrite <- K. apply (N 0%nat c1 c2 eq_refl eq_refl).
  - intros [|j] s e de' ro' E1 E2 E3 E4 R Cl U.
    + cbn [nth_error] in *. injection E1 as <-. injection E2 as <-. injection E3 as <-. injection E4 as <-.
      destruct (Y1 c (proj1 K R) ltac:(lia)) as (g & G1 & G2). exists g. split.
      * unfold seg_glyph in *. destruct (Z.eqb_spec ro 0); [exact G1|]. destruct (Z.ltb_spec 0 ro); [|lia]. replace (off + 2 * (i + Z.of_nat 0) + ro) with (off + 2 * i + ro) by lia. exact G1.
      * rewrite A; [exact G2|]. intros j s e E1 E2. apply (U (Datatypes.S j) s e); [discriminate|exact E1|exact E2].
    + cbn [nth_error] in *. destruct (C j s e de' ro' E1 E2 E3 E4 R Cl) as (g & G1 & G2).
      { intros j' s' e' Ne X1 X2. apply (U (Datatypes.S j') s' e'); [congruence|exact X1|exact X2]. }
      exists g. split; [replace (off + 2 * (i + Z.of_nat (Datatypes.S j)) + ro') with (off + 2 * (i + 1 + Z.of_nat j) + ro') by lia; exact G1|].
      rewrite G2. rewrite N1; [reflexivity|]. rewrite <- K. apply (U 0%nat c1 c2); [discriminate|reflexivity|reflexivity].
Qed.

Lemma loop_short : forall d n p l q, Forall bytep d -> 0 <= p -> 0 <= n -> loop d (readUShort d) n p = Ok (l, q) -> Forall short l.
Proof.
  intros d n p l q Hb Hp Hn H. destruct (ushorts_ok' d n p l q H Hp Hn) as (L & _ & N). apply Forall_forall. intros x Hx. apply In_nth_error in Hx as (k & Ek).
  assert (Hk : (k < List.length l)%nat) by (apply nth_error_Some; congruence). destruct (N (Z.of_nat k) ltac:(lia)) as (v & V1 & V2).
  unfold at_ in V2. destruct (Z.ltb_spec (Z.of_nat k) 0); [lia|]. rewrite Nat2Z.id, Ek in V2. assert (x = v) by congruence. subst x. apply (u16_range _ _ _ Hb) in V1. unfold short. lia.
Qed.
Lemma loop_next : forall d n p l q, loop d (readUShort d) n p = Ok (l, q) -> 0 <= p -> 0 <= n -> 0 <= q.
Proof. intros d n p l q H Hp Hn. destruct (ushorts_ok' d n p l q H Hp Hn) as (_ & -> & _). lia. Qed.

(** Both readings of the encoding records find the same subtable *)
Lemma off31_ok : forall d cmap n encs q off, 0 <= cmap -> u16 d (cmap + 2) = Some n -> 0 <= n -> loop d (readEnc d) n (cmap + 2 + 2) = Ok (encs, q) -> cmap_subtable d cmap 3 1 off ->
  fold_left (fun acc x => let '(p, e, o) := x in if (p =? 3) && (e =? 1) then o else acc) encs 0 = off.
Proof.
  intros d cmap n encs q off Hc En Hn E (ne & ie & En' & Hi & Ei & U). assert (ne = n) by congruence. subst ne.
  destruct (encs_ok d cmap n encs q Hc Hn E) as (Le & Ne). apply (fold_off encs off (Z.to_nat ie)); [rewrite Ne by lia; auto|].
  intros j o Fj. assert (Hj : (j < List.length encs)%nat) by (apply nth_error_Some; congruence).
  assert (Z.of_nat j = ie); [|lia]. apply (U (Z.of_nat j) o); [lia|]. rewrite <- Ne by lia. rewrite Nat2Z.id. auto.
Qed.
Lemma shorts_ok : forall d t cmap len off, Forall bytep d -> parsed d t -> has_table d (B"cmap") cmap len -> cmap_subtable d cmap 3 1 off ->
  Forall short (startCount t) /\ Forall short (endCount t) /\ Forall short (idDelta t) /\ Forall short (idRangeOffset t) /\ 0 <= off.
Proof.
  intros d t cmap len off Hb P Ht Hs. pose proof (p_dir _ _ P) as D.
  destruct (p_cmap _ _ P) as (p0 & H). unfold parseCmap in H.
  pose proof (has_table_range _ _ _ _ Hb Ht).
  destruct (table_spec _ _ _ _ _ D Ht) as (e & Ee & Oe & _).
  unfold seekTag', table0 in H. rewrite Ee, Oe in H.
  rd H n p1 E1. pose proof (u16_range _ _ _ Hb E1).
  apply bind_ok in H as ([encs p2] & E2 & H).
  pose proof (off31_ok d cmap n encs p2 off ltac:(lia) E1 ltac:(lia) E2 Hs) as F. cbv zeta in H. rewrite F in H.
  assert (Ho : 0 <= off).
  { destruct Hs as (ne & ie & _ & _ & Ei & _). unfold enc_record in Ei. destruct (u16 d (cmap + 4 + 8 * ie)); [|discriminate].
    destruct (u16 d (cmap + 4 + 8 * ie + 2)); [|discriminate]. destruct (u32 d (cmap + 4 + 8 * ie + 4)) eqn:X; [|discriminate].
    injection Ei as -> -> ->. apply u32_range in X; auto. lia. }
  destruct (Z.eqb_spec off 0); [discriminate|].
  rd H format p3 E3. destruct (negb (format =? 4)); [discriminate|].
  rd H ln p4 E4. rd H sx p5 E5. pose proof (u16_range _ _ _ Hb E5).
  apply bind_ok in H as ([ends p6] & E6 & H). pose proof (loop_next _ _ _ _ _ E6 ltac:(lia) ltac:(lia)). apply loop_short in E6; [|exact Hb|lia|lia].
  apply bind_ok in H as ([starts p7] & E7 & H). pose proof (loop_next _ _ _ _ _ E7 ltac:(lia) ltac:(lia)). apply loop_short in E7; [|exact Hb|lia|lia].
  apply bind_ok in H as ([deltas p8] & E8 & H). pose proof (loop_next _ _ _ _ _ E8 ltac:(lia) ltac:(lia)). apply loop_short in E8; [|exact Hb|lia|lia].
  apply bind_ok in H as ([ros p9] & E9 & H). apply loop_short in E9; [|exact Hb|lia|lia].
  apply bind_ok in H as ([gids p10] & E10 & H).
  apply bind_ok in H as (p11 & _ & H). apply bind_ok in H as (gs & _ & H).
  injection H as Z1 Z2 Z3 Z4 Z5 Z6 Z7. subst. auto.
Qed.

Lemma at_nth : forall A (l : list A) i v, 0 <= i -> at_ l i = Ok v -> nth_error l (Z.to_nat i) = Some v.
Proof. intros A l i v Hi H. unfold at_ in H. destruct (Z.ltb_spec i 0); [lia|]. destruct (nth_error l (Z.to_nat i)); congruence. Qed.

Theorem chars_ok : forall d t m c g, Forall bytep d -> blen d < 4611686018427387904 -> parsed d t -> readChars d t = Ok m -> segments_apart d -> 0 <= c -> c <> 65535 ->
  bmp_glyph d c g -> char_at m c = if g =? 0 then None else Some g.
Proof.
  intros d t m c g Hb Hl P H A Hc Nc (cmap & len & off & sx & Ht & Hs & Sx & G).
  pose proof (cmap4_ok d t cmap len off Hb Hl P Ht Hs) as C. destruct (shorts_ok d t cmap len off Hb P Ht Hs) as (F1 & F2 & F3 & F4 & Ho).
  unfold readChars in H. cbv zeta in H. apply bind_ok in H as ([ng p1] & _ & H). apply bind_ok in H as ([w p2] & _ & H).
  pose proof (has_table_range _ _ _ _ Hb Ht). destruct (table_spec _ _ _ _ _ (p_dir _ _ P) Ht) as (e & Ee & Oe & _).
  unfold seekTag', table0 in H. rewrite Ee, Oe in H. rd H n p3 E1. pose proof (u16_range _ _ _ Hb E1).
  apply bind_ok in H as ([encs p4] & E2 & H). rewrite (off31_ok d cmap n encs p4 off ltac:(lia) E1 ltac:(lia) E2 Hs) in H.
  destruct (c4_n _ _ _ C) as (sx' & Sx' & Nx). assert (sx' = sx) by congruence. subst sx'. destruct (c4_pos _ _ _ C) as (Ps & Pn).
  pose proof (Zle_0_nat (List.length (glyphIdArray t))) as Pg.
  assert (Hoff : 0 <= cmap + off + 16 + 6 * segCount t) by lia. assert (Hpos : 0 <= cmap + off + 16 + 8 * segCount t + 2 * Z.of_nat (List.length (glyphIdArray t))) by lia.
  destruct (charSegs_ok d _ c Hb Hoff Hc _ _ _ _ 0 _ [] m (Z.le_refl 0) Hpos F1 F2 F3 F4 H) as (Q1 & Q2).
  assert (Bnd : forall j s, nth_error (startCount t) j = Some s -> 0 <= Z.of_nat j < segCount t).
  { intros j s E. rewrite <- (c4_starts _ _ _ C). assert (j < List.length (startCount t))%nat by (apply nth_error_Some; congruence). lia. }
  assert (Ends : forall j s e', nth_error (startCount t) j = Some s -> nth_error (endCount t) j = Some e' ->
            end_code d (cmap + off) (Z.of_nat j) = Some e' /\ start_code d (cmap + off) (segCount t) (Z.of_nat j) = Some s).
  { intros j s e' E E'. pose proof (Bnd j s E) as R. destruct (c4_end _ _ _ C _ R) as (v & V1 & V2). destruct (c4_start _ _ _ C _ R) as (v' & V1' & V2').
    apply at_nth in V2; [|lia]. apply at_nth in V2'; [|lia]. rewrite Nat2Z.id in *. split; congruence. }
  assert (Out : forall i, segment d (cmap + off) (segCount t) c i -> forall j s e', nth_error (startCount t) j = Some s -> nth_error (endCount t) j = Some e' -> Z.of_nat j <> i -> ~ (s <= c <= e')).
  { intros i (R & (e1 & Ei & Le) & Bf) j s e' E E' Ne Cn. destruct (Ends j s e' E E') as (X1 & X2). destruct (Z.lt_trichotomy (Z.of_nat j) i) as [L|[L|L]]; [|contradiction|].
    - specialize (Bf (Z.of_nat j) e' ltac:(lia) X1). lia.
    - rewrite Nx in X2. pose proof (Bnd j s E). specialize (A cmap len off sx i (Z.of_nat j) e1 s Ht Hs Sx ltac:(lia) ltac:(lia) Ei X2). lia. }
  destruct G as [(sx' & n' & i & st & de & ro & Sx2 & -> & Sg & St & De & Ro & V)|(Nsg & ->)].
  - assert (sx' = sx) by congruence. subst sx'. rewrite <- Nx in *. destruct Sg as (R & (e1 & Ei & Le) & Bf). assert (Sg : segment d (cmap + off) (segCount t) c i) by (split; [exact R|]; eauto).
    destruct (c4_end _ _ _ C i R) as (v1 & V1 & V1'). destruct (c4_start _ _ _ C i R) as (v2 & V2 & V2'). destruct (c4_delta _ _ _ C i R) as (v3 & V3 & V3'). destruct (c4_range _ _ _ C i R) as (v4 & V4 & V4').
    assert (v1 = e1) by congruence. assert (v2 = st) by congruence. assert (v3 = de) by congruence. assert (v4 = ro) by congruence. subst v1 v2 v3 v4.
    apply at_nth in V1'; [|lia]. apply at_nth in V2'; [|lia]. apply at_nth in V3'; [|lia]. apply at_nth in V4'; [|lia].
    destruct (Z.ltb_spec c st).
    + subst g. change (0 =? 0) with true. cbv iota. rewrite Q1; [reflexivity|]. intros j s e' X1 X2. destruct (Z.eq_dec (Z.of_nat j) i) as [E|E]; [|exact (Out i Sg j s e' X1 X2 E)].
      assert (Z.to_nat i = j) by lia. subst j. assert (s = st) by congruence. lia.
    + assert (e1 <= 65535) by (rewrite Forall_forall in F2; specialize (F2 e1 (nth_error_In _ _ V1')); unfold short in F2; lia).
      destruct (Q2 (Z.to_nat i) st e1 de ro V2' V1' V3' V4' ltac:(lia) ltac:(lia)) as (g' & G1 & G2).
      { intros j' s e' Ne X1 X2. apply (Out i Sg j' s e' X1 X2). lia. }
      assert (g' = g).
      { unfold seg_glyph in G1. destruct (ro =? 0); [congruence|]. destruct G1 as (x & X1 & ->). destruct V as (x' & X1' & ->).
        assert (x = x'); [|subst x'; reflexivity]. unfold range_pos in X1'. replace (cmap + off + 16 + 6 * segCount t + 2 * (0 + Z.of_nat (Z.to_nat i)) + ro + 2 * (c - st)) with (cmap + off + 16 + 6 * segCount t + 2 * i + ro + 2 * (c - st)) in X1 by lia. congruence. }
      subst g'. rewrite G2. reflexivity.
  - change (0 =? 0) with true. cbv iota. rewrite Q1; [reflexivity|]. intros j s e' X1 X2 Cn. destruct (Ends j s e' X1 X2) as (Y1 & Y2). pose proof (Bnd j s X1).
    rewrite <- Nx in *. destruct (seg_of_spec d (cmap + off) t c C (Z.to_nat (segCount t)) 0 ltac:(lia) ltac:(lia) ltac:(lia)) as (i & _ & [Sg|(_ & N)]); [exact (Nsg i Sg)|].
    specialize (N (Z.of_nat j) e' ltac:(lia) Y1). lia.
Qed.

(** The width table has the advance of every glyph *)
Lemma widths_all : forall d t g w a, Forall bytep d -> parsed d t -> 0 <= g -> advance d g a -> at_ (widths t) g = Ok w -> w = a.
Proof.
  intros d t g w a Hb P Hg Ha H. destruct (widths_ok d t g a Hb P Hg Ha) as (Hn & Hw). destruct (Z.leb_spec g (numberOfHMetrics t - 1)).
  { rewrite Z.min_l in Hw by lia. congruence. }
  rewrite Z.min_r in Hw by lia. destruct (p_hmtx _ _ P) as (p & q & E). unfold parseHmtx in E. apply bind_ok in E as ([l p1] & E1 & E).
  assert (L : Z.of_nat (List.length l) = numberOfHMetrics t).
  { destruct Ha as (h & hl & x & xl & n & Th & Tx & _). destruct (table_spec _ _ _ _ _ (p_dir _ _ P) Tx) as (e & Ee & Oe & _).
    unfold seekTag' in E1. rewrite Ee, Oe in E1. pose proof (has_table_range _ _ _ _ Hb Tx).
    destruct (loop_ok _ d 4 _ ltac:(lia) (metric_steps d) (numberOfHMetrics t) x l p1 ltac:(lia) E1) as (L & _ & _). lia. }
  assert (Len : (Z.to_nat g < List.length (widths t))%nat) by (apply nth_error_Some; rewrite (at_nth _ _ _ _ Hg H); discriminate).
  destruct (Z.ltb_spec (numberOfHMetrics t) (numGlyphs t)).
  - destruct (numberOfHMetrics t =? 0); [discriminate|]. apply bind_ok in E as (la & El & E). assert (W : widths t = l ++ repeat la (Z.to_nat (numGlyphs t - numberOfHMetrics t))) by congruence.
    rewrite W in *. apply at_nth in H; [|lia]. rewrite nth_error_app2 in H by lia. apply nth_error_In, repeat_spec in H. subst w.
    apply at_nth in Hw; [|lia]. apply at_nth in El; [|lia]. rewrite nth_error_app1 in Hw by lia. congruence.
  - assert (W : widths t = l) by congruence. rewrite W in *. lia.
Qed.
