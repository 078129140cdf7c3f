(** What pdft takes from the tables of a font is what the specification says is
    there. *)
From Coq Require Import String List ZArith Lia Bool.
From Verif Require Import Base BaseProofs Ttf TtfSpec TtfProofs Subset.
Open Scope Z_scope.
Open Scope list_scope.

Lemma seekTag_ok : forall d t tag off len p, directory d t -> has_table d tag off len -> seekTag t tag = Ok p -> p = off.
Proof.
  intros d t tag off len p Hd Ht H. destruct (table_spec _ _ _ _ _ Hd Ht) as (e & E & O & _).
  unfold seekTag in H. rewrite E in H. congruence.
Qed.

Lemma has_table_range : forall d tag off len, Forall bytep d -> has_table d tag off len -> 0 <= off <= 4294967295 /\ 0 <= len <= 4294967295.
Proof.
  intros d tag off len Hb (n & i & _ & _ & _ & O & L & _). unfold dir_off, dir_len in *.
  apply u32_range in O; auto. apply u32_range in L; auto.
Qed.

Ltac rd H x p E := apply bind_ok in H as ([x p] & E & H);
  first [apply readUShort_ok in E as [E ->]; [|lia] | apply readShort_ok in E as [E ->]; [|lia] | apply readULong_ok in E as [E ->]; [|lia]].

Lemma head_ok : forall d t off len, Forall bytep d -> parsed d t -> has_table d (B"head") off len ->
  u16 d (off + 18) = Some (unitsPerEm t) /\ s16 d (off + 50) = Some (indexToLocFormat t).
Proof.
  intros d t off len Hb P Ht. pose proof (p_head _ _ P) as H. unfold parseHead in H.
  apply bind_ok in H as (p & E0 & H). apply (seekTag_ok _ _ _ _ _ _ (p_dir _ _ P) Ht) in E0. subst p.
  pose proof (has_table_range _ _ _ _ Hb Ht).
  rd H magic p1 E1. destruct (negb (magic =? 1594834165)); [discriminate|].
  rd H u p2 E2. rd H a0 p3 E3. rd H b0 p4 E4. rd H a1 p5 E5. rd H b1 p6 E6. rd H loc p7 E7.
  inversion H; subst. split; [rewrite <- E2|rewrite <- E7]; f_equal; lia.
Qed.

Lemma units_ok : forall d t u, Forall bytep d -> parsed d t -> units_per_em d u -> unitsPerEm t = u.
Proof. intros d t u Hb P (h & hl & Ht & E). destruct (head_ok _ _ _ _ Hb P Ht) as [E1 _]. congruence. Qed.

Lemma maxp_ok : forall d t n, Forall bytep d -> parsed d t -> num_glyphs d n -> numGlyphs t = n.
Proof.
  intros d t n Hb P (m & ml & Ht & E). destruct (p_maxp _ _ P) as [p H]. unfold parseMaxp in H.
  apply bind_ok in H as (q & E0 & H). apply (seekTag_ok _ _ _ _ _ _ (p_dir _ _ P) Ht) in E0. subst q.
  pose proof (has_table_range _ _ _ _ Hb Ht). apply readUShort_ok in H as [H _]; [|lia]. congruence.
Qed.

Lemma numGlyphs_range : forall d t, Forall bytep d -> parsed d t -> 0 <= numGlyphs t <= 65535.
Proof.
  intros d t Hb P. destruct (p_maxp _ _ P) as [p H]. unfold parseMaxp in H.
  apply bind_ok in H as (q & E0 & H). unfold seekTag in E0. destruct (table_of (tables t) (B"maxp")) eqn:E; [|discriminate].
  injection E0 as <-. pose proof (table_range _ _ _ _ Hb (p_dir _ _ P) E). apply readUShort_ok in H as [H _]; [|lia].
  eapply u16_range; eauto.
Qed.

Lemma hhea_ok : forall d t off len, Forall bytep d -> parsed d t -> has_table d (B"hhea") off len ->
  u16 d (off + 34) = Some (numberOfHMetrics t).
Proof.
  intros d t off len Hb P Ht. pose proof (p_hhea _ _ P) as H. unfold parseHhea in H.
  apply bind_ok in H as (p & E0 & H). apply (seekTag_ok _ _ _ _ _ _ (p_dir _ _ P) Ht) in E0. subst p.
  pose proof (has_table_range _ _ _ _ Hb Ht).
  rd H a p1 E1. rd H b p2 E2. rd H n p3 E3. inversion H; subst. rewrite <- E3. f_equal. lia.
Qed.

Lemma metric_steps : forall d, steps d 4 (fun pos => do (a, p) <- readUShort d pos; Ok (a, p + 2)).
Proof.
  intros d p a q Hp H. apply bind_ok in H as ([x p1] & E & H). apply readUShort_ok in E as [E ->]; auto.
  inversion H; subst. apply u16_pos in E. lia.
Qed.

Lemma widths_ok : forall d t g w, Forall bytep d -> parsed d t -> 0 <= g -> advance d g w ->
  0 < numberOfHMetrics t /\ at_ (widths t) (Z.min g (numberOfHMetrics t - 1)) = Ok w.
Proof.
  intros d t g w Hb P Hg (h & hl & x & xl & n & Th & Tx & En & Hn & Ew).
  pose proof (hhea_ok _ _ _ _ Hb P Th) as E. assert (Hnm : numberOfHMetrics t = n) by congruence.
  split; [lia|]. destruct (p_hmtx _ _ P) as (p & q & H). unfold parseHmtx in H.
  apply bind_ok in H as ([l p1] & E1 & H).
  destruct (table_spec _ _ _ _ _ (p_dir _ _ P) Tx) as (e & Ee & Oe & _).
  unfold seekTag' in E1. rewrite Ee, Oe in E1. pose proof (has_table_range _ _ _ _ Hb Tx).
  destruct (loop_ok _ d 4 _ ltac:(lia) (metric_steps d) (numberOfHMetrics t) x l p1 ltac:(lia) E1) as (L & _ & N).
  set (i := Z.min g (numberOfHMetrics t - 1)). assert (Hi : 0 <= i < n) by lia.
  destruct (nth_error l (Z.to_nat i)) as [v|] eqn:Ei; [|apply nth_error_None in Ei; lia].
  pose proof (N _ _ Ei) as F. cbn beta in F. apply bind_ok in F as ([y p2] & F1 & F2). apply readUShort_ok in F1 as [F1 ->]; [|lia].
  assert (y = v) by congruence. subst y. rewrite Z2Nat.id in F1 by lia.
  assert (v = w). { subst n. fold i in Ew. congruence. } subst v.
  assert (G : forall r, at_ (l ++ r) i = Ok w).
  { intros r. unfold at_. destruct (Z.ltb_spec i 0); [lia|]. rewrite nth_error_app1 by lia. rewrite Ei. reflexivity. }
  destruct (numberOfHMetrics t <? numGlyphs t).
  - destruct (numberOfHMetrics t =? 0); [discriminate|]. apply bind_ok in H as (la & _ & H). inversion H. apply G.
  - assert (X : widths t = l) by congruence. rewrite X, <- (app_nil_r l). apply G.
Qed.

(** The width pdft uses for a glyph *)
Lemma glyph_width_ok : forall d t g w u, Forall bytep d -> parsed d t -> 0 <= g -> advance d g w -> units_per_em d u -> 0 < u ->
  glyph_width t g = Ok (w * 1000 / u).
Proof.
  intros d t g w u Hb P Hg Ha Hu Hp. destruct (widths_ok _ _ _ _ Hb P Hg Ha) as [Hn Hw].
  rewrite <- (units_ok _ _ _ Hb P Hu) in *. unfold glyph_width.
  replace (if numberOfHMetrics t <=? g then numberOfHMetrics t - 1 else g) with (Z.min g (numberOfHMetrics t - 1))
    by (destruct (Z.leb_spec (numberOfHMetrics t) g); lia).
  rewrite Hw. cbn [bind]. destruct (Z.eqb_spec (unitsPerEm t) 1000) as [->|].
  - rewrite Z.div_mul by lia. reflexivity.
  - destruct (Z.eqb_spec (unitsPerEm t) 0); [lia|reflexivity].
Qed.

Lemma ushorts_ok' : forall d n pos l q, loop d (readUShort d) n pos = Ok (l, q) -> 0 <= pos -> 0 <= n ->
  Z.of_nat (List.length l) = n /\ q = pos + 2 * n /\ forall i, 0 <= i < n -> exists v, u16 d (pos + 2 * i) = Some v /\ at_ l i = Ok v.
Proof. intros. eapply ushorts_ok; eauto. Qed.

(** ** loca *)
Lemma short_steps : forall d, steps d 2 (fun p => do (x, p) <- readUShort d p; Ok (x * 2, p)).
Proof.
  intros d p a q Hp H. apply bind_ok in H as ([x p1] & E & H). apply readUShort_ok in E as [E ->]; auto.
  inversion H; subst. apply u16_pos in E. lia.
Qed.

Lemma loca_ok : forall d t off len, Forall bytep d -> parsed d t -> has_table d (B"loca") off len ->
  isShortIndex t = (indexToLocFormat t =? 0) /\
  Z.of_nat (List.length (locaTable t)) = len / (if indexToLocFormat t =? 0 then 2 else 4) /\
  forall g, 0 <= g < Z.of_nat (List.length (locaTable t)) ->
    exists a, loca_entry d (indexToLocFormat t) off g = Some a /\ at_ (locaTable t) g = Ok a.
Proof.
  intros d t off len Hb P Ht. pose proof (p_loca _ _ P) as H. unfold parseLoca in H.
  apply bind_ok in H as (p & E0 & H). apply (seekTag_ok _ _ _ _ _ _ (p_dir _ _ P) Ht) in E0. subst p.
  pose proof (has_table_range _ _ _ _ Hb Ht).
  destruct (table_spec _ _ _ _ _ (p_dir _ _ P) Ht) as (e & Ee & _ & Le).
  unfold table0 in H. rewrite Ee, Le in H. unfold loca_entry.
  apply bind_ok in H as ([l q] & E1 & H). injection H as E2 E3. subst l. split; [auto|].
  destruct (Z.eqb_spec (indexToLocFormat t) 0).
  - destruct (loop_ok _ d 2 _ ltac:(lia) (short_steps d) (len / 2) off (locaTable t) q ltac:(lia) E1) as (L & _ & N).
    split; [lia|]. intros g Hg.
    destruct (nth_error (locaTable t) (Z.to_nat g)) as [v|] eqn:Ei; [|apply nth_error_None in Ei; lia].
    pose proof (N _ _ Ei) as F. cbn beta in F. apply bind_ok in F as ([y p2] & F1 & F2). apply readUShort_ok in F1 as [F1 ->]; [|lia].
    rewrite Z2Nat.id in F1 by lia. rewrite F1. exists (2 * y). split; [reflexivity|].
    unfold at_. destruct (Z.ltb_spec g 0); [lia|]. rewrite Ei. f_equal. assert (y * 2 = v) by congruence. lia.
  - destruct (loop_ok _ d 4 _ ltac:(lia) (ulong_steps d) (len / 4) off (locaTable t) q ltac:(lia) E1) as (L & _ & N).
    split; [lia|]. intros g Hg.
    destruct (nth_error (locaTable t) (Z.to_nat g)) as [v|] eqn:Ei; [|apply nth_error_None in Ei; lia].
    pose proof (N _ _ Ei) as F. apply readULong_ok in F as [F1 _]; [|lia].
    rewrite Z2Nat.id in F1 by lia. exists v. split; [auto|].
    unfold at_. destruct (Z.ltb_spec g 0); [lia|]. rewrite Ei. reflexivity.
Qed.

(** ** cmap *)
Lemma readEnc_ok : forall d p x q, 0 <= p -> readEnc d p = Ok (x, q) ->
  q = p + 8 /\ p < blen d /\ u16 d p = Some (fst (fst x)) /\ u16 d (p + 2) = Some (snd (fst x)) /\ u32 d (p + 4) = Some (snd x).
Proof.
  intros d p x q Hp H. unfold readEnc in H. rd H a p1 E1. rd H b p2 E2. rd H c p3 E3. inversion H; subst. cbn [fst snd].
  pose proof (u16_pos _ _ _ E1). replace (p + 4) with (p + 2 + 2) by lia. repeat split; auto; lia.
Qed.
Lemma enc_steps : forall d, steps d 8 (readEnc d).
Proof. intros d p a q Hp H. apply readEnc_ok in H; auto. tauto. Qed.

(** The list of encoding records that both cmap readers go through *)
Lemma encs_ok : forall d c n encs q, 0 <= c -> 0 <= n -> loop d (readEnc d) n (c + 2 + 2) = Ok (encs, q) ->
  Z.of_nat (List.length encs) = n /\ forall i, 0 <= i < n -> nth_error encs (Z.to_nat i) = enc_record d c i.
Proof.
  intros d c n encs q Hc Hn H.
  destruct (loop_ok _ d 8 _ ltac:(lia) (enc_steps d) n (c + 2 + 2) encs q ltac:(lia) H) as (L & _ & N).
  split; [lia|]. intros i Hi. destruct (nth_error encs (Z.to_nat i)) as [x|] eqn:E; [|apply nth_error_None in E; lia].
  apply N in E. apply readEnc_ok in E; [|lia]. rewrite Z2Nat.id in E by lia. destruct E as (_ & _ & E1 & E2 & E3).
  unfold enc_record. replace (c + 4 + 8 * i) with (c + 2 + 2 + 8 * i) by lia. rewrite E1, E2, E3. destruct x as [[a b] o]. reflexivity.
Qed.

(** The last (3,1) record and the first (3,10) record are the only ones *)
Lemma fold_off : forall (encs : list (Z * Z * Z)) off i acc,
  nth_error encs i = Some (3, 1, off) -> (forall j o, nth_error encs j = Some (3, 1, o) -> j = i) ->
  fold_left (fun acc x => let '(p, e, o) := x in if (p =? 3) && (e =? 1) then o else acc) encs acc = off.
Proof.
  induction encs as [|[[p e] o] encs IH]; intros off i acc H U; [destruct i; discriminate|].
  destruct i as [|i].
  - injection H as -> -> ->. cbn [fold_left].
    assert (G : forall (l : list (Z * Z * Z)) (acc : Z), (forall j o, nth_error l j <> Some (3, 1, o)) ->
              fold_left (fun acc x => let '(p, e, o) := x in if (p =? 3) && (e =? 1) then o else acc) l acc = acc).
    { induction l as [|[[p e] o] l IHl]; intros a F; [reflexivity|]. cbn [fold_left].
      destruct (Z.eqb_spec p 3); destruct (Z.eqb_spec e 1); cbn [andb]; subst.
      - destruct (F 0%nat o). reflexivity.
      - apply IHl. intros j o'. apply (F (S j)).
      - apply IHl. intros j o'. apply (F (S j)).
      - apply IHl. intros j o'. apply (F (S j)). }
    cbn. apply G. intros j o F. specialize (U (S j) o F). discriminate.
  - cbn [fold_left]. apply (IH off i); [exact H|]. intros j o' F. specialize (U (S j) o' F). congruence.
Qed.

Lemma find_off : forall (encs : list (Z * Z * Z)) off i,
  nth_error encs i = Some (3, 10, off) -> (forall j o, nth_error encs j = Some (3, 10, o) -> j = i) ->
  exists p e, find (fun x => let '(p, e, _) := x in (p =? 3) && (e =? 10)) encs = Some (p, e, off).
Proof.
  induction encs as [|[[p e] o] encs IH]; intros off i H U; [destruct i; discriminate|]. cbn [find].
  destruct (Z.eqb_spec p 3); destruct (Z.eqb_spec e 10); cbn [andb]; subst.
  { specialize (U 0%nat o eq_refl). subst i. injection H as ->. eauto. }
  all: destruct i as [|i]; [cbn in H; congruence|]; apply (IH off i); [exact H|];
    intros j o' F; specialize (U (S j) o' F); congruence.
Qed.

(** Everything pdft keeps of the format 4 subtable *)
Record cmap4 (d : bytes) (s : Z) (t : ttf) : Prop := {
  c4_n : exists sx, u16 d (s + 6) = Some sx /\ segCount t = sx / 2;
  c4_pos : 0 <= s /\ 0 <= segCount t <= 32767;
  c4_end : forall i, 0 <= i < segCount t -> exists v, end_code d s i = Some v /\ at_ (endCount t) i = Ok v;
  c4_start : forall i, 0 <= i < segCount t -> exists v, start_code d s (segCount t) i = Some v /\ at_ (startCount t) i = Ok v;
  c4_delta : forall i, 0 <= i < segCount t -> exists v, id_delta d s (segCount t) i = Some v /\ at_ (idDelta t) i = Ok v;
  c4_range : forall i, 0 <= i < segCount t -> exists v, id_range d s (segCount t) i = Some v /\ at_ (idRangeOffset t) i = Ok v;
  c4_starts : Z.of_nat (List.length (startCount t)) = segCount t;
  c4_len : exists len, u16 d (s + 2) = Some len /\ 16 + 8 * segCount t <= len /\
    Z.of_nat (List.length (glyphIdArray t)) = (len - (16 + 8 * segCount t)) / 2;
  c4_gid : forall i, 0 <= i < Z.of_nat (List.length (glyphIdArray t)) ->
    exists v, u16 d (s + 16 + 8 * segCount t + 2 * i) = Some v /\ at_ (glyphIdArray t) i = Ok v }.

Lemma loop_len : forall d n p l q, Forall bytep d -> 0 <= p -> loop d (readUShort d) n p = Ok (l, q) -> n <= blen d.
Proof.
  intros d n p l q Hb Hp H. destruct (Z.leb_spec n 0); [pose proof (blen_nonneg d); lia|].
  destruct (ushorts_ok d n p l q Hp ltac:(lia) H) as (L & _ & N).
  destruct (N (n - 1) ltac:(lia)) as (v & E & _). apply u16_pos in E. lia.
Qed.

Lemma cmap4_ok : forall d t cmap len off, Forall bytep d -> blen d < 4611686018427387904 -> parsed d t ->
  has_table d (B"cmap") cmap len -> cmap_subtable d cmap 3 1 off ->
  cmap4 d (cmap + off) t.
Proof.
  intros d t cmap len off Hb Hs P Ht (ne & ie & En & Hi & Ei & U). pose proof (p_dir _ _ P) as D.
  destruct (p_cmap _ _ P) as (p0 & H). unfold parseCmap in H.
  pose proof (has_table_range _ _ _ _ Hb Ht).
  destruct (table_spec _ _ _ _ _ D Ht) as (e & Ee & Oe & _).
  unfold seekTag', table0 in H. rewrite Ee, Oe in H.
  rd H n p1 E1. assert (n = ne) by congruence. subst n.
  apply bind_ok in H as ([encs p2] & E2 & H).
  destruct (encs_ok d cmap ne encs p2 ltac:(lia) ltac:(lia) E2) as (Le & Ne).
  assert (F : fold_left (fun acc x => let '(p, e, o) := x in if (p =? 3) && (e =? 1) then o else acc) encs 0 = off).
  { apply (fold_off encs off (Z.to_nat ie)); [rewrite Ne by lia; auto|].
    intros j o Fj. assert (Hj : (j < List.length encs)%nat) by (apply nth_error_Some; congruence).
    assert (Z.of_nat j = ie); [|lia]. apply (U (Z.of_nat j) o); [lia|]. rewrite <- Ne by lia. rewrite Nat2Z.id. auto. }
  cbv zeta in H. rewrite F in H.
  assert (Ho : 0 <= off).
  { unfold enc_record in Ei. destruct (u16 d (cmap + 4 + 8 * ie)); [|discriminate].
    destruct (u16 d (cmap + 4 + 8 * ie + 2)); [|discriminate]. destruct (u32 d (cmap + 4 + 8 * ie + 4)) eqn:X; [|discriminate].
    injection Ei as -> -> ->. apply u32_range in X; auto. lia. }
  destruct (Z.eqb_spec off 0); [discriminate|].
  set (s := cmap + off) in *. assert (Hs0 : 0 <= s) by lia.
  rd H format p3 E3. destruct (negb (format =? 4)); [discriminate|].
  rd H ln p4 E4. rd H sx p5 E5.
  pose proof (u16_range _ _ _ Hb E5). pose proof (u16_range _ _ _ Hb E4).
  set (sc := sx / 2) in *. assert (Hsc : 0 <= sc <= 32767) by lia.
  apply bind_ok in H as ([ends p6] & E6 & H). destruct (ushorts_ok' _ _ _ _ _ E6 ltac:(lia) ltac:(lia)) as (L6 & -> & N6).
  apply bind_ok in H as ([starts p7] & E7 & H). destruct (ushorts_ok' _ _ _ _ _ E7 ltac:(lia) ltac:(lia)) as (L7 & -> & N7).
  apply bind_ok in H as ([deltas p8] & E8 & H). destruct (ushorts_ok' _ _ _ _ _ E8 ltac:(lia) ltac:(lia)) as (L8 & -> & N8).
  apply bind_ok in H as ([ros p9] & E9 & H). destruct (ushorts_ok' _ _ _ _ _ E9 ltac:(lia) ltac:(lia)) as (L9 & -> & N9).
  apply bind_ok in H as ([gids p10] & E10 & H).
  pose proof (fun h => loop_len _ _ _ _ _ Hb h E10) as LB. specialize (LB ltac:(lia)).
  assert (Hlen : 16 + 8 * sc <= ln).
  { destruct (Z.leb_spec (16 + 8 * sc) ln); [auto|exfalso].
    unfold int_of_u64, u64 in LB.
    assert (X : (ln - (16 + 8 * sc)) mod 18446744073709551616 = ln - (16 + 8 * sc) + 18446744073709551616).
    { symmetry. apply Z.mod_unique with (q := -1); lia. }
    rewrite X in LB. destruct (Z.ltb_spec ((ln - (16 + 8 * sc) + 18446744073709551616) / 2) 9223372036854775808); lia. }
  assert (X : int_of_u64 (u64 (ln - (16 + 8 * sc)) / 2) = (ln - (16 + 8 * sc)) / 2).
  { unfold int_of_u64, u64. rewrite Z.mod_small by lia.
    destruct (Z.ltb_spec ((ln - (16 + 8 * sc)) / 2) 9223372036854775808); lia. }
  rewrite X in E10. destruct (ushorts_ok' _ _ _ _ _ E10 ltac:(lia) ltac:(lia)) as (L10 & -> & N10).
  apply bind_ok in H as (p11 & _ & H). apply bind_ok in H as (gs & _ & H).
  injection H as Z1 Z2 Z3 Z4 Z5 Z6 Z7. subst ends starts deltas ros gids gs. assert (Z1' : sc = sx / 2) by reflexivity. clearbody sc. rewrite Z1 in *.
  constructor.
  - exists sx. split; [|congruence]. rewrite <- E5. f_equal. lia.
  - lia.
  - intros i Hi'. destruct (N6 i Hi') as (v & V1 & V2). exists v. split; [|auto]. unfold end_code. rewrite <- V1. f_equal. lia.
  - intros i Hi'. destruct (N7 i Hi') as (v & V1 & V2). exists v. split; [|auto]. unfold start_code. rewrite <- V1. f_equal. lia.
  - intros i Hi'. destruct (N8 i Hi') as (v & V1 & V2). exists v. split; [|auto]. unfold id_delta. rewrite <- V1. f_equal. lia.
  - intros i Hi'. destruct (N9 i Hi') as (v & V1 & V2). exists v. split; [|auto]. unfold id_range, range_pos. rewrite <- V1. f_equal. lia.
  - auto.
  - exists ln. split; [rewrite <- E4; f_equal; lia|]. split; [lia|]. auto.
  - intros i Hi'. rewrite L10 in Hi'. destruct (N10 i Hi') as (v & V1 & V2). exists v. split; [|auto]. rewrite <- V1. f_equal. lia.
Qed.
