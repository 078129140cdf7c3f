(** Looking characters up. *)
From Coq Require Import String List ZArith Lia Bool.
From Verif Require Import Base BaseProofs Ttf TtfSpec TtfProofs TtfTables Subset.
Open Scope Z_scope.
Open Scope list_scope.

Lemma seg_of_spec : forall d s t c, cmap4 d s t -> forall k seg,
  0 <= seg -> seg + Z.of_nat k = segCount t ->
  (forall j e, 0 <= j < seg -> end_code d s j = Some e -> e < c) ->
  exists i, seg_of (endCount t) k c seg = Ok i /\
    (segment d s (segCount t) c i \/ (i = segCount t /\ forall j e, 0 <= j < segCount t -> end_code d s j = Some e -> e < c)).
Proof.
  intros d s t c C. induction k as [|k IH]; intros seg Hs Hk Hb; cbn [seg_of].
  - exists seg. split; [auto|]. right. split; [lia|]. intros j e Hj. apply Hb. lia.
  - destruct (c4_end _ _ _ C seg ltac:(lia)) as (e & E1 & E2). rewrite E2. cbn [bind].
    destruct (Z.leb_spec c e).
    + exists seg. split; [auto|]. left. split; [lia|]. split; [eauto|auto].
    + apply (IH (seg + 1)); [lia|lia|]. intros j e' Hj E'. destruct (Z.eq_dec j seg) as [->|]; [congruence|].
      apply (Hb j); auto. lia.
Qed.

Lemma segment_unique : forall d s n c i j, segment d s n c i -> segment d s n c j -> i = j.
Proof.
  intros d s n c i j (H1 & (e1 & E1 & L1) & B1) (H2 & (e2 & E2 & L2) & B2).
  destruct (Z.lt_trichotomy i j) as [H|[H|H]]; auto; exfalso.
  - specialize (B2 i e1 ltac:(lia) E1). lia.
  - specialize (B1 j e2 ltac:(lia) E2). lia.
Qed.

Lemma glyph_of4_unique : forall d s c g g', glyph_of4 d s c g -> glyph_of4 d s c g' -> g = g'.
Proof.
  intros d s c g g' (sx & n & i & st & de & ro & S & -> & G & A & D & R & V) (sx' & n' & i' & st' & de' & ro' & S' & -> & G' & A' & D' & R' & V').
  assert (sx' = sx) by congruence. subst sx'. assert (i' = i) by (eapply segment_unique; eauto). subst i'.
  assert (st' = st) by congruence. assert (de' = de) by congruence. assert (ro' = ro) by congruence. subst.
  destruct (c <? st); [congruence|]. destruct (ro =? 0); [congruence|].
  destruct V as (x & X1 & ->). destruct V' as (x' & X1' & ->). assert (x' = x) by congruence. subst. auto.
Qed.

(** A character with a segment and a glyph id inside the array gets its glyph *)
Lemma glyph4_ok : forall d s t c, Forall bytep d -> cmap4 d s t -> 0 <= c <= 65535 ->
  (exists i, segment d s (segCount t) c i) -> in_array4 d s c ->
  exists g, glyph_of4 d s c g /\ glyph4 t c = Ok g.
Proof.
  intros d s t c Hb C Hc (i & Hi) Ha. pose proof (c4_pos _ _ _ C) as Hp.
  destruct (seg_of_spec _ _ _ c C (Z.to_nat (segCount t)) 0 ltac:(lia) ltac:(lia) ltac:(lia)) as (i' & Es & [Hi'|[_ N]]).
  2:{ destruct Hi as (R & (e & E & L) & _). specialize (N i e R E). lia. }
  assert (i' = i) by (eapply segment_unique; eauto). subst i'.
  pose proof Hi as (R & _ & _).
  destruct (c4_n _ _ _ C) as (sx & Sx & Nx).
  destruct (c4_start _ _ _ C i R) as (st & S1 & S2).
  destruct (c4_delta _ _ _ C i R) as (de & D1 & D2).
  destruct (c4_range _ _ _ C i R) as (ro & R1 & R2).
  unfold glyph4. rewrite Es. cbn [bind]. rewrite S2. cbn [bind].
  assert (Fin : forall g, (if c <? st then g = 0 else if ro =? 0 then g = (c + de) mod 65536
      else exists x, u16 d (range_pos s (segCount t) i + ro + 2 * (c - st)) = Some x /\ g = if x =? 0 then 0 else (x + de) mod 65536) ->
      glyph_of4 d s c g).
  { intros g V. exists sx, (segCount t), i, st, de, ro. repeat (split; [auto; fail|]). auto. }
  destruct (Z.ltb_spec c st).
  { exists 0. split; [|reflexivity]. apply Fin. destruct (Z.ltb_spec c st); [auto|lia]. }
  rewrite R2. cbn [bind]. rewrite D2. cbn [bind].
  destruct (Z.eqb_spec ro 0).
  { exists ((c + de) mod 65536). split; [|reflexivity]. apply Fin. destruct (Z.ltb_spec c st); [lia|]. reflexivity. }
  destruct (c4_len _ _ _ C) as (len & Le & Hl & Lg).
  destruct (Ha sx (segCount t) i st ro len Sx Nx Hi S1 R1 Le ltac:(lia) n) as (Ev & A1 & A2).
  unfold range_pos in *. pose proof (u16_range _ _ _ Hb Le).
  set (x := ro / 2 + (c - st) - (segCount t - i)).
  assert (Hx : 0 <= x < Z.of_nat (List.length (glyphIdArray t))) by lia.
  assert (E : int_of_u64 (u64 x) = x).
  { unfold int_of_u64, u64. rewrite Z.mod_small by lia. destruct (Z.ltb_spec x 9223372036854775808); lia. }
  rewrite E. destruct (c4_gid _ _ _ C x Hx) as (v & V1 & V2). rewrite V2. cbn [bind].
  assert (V3 : u16 d (s + 16 + 6 * segCount t + 2 * i + ro + 2 * (c - st)) = Some v) by (rewrite <- V1; f_equal; lia).
  exists (if v =? 0 then 0 else (v + de) mod 65536). split.
  - apply Fin. destruct (Z.ltb_spec c st); [lia|]. exists v. auto.
  - destruct (v =? 0); reflexivity.
Qed.

(** Without a segment for the character pdft reads behind its arrays *)
Lemma glyph4_panics : forall d s t c, cmap4 d s t ->
  (forall i e, 0 <= i < segCount t -> end_code d s i = Some e -> e < c) -> glyph4 t c = Panic.
Proof.
  intros d s t c C N. pose proof (c4_pos _ _ _ C) as Hp.
  destruct (seg_of_spec _ _ _ c C (Z.to_nat (segCount t)) 0 ltac:(lia) ltac:(lia) ltac:(lia)) as (i & Es & [Hi|[-> _]]).
  { destruct Hi as (R & (e & E & L) & _). specialize (N i e R E). lia. }
  unfold glyph4. rewrite Es. cbn [bind]. rewrite at_out; [reflexivity|]. right. rewrite (c4_starts _ _ _ C). lia.
Qed.

(** ** Format 12 *)
Definition groups12 (d : bytes) (s : Z) (gs : list (Z * Z * Z)) : Prop :=
  u32 d (s + 12) = Some (Z.of_nat (List.length gs)) /\
  forall i st en g0, nth_error gs i = Some (st, en, g0) ->
    u32 d (s + 16 + 12 * Z.of_nat i) = Some st /\ u32 d (s + 16 + 12 * Z.of_nat i + 4) = Some en /\ u32 d (s + 16 + 12 * Z.of_nat i + 8) = Some g0.

Lemma readGroup_ok : forall d p x q, 0 <= p -> readGroup d p = Ok (x, q) ->
  q = p + 12 /\ p < blen d /\ u32 d p = Some (fst (fst x)) /\ u32 d (p + 4) = Some (snd (fst x)) /\ u32 d (p + 8) = Some (snd x).
Proof.
  intros d p x q Hp H. unfold readGroup in H. rd H a p1 E1. rd H b p2 E2. rd H c p3 E3. inversion H; subst. cbn [fst snd].
  pose proof (u32_pos _ _ _ E1). replace (p + 8) with (p + 4 + 4) by lia. repeat split; auto; lia.
Qed.
Lemma group_steps : forall d, steps d 12 (readGroup d).
Proof. intros d p a q Hp H. apply readGroup_ok in H; auto. tauto. Qed.

Lemma cmap12_ok : forall d t cmap len off, Forall bytep d -> parsed d t ->
  has_table d (B"cmap") cmap len -> cmap_subtable d cmap 3 10 off -> groups12 d (cmap + off) (groups t).
Proof.
  intros d t cmap len off Hb P Ht (ne & ie & En & Hi & Ei & U). pose proof (p_dir _ _ P) as D.
  destruct (p_cmap _ _ P) as (p0 & H). unfold parseCmap in H.
  apply bind_ok in H as ([n p1] & _ & H). apply bind_ok in H as ([encs0 p2] & _ & H). cbv zeta in H.
  destruct (_ =? 0) in H; [discriminate|].
  apply bind_ok in H as ([format p3] & _ & H). destruct (negb (format =? 4)); [discriminate|].
  apply bind_ok in H as ([ln p4] & _ & H). apply bind_ok in H as ([sx p5] & _ & H).
  apply bind_ok in H as ([a p6] & _ & H). apply bind_ok in H as ([b p7] & _ & H). apply bind_ok in H as ([c p8] & _ & H).
  apply bind_ok in H as ([e p9] & _ & H). apply bind_ok in H as ([f p10] & _ & H). apply bind_ok in H as (p11 & _ & H).
  apply bind_ok in H as (gs & G & H).
  assert (gs = groups t) by (inversion H; congruence). subst gs. clear H a b c e f p4 p5 p6 p7 p8 p9 p10 p1 p2 p3 n encs0 format sx ln.
  unfold parseCmap12 in G. pose proof (has_table_range _ _ _ _ Hb Ht).
  destruct (table_spec _ _ _ _ _ D Ht) as (e & Ee & Oe & _).
  unfold seekTag', table0 in G. rewrite Ee, Oe in G.
  rd G n p1 E1. assert (n = ne) by congruence. subst n.
  apply bind_ok in G as ([encs p2] & E2 & G).
  destruct (encs_ok d cmap ne encs p2 ltac:(lia) ltac:(lia) E2) as (Le & Ne).
  destruct (find_off encs off (Z.to_nat ie)) as (pl & en & F).
  { rewrite Ne by lia. auto. }
  { intros j o Fj. assert (Hj : (j < List.length encs)%nat) by (apply nth_error_Some; congruence).
    assert (Z.of_nat j = ie); [|lia]. apply (U (Z.of_nat j) o); [lia|]. rewrite <- Ne by lia. rewrite Nat2Z.id. auto. }
  rewrite F in G.
  assert (Ho : 0 <= off).
  { unfold enc_record in Ei. destruct (u16 d (cmap + 4 + 8 * ie)); [|discriminate].
    destruct (u16 d (cmap + 4 + 8 * ie + 2)); [|discriminate]. destruct (u32 d (cmap + 4 + 8 * ie + 4)) eqn:X; [|discriminate].
    injection Ei as -> -> ->. apply u32_range in X; auto. lia. }
  rd G format p3 E3. destruct (negb (format =? 12)); [discriminate|].
  rd G reserved p4 E4. destruct (negb (reserved =? 0)); [discriminate|].
  rd G ng p5 E5. pose proof (u32_range _ _ _ Hb E5).
  apply bind_ok in G as ([gs p6] & E6 & G). injection G as ->.
  replace (cmap + off + 2 + 2 + 8) with (cmap + off + 12) in * by lia.
  destruct (loop_ok _ d 12 _ ltac:(lia) (group_steps d) ng (cmap + off + 12 + 4) (groups t) p6 ltac:(lia) E6) as (L & _ & N).
  split; [rewrite E5; f_equal; lia|].
  intros i st ee g0 E. apply N in E. apply readGroup_ok in E; [|lia]. cbn [fst snd] in E.
  replace (cmap + off + 16) with (cmap + off + 12 + 4) by lia. tauto.
Qed.

Lemma glyph12_sound : forall gs c g, glyph12 gs c = Ok g ->
  exists i st en g0, nth_error gs i = Some (st, en, g0) /\ st <= c < en /\ g = g0 + (c - st).
Proof.
  induction gs as [|[[st en] g0] gs IH]; intros c g H; cbn [glyph12] in H; [discriminate|].
  destruct (Z.leb_spec st c); destruct (Z.ltb_spec c en); cbn [andb] in H.
  1:{ exists 0%nat, st, en, g0. split; [reflexivity|]. split; [lia|]. assert (c - st + g0 = g) by congruence. lia. }
  all: destruct (IH _ _ H) as (i & a & b & e & E & R); exists (S i), a, b, e; auto.
Qed.

Lemma glyph12_found : forall gs c i st en g0, nth_error gs i = Some (st, en, g0) -> st <= c < en -> exists g, glyph12 gs c = Ok g.
Proof.
  induction gs as [|[[a b] e] gs IH]; intros c i st en g0 H R; [destruct i; discriminate|]. cbn [glyph12].
  destruct ((a <=? c) && (c <? b)) eqn:E; [eauto|].
  destruct i as [|i]; [injection H as -> -> ->; lia|]. apply (IH _ _ _ _ _ H R).
Qed.

Lemma glyph12_missing : forall gs c, (forall i st en g0, nth_error gs i = Some (st, en, g0) -> ~ (st <= c < en)) -> glyph12 gs c = Err EOther.
Proof.
  intros gs c H. destruct (glyph12 gs c) as [g|e| |] eqn:E.
  - apply glyph12_sound in E as (i & st & en & g0 & N & R & _). destruct (H _ _ _ _ N R).
  - clear H. induction gs as [|[[a b] k] gs IH]; cbn [glyph12] in E; [auto|]. destruct (_ && _); [discriminate|auto].
  - clear H. induction gs as [|[[a b] k] gs IH]; cbn [glyph12] in E; [discriminate|]. destruct (_ && _); [discriminate|auto].
  - clear H. induction gs as [|[[a b] k] gs IH]; cbn [glyph12] in E; [discriminate|]. destruct (_ && _); [discriminate|auto].
Qed.
