(** Which glyphs are put into the embedded font. *)
From Coq Require Import String List ZArith Lia Bool.
From Verif Require Import Base BaseProofs Ttf TtfSpec TtfProofs TtfTables Subset FontFile FontGlyphs.
Open Scope Z_scope.
Open Scope list_scope.

(** ** Outlines *)
Lemma has_table_unique : forall d tag o l o' l', has_table d tag o l -> has_table d tag o' l' -> o = o' /\ l = l'.
Proof.
  intros d tag o l o' l' (n & i & N & I & T & O & L & U) (n' & i' & N' & I' & T' & O' & L' & U').
  assert (n' = n) by congruence. subst n'. assert (i' = i) by (apply U; auto). subst i'. split; congruence.
Qed.
Lemma outline_unique : forall d g o o', outline d g o -> outline d g o' -> o = o'.
Proof.
  intros d g o o' (h & hl & x & xl & l & ll & fm & a & z & T1 & T2 & T3 & F & G1 & G2 & A & Z1 & E) (h' & hl' & x' & xl' & l' & ll' & fm' & a' & z' & T1' & T2' & T3' & F' & G1' & G2' & A' & Z1' & E').
  destruct (has_table_unique _ _ _ _ _ _ T1 T1') as [-> ->]. destruct (has_table_unique _ _ _ _ _ _ T2 T2') as [-> ->].
  destruct (has_table_unique _ _ _ _ _ _ T3 T3') as [-> ->].
  assert (fm' = fm) by congruence. subst. assert (a' = a) by congruence. assert (z' = z) by congruence. subst. congruence.
Qed.

Lemma bytes_at_some : forall d p n b, bytes_at d p n = Some b -> 0 <= p /\ 0 <= n /\ p + n <= blen d /\ blen b = n /\
  exists x y, d = x ++ b ++ y /\ blen x = p.
Proof.
  intros d p n b H. unfold bytes_at in H.
  destruct (Z.leb_spec 0 p); cbn [andb] in H; [|discriminate]. destruct (Z.leb_spec 0 n); cbn [andb] in H; [|discriminate].
  destruct (Z.leb_spec (p + n) (blen d)); [|discriminate]. injection H as <-.
  repeat (split; [assumption|]). split.
  - unfold blen in *. rewrite firstn_length_le; [lia|]. rewrite skipn_length. lia.
  - exists (firstn (Z.to_nat p) d), (skipn (Z.to_nat n) (skipn (Z.to_nat p) d)).
    rewrite (firstn_skipn (Z.to_nat n)), firstn_skipn. split; [reflexivity|]. unfold blen in *. rewrite firstn_length_le; lia.
Qed.
Lemma bytes_at_slice : forall d p n b, bytes_at d p n = Some b -> slice d p (p + n) = Ok b.
Proof.
  intros d p n b H. unfold bytes_at in H. destruct (Z.leb_spec 0 p); cbn [andb] in H; [|discriminate].
  destruct (Z.leb_spec 0 n); cbn [andb] in H; [|discriminate]. destruct (Z.leb_spec (p + n) (blen d)); [|discriminate].
  injection H as <-. unfold slice. destruct (Z.leb_spec 0 p); [|lia]. destruct (Z.leb_spec p (p + n)); [|lia].
  destruct (Z.leb_spec (p + n) (blen d)); [|lia]. cbn [andb]. do 3 f_equal. lia.
Qed.
Lemma slice_bytes_at : forall d i j b, slice d i j = Ok b -> bytes_at d i (j - i) = Some b.
Proof.
  intros d i j b H. apply slice_ok in H as (H1 & H2 & ->). unfold bytes_at.
  destruct (Z.leb_spec 0 i); [|lia]. destruct (Z.leb_spec 0 (j - i)); [|lia]. destruct (Z.leb_spec (i + (j - i)) (blen d)); [|lia].
  reflexivity.
Qed.

Lemma glyf_offset : forall d t x xl, parsed d t -> has_table d (B"glyf") x xl -> toffset (table0 (tables t) (B"glyf")) = x.
Proof.
  intros d t x xl P T. destruct (table_spec _ _ _ _ _ (p_dir _ _ P) T) as (e & E & O & _). unfold table0. rewrite E. auto.
Qed.

(** pdft finds an outline where the specification has it *)
Lemma outline_found : forall d t g o, Forall bytep d -> parsed d t -> outline d g o ->
  exists a z, glyph_offset t g = Ok a /\ glyph_offset t (g + 1) = Ok z /\ bytes_at d a (z - a) = Some o.
Proof.
  intros d t g o Hb P (h & hl & x & xl & l & ll & fm & a & z & T1 & T2 & T3 & F & G1 & G2 & A & Z1 & E).
  destruct (head_ok _ _ _ _ Hb P T1) as [_ Hf]. assert (fm = indexToLocFormat t) by congruence. subst fm.
  destruct (loca_ok _ _ _ _ Hb P T3) as (_ & LL & N).
  assert (Hg : g + 1 < Z.of_nat (List.length (locaTable t))).
  { rewrite LL. apply Z.lt_le_trans with (g + 2); [lia|]. apply Z.div_le_lower_bound; destruct (indexToLocFormat t =? 0); lia. }
  destruct (N g ltac:(lia)) as (a' & A1 & A2). destruct (N (g + 1) ltac:(lia)) as (z' & Z2 & Z3).
  assert (a' = a) by congruence. assert (z' = z) by congruence. subst a' z'.
  unfold glyph_offset. rewrite A2, Z3. cbn [bind]. rewrite (glyf_offset _ _ _ _ P T2).
  exists (x + a), (x + z). split; [auto|]. split; [auto|]. replace (x + z - (x + a)) with (z - a) by lia. exact E.
Qed.
Lemma outline_data : forall d t g o, Forall bytep d -> parsed d t -> outline d g o ->
  glyph_data t g = Ok o /\ glyph_size t g = Ok (blen o).
Proof.
  intros d t g o Hb P H. destruct (outline_found _ _ _ _ Hb P H) as (a & z & A & Z1 & E).
  destruct (bytes_at_some _ _ _ _ E) as (R1 & R2 & R3 & R4 & _).
  unfold glyph_data, glyph_size. rewrite A, Z1. cbn [bind]. split; [|f_equal; lia].
  destruct (Z.leb_spec z a).
  - f_equal. unfold blen in R4. destruct o; [auto|]. cbn [List.length] in R4. lia.
  - rewrite (p_data _ _ P). replace z with (a + (z - a)) by lia. apply bytes_at_slice. exact E.
Qed.

(** ** Reading components *)
Lemma ushort_at : forall d p v, u16 d p = Some v -> readUShortAt d p = Ok v.
Proof.
  intros d p v H. unfold readUShortAt. unfold u16 in H.
  destruct (u8 d p) as [a|] eqn:Ea; [|discriminate]. destruct (u8 d (p + 1)) as [b|] eqn:Eb; [|discriminate].
  assert (E : bytes_at d p 2 = Some [a; b]) by (rewrite bytes_at2, Ea, Eb; reflexivity).
  rewrite (bytes_at_slice _ _ _ _ E). cbn [bind]. f_equal. assert (v = 256 * a + b) by congruence. subst v.
  change (be [a; b]) with (256 * (256 * 0 + a) + b). lia.
Qed.
Lemma short_at : forall d p v, s16 d p = Some v -> readShortAt d p = Ok v.
Proof.
  intros d p v H. unfold s16 in H. destruct (u16 d p) as [u|] eqn:E; [|discriminate]. unfold readShortAt.
  rewrite (ushort_at _ _ _ E). cbn [bind]. f_equal. congruence.
Qed.

Definition add_all (gs l : list Z) : list Z := fold_left add_glyph l gs.

Lemma arg_size_pos : forall fl, 2 <= arg_size fl.
Proof. intros. unfold arg_size. destruct (Z.testbit fl 0), (Z.testbit fl 3), (Z.testbit fl 6), (Z.testbit fl 7); lia. Qed.

Lemma components_ok : forall o p l, comps o p l -> forall x y fuel gs, blen o - p < Z.of_nat fuel ->
  components fuel (x ++ o ++ y) (blen x + p) gs = Ok (add_all gs l).
Proof.
  intros o p l H. induction H as [p fl g Hf Hg H5|p fl g l Hf Hg H5 Hs H IH]; intros x y fuel gs Hfu;
    pose proof (u16_pos _ _ _ Hf); pose proof (u16_pos _ _ _ Hg); (destruct fuel as [|fuel]; [lia|]); cbn [components];
    rewrite (ushort_at _ (blen x + p) fl) by (rewrite u16_app by lia; auto); cbn [bind];
    rewrite (ushort_at _ (blen x + p + 2) g) by (rewrite <- Z.add_assoc, u16_app by lia; auto); cbn [bind];
    unfold flag; rewrite H5; cbn [negb].
  - reflexivity.
  - replace (blen x + p + 4 + _) with (blen x + (p + 4 + arg_size fl)).
    2:{ unfold arg_size. destruct (Z.testbit fl 7) eqn:E7.
        - destruct (Hs eq_refl) as [-> ->]. destruct (Z.testbit fl 0); lia.
        - destruct (Z.testbit fl 0), (Z.testbit fl 3), (Z.testbit fl 6); lia. }
    apply IH. pose proof (arg_size_pos fl). lia.
Qed.

Lemma comps_component : forall o p l, comps o p l -> forall g, In g l <-> component_at o p g.
Proof.
  intros o p l H. induction H as [p fl g Hf Hg H5|p fl g l Hf Hg H5 Hs H IH]; intros g'; split.
  - intros [->|[]]. eapply comp_here; eauto.
  - intros X. inversion X; subst; [left; congruence|]. assert (fl0 = fl) by congruence. subst. congruence.
  - intros [->|X]; [eapply comp_here; eauto|]. apply IH in X. eapply comp_next; eauto.
  - intros X. inversion X; subst; [left; congruence|]. assert (fl0 = fl) by congruence. subst. right. apply IH. auto.
Qed.

Lemma add_glyph_in : forall gs g x, In x (add_glyph gs g) <-> In x gs \/ x = g.
Proof.
  intros gs g x. unfold add_glyph. destruct (existsb (Z.eqb g) gs) eqn:E.
  - apply existsb_exists in E as (y & Hy & E). apply Z.eqb_eq in E. subst y. intuition congruence.
  - rewrite in_app_iff. cbn [In]. intuition.
Qed.
Lemma add_glyph_nodup : forall gs g, NoDup gs -> NoDup (add_glyph gs g).
Proof.
  intros gs g N. unfold add_glyph. destruct (existsb (Z.eqb g) gs) eqn:E; [auto|].
  apply NoDup_rev in N. rewrite <- (rev_involutive (gs ++ [g])). apply NoDup_rev. rewrite rev_app_distr. cbn [rev app].
  constructor; [|auto]. rewrite <- in_rev. intros I. rewrite <- not_true_iff_false in E. apply E. apply existsb_exists.
  exists g. split; [auto|apply Z.eqb_refl].
Qed.
Lemma add_all_in : forall l gs x, In x (add_all gs l) <-> In x gs \/ In x l.
Proof.
  induction l as [|g l IH]; intros gs x; cbn [add_all fold_left In]; [tauto|]. fold (add_all (add_glyph gs g) l).
  rewrite IH, add_glyph_in. intuition.
Qed.
Lemma add_all_nodup : forall l gs, NoDup gs -> NoDup (add_all gs l).
Proof. induction l as [|g l IH]; intros gs N; cbn [add_all fold_left]; [auto|]. apply IH. apply add_glyph_nodup. auto. Qed.

(** One glyph *)
Lemma add_composite_ok : forall d t beyond g o gs, Forall bytep d -> parsed d t ->
  outline d g o -> well_formed o ->
  exists l, add_composite t beyond gs g = Ok (add_all gs l) /\ forall c, In c l <-> component o c.
Proof.
  intros d t beyond g o gs Hb P Ho Hw. destruct (outline_found _ _ _ _ Hb P Ho) as (a & z & A & Z1 & E).
  destruct (bytes_at_some _ _ _ _ E) as (R1 & R2 & R3 & R4 & x & y & Hd & Hx).
  unfold add_composite. rewrite A, Z1. cbn [bind]. destruct (Z.eqb_spec a z) as [Haz|Naz].
  { exists []. split; [reflexivity|]. assert (o = []) by (unfold blen in R4; destruct o; [auto|cbn [List.length] in R4; lia]). subst o.
    intros c. split; [intros []|]. intros (n & S & _). unfold s16, u16, u8 in S. cbn in S. discriminate. }
  destruct Hw as [->|(n & Sn & Hw)]; [exfalso; change (blen []) with 0 in R4; lia|].
  rewrite (p_data _ _ P).
  assert (HS : 2 <= blen o). { unfold s16 in Sn. destruct (u16 o 0) eqn:U; [|discriminate]. apply u16_pos in U. lia. }
  assert (HD : d ++ beyond = x ++ o ++ y ++ beyond) by (rewrite Hd, <- !app_assoc; reflexivity).
  rewrite (short_at _ a n).
  2:{ rewrite HD. rewrite <- Hx. rewrite <- (Z.add_0_r (blen x)). rewrite s16_app by lia. auto. }
  cbn [bind]. destruct (Z.leb_spec 0 n).
  - exists []. split; [reflexivity|]. intros c. split; [intros []|]. intros (n' & S' & L & _). assert (n' = n) by congruence. lia.
  - destruct Hw as [Hw|(l & Hl)]; [lia|]. exists l. split.
    + rewrite HD, <- Hx. apply components_ok; [exact Hl|]. rewrite !app_length. unfold blen. lia.
    + intros c. rewrite (comps_component _ _ _ Hl c). split.
      * intros H1. exists n. auto.
      * intros (n' & _ & _ & H1). auto.
Qed.

Lemma closure_loop_ok : forall d t beyond, Forall bytep d -> parsed d t -> forall vs gs, Forall (drawable d) vs ->
  exists gs', closure_loop t beyond vs gs = Ok gs' /\ (NoDup gs -> NoDup gs') /\
    (forall g, In g gs' <-> In g gs \/ exists v o, In v vs /\ outline d v o /\ component o g).
Proof.
  intros d t beyond Hb P. induction vs as [|v vs IH]; intros gs F; cbn [closure_loop].
  - exists gs. split; [auto|]. split; [auto|]. intros g. split; [auto|]. intros [H|(v & o & [] & _)]. auto.
  - inversion F as [|? ? (o & Ho & Hw) F']; subst.
    destruct (add_composite_ok d t beyond v o gs Hb P Ho Hw) as (l & E & Hl). rewrite E. cbn [bind].
    destruct (IH (add_all gs l) F') as (gs' & E' & N & I). exists gs'. split; [auto|]. split.
    + intros H. apply N. apply add_all_nodup. auto.
    + intros g. rewrite I, add_all_in, Hl. split.
      * intros [[H|H]|(v' & o' & H1 & H2 & H3)]; [auto| |].
        -- right. exists v, o. split; [left|]; auto.
        -- right. exists v', o'. split; [right|]; auto.
      * intros [H|(v' & o' & [->|H1] & H2 & H3)]; [auto| |].
        -- left. right. rewrite (outline_unique _ _ _ _ Ho H2). auto.
        -- right. exists v', o'. auto.
Qed.

Definition glyphs (m : charmap) : list Z := map snd m.
Lemma closure_ok : forall d t beyond m, Forall bytep d -> parsed d t -> Forall (drawable d) (glyphs m) ->
  exists gs, glyph_closure t beyond m = Ok gs /\ (NoDup (glyphs m) -> NoDup gs) /\
    (forall g, In g gs <-> In g (glyphs m) \/ g = 0 \/ exists v o, In v (glyphs m) /\ outline d v o /\ component o g).
Proof.
  intros d t beyond m Hb P F. unfold glyph_closure. fold (glyphs m). change (map snd m) with (glyphs m).
  destruct (closure_loop_ok d t beyond Hb P (glyphs m) (add_glyph (glyphs m) 0) F) as (gs & E & N & I).
  exists gs. split; [exact E|]. split.
  - intros H. apply N. apply add_glyph_nodup. auto.
  - intros g. rewrite I, add_glyph_in. tauto.
Qed.
