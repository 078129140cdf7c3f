(** Reading the embedded font: tables and outlines. *)
From Coq Require Import String List ZArith Lia Bool Sorted Permutation.
From Verif Require Import Base BaseProofs Ttf TtfSpec TtfProofs TtfTables Subset FontFile FontGlyphs FontClosure.
Open Scope Z_scope.
Open Scope list_scope.

Lemma bytes_at_u16 : forall d off len b p, bytes_at d off len = Some b -> 0 <= p -> p + 2 <= blen b -> u16 d (off + p) = u16 b p.
Proof. intros d off len b p H H1 H2. apply bytes_at_some in H as (_ & _ & _ & _ & x & y & -> & <-). apply u16_app; auto. Qed.
Lemma bytes_at_u32 : forall d off len b p, bytes_at d off len = Some b -> 0 <= p -> p + 4 <= blen b -> u32 d (off + p) = u32 b p.
Proof. intros d off len b p H H1 H2. apply bytes_at_some in H as (_ & _ & _ & _ & x & y & -> & <-). apply u32_app; auto. Qed.
Lemma bytes_at_sub : forall d off len b p n, bytes_at d off len = Some b -> 0 <= p -> 0 <= n -> p + n <= blen b -> bytes_at d (off + p) n = bytes_at b p n.
Proof. intros d off len b p n H H1 H2 H3. apply bytes_at_some in H as (_ & _ & _ & _ & x & y & -> & <-). apply bytes_at_app; auto. Qed.
Lemma bytes_at_more : forall d off len b y, bytes_at d off len = Some b -> bytes_at (d ++ y) off len = Some b.
Proof.
  intros d off len b y H. pose proof (bytes_at_some _ _ _ _ H) as (H1 & H2 & H3 & _).
  rewrite <- H. apply (bytes_at_app [] d y off len); auto.
Qed.

(** ** The parts of the file *)
Lemma fill_le : forall t n idx gs off size b l, fill t n idx gs off size = Ok (b, l) -> off <= size -> off + blen b <= size.
Proof.
  intros t. induction n as [|n IH]; intros idx gs off size b l H L; cbn [fill] in H.
  - injection H as <- <-. change (blen []) with 0. lia.
  - destruct gs as [|g gs'].
    + apply bind_ok in H as ([r l'] & E & H). injection H as <- <-. eauto.
    + destruct (g =? idx).
      * apply bind_ok in H as (p & G & H). destruct (Z.ltb_spec size (off + blen p)); [discriminate|].
        apply bind_ok in H as ([r l'] & E & H). injection H as <- <-. apply IH in E; [|lia]. rewrite blen_app. lia.
      * apply bind_ok in H as ([r l'] & E & H). injection H as <- <-. eauto.
Qed.

Lemma glyf_and_loca_ok : forall t beyond m glyf loca, glyf_and_loca t beyond m = Ok (glyf, loca) ->
  exists gs b size, glyph_closure t beyond m = Ok gs /\ fill t (Z.to_nat (numGlyphs t)) 0 (sort gs) 0 size = Ok (b, loca) /\
    (exists k, glyf = b ++ repeat 0 k) /\ blen glyf mod 4 = 0.
Proof.
  intros t beyond m glyf loca H. unfold glyf_and_loca in H. apply bind_ok in H as (gs & G & H). cbv zeta in H.
  apply bind_ok in H as (size & S & H). destruct (Z.ltb_spec (paddedLength size) 0); [discriminate|].
  apply bind_ok in H as ([b l] & F & H). assert (l = loca) by congruence. subst l.
  assert (E : glyf = b ++ repeat 0 (Z.to_nat (paddedLength size - blen b))) by congruence.
  exists gs, b, (paddedLength size). split; [auto|]. split; [auto|]. split; [eauto|].
  apply fill_le in F; [|lia]. subst glyf. rewrite blen_app, blen_repeat.
  replace (blen b + _) with (paddedLength size) by lia. apply padded_mod.
Qed.

Lemma at_tag : forall l k tag, map (fun x : bytes * bytes * Z * Z => fst (fst (fst x))) l = tags -> nth_error tags k = Some tag ->
  exists data cs len, nth_error l k = Some (tag, data, cs, len).
Proof.
  intros l k tag H E. rewrite <- H, nth_error_map in E. destruct (nth_error l k) as [[[[tag' data] cs] len]|]; [|discriminate].
  cbn in E. injection E as ->. eauto.
Qed.

Lemma loca_bytes_len : forall short l, blen (loca_bytes short l) mod 4 = 0 /\ Z.of_nat (List.length l) * (if short then 2 else 4) <= blen (loca_bytes short l).
Proof.
  intros short l. unfold loca_bytes. set (d := if short then _ else _).
  assert (L : blen d = Z.of_nat (List.length l) * (if short then 2 else 4)).
  { unfold d. destruct short; clear d; induction l as [|v l IH]; try reflexivity; cbn [flat_map List.length]; rewrite blen_app, IH, ?be2_len, ?be4_len; lia. }
  rewrite blen_app, blen_repeat. pose proof (padded_le (blen d)). split; [|lia].
  replace (blen d + _) with (paddedLength (blen d)) by lia. apply padded_mod.
Qed.

(** What a made table is *)
Lemma made_cases : forall t beyond glyf loca tag data cs len, blen glyf mod 4 = 0 -> made t beyond glyf loca (tag, data, cs, len) ->
  (tag = B"glyf" /\ data = glyf /\ cs = words glyf mod 4294967296 /\ len = blen glyf) \/
  (tag = B"loca" /\ data = loca_bytes (isShortIndex t) loca /\ cs = words data mod 4294967296 /\ len = Z.of_nat (List.length loca) * (if isShortIndex t then 2 else 4)) \/
  (tag <> B"glyf" /\ tag <> B"loca" /\ exists e, e = table0 (tables t) tag /\ cs = checkSum e /\ len = tlength e /\
     bytes_at (fontData t ++ beyond) (toffset e) (paddedLength len) = Some data).
Proof.
  intros t beyond glyf loca tag data cs len Hg H. unfold made, font_table in H.
  destruct (beqb_spec tag (B"glyf")) as [->|N1].
  - left. rewrite check_sum_ok in H by auto. cbn [bind] in H. rewrite padded_same in H by auto.
    apply bind_ok in H as (b & S & H). apply slice_bytes_at in S. rewrite Z.sub_0_r, bytes_at_all in S.
    repeat split; congruence.
  - destruct (beqb_spec tag (B"loca")) as [->|N2].
    + right. left. cbv zeta in H. rewrite check_sum_ok in H by apply loca_bytes_len. cbn [bind] in H. repeat split; congruence.
    + right. right. split; [auto|]. split; [auto|]. exists (table0 (tables t) tag). split; [auto|].
      apply bind_ok in H as (b & S & H). apply slice_bytes_at in S.
      replace (toffset _ + _ - toffset _) with (paddedLength (tlength (table0 (tables t) tag))) in S by lia.
      assert (b = data) by congruence. assert (len = tlength (table0 (tables t) tag)) by congruence. subst. repeat split; congruence.
Qed.

(** The whole file, cut up *)
Definition cut (d : bytes) (t : ttf) (beyond : bytes) (m : charmap) (f : bytes) (gs : list Z) (b glyf : bytes) (loca : list Z) (l : list (bytes * bytes * Z * Z)) : Prop :=
  glyph_closure t beyond m = Ok gs /\ (exists size, fill t (Z.to_nat (numGlyphs t)) 0 (sort gs) 0 size = Ok (b, loca)) /\
  (exists k, glyf = b ++ repeat 0 k) /\ blen glyf mod 4 = 0 /\
  map (fun x => fst (fst (fst x))) l = tags /\ Forall (made t beyond glyf loca) l /\ f = header ++ dirs l 156 ++ datas l /\
  Forall fits l /\ Forall (fun x => blen (data_of x) mod 4 = 0) l.

Lemma cut_ok : forall d t beyond m f, Forall bytep d -> parsed d t -> make_font t beyond m = Ok f -> blen f < 4294967296 ->
  exists gs b glyf loca l, cut d t beyond m f gs b glyf loca l.
Proof.
  intros d t beyond m f Hb P H Hs. destruct (make_font_ok _ _ _ _ H) as (glyf & loca & l & G & L1 & L2 & L3).
  destruct (glyf_and_loca_ok _ _ _ _ _ G) as (gs & b & size & G1 & G2 & G3 & G4).
  exists gs, b, glyf, loca, l. unfold cut. repeat (split; [eauto; fail|]).
  assert (Hd : forall x, In x l -> blen (data_of x) <= blen f).
  { intros x Hx. apply In_nth_error in Hx as (i & Hi). subst f. rewrite !blen_app, (datas_split _ _ _ Hi), !blen_app.
    pose proof (blen_nonneg header). pose proof (blen_nonneg (dirs l 156)). pose proof (blen_nonneg (datas (firstn i l))).
    pose proof (blen_nonneg (datas (skipn (S i) l))). lia. }
  split; apply Forall_forall; intros [[[tag data] cs] len] Hx; rewrite Forall_forall in L2; pose proof (L2 _ Hx) as M; apply Hd in Hx;
    cbn [data_of] in Hx; destruct (made_cases _ _ _ _ _ _ _ _ G4 M) as [(-> & -> & -> & ->)|[(-> & -> & -> & ->)|(_ & _ & e & -> & -> & -> & E)]]; cbn [fits data_of].
  - split; [apply Z.mod_pos_bound; lia|]. pose proof (blen_nonneg glyf). lia.
  - split; [apply Z.mod_pos_bound; lia|]. pose proof (loca_bytes_len (isShortIndex t) loca) as [_ X]. destruct (isShortIndex t); lia.
  - unfold table0. destruct (table_of (tables t) tag) as [e|] eqn:T; cbn; [|lia].
    apply (table_range _ _ _ _ Hb (p_dir _ _ P)) in T. lia.
  - exact G4.
  - apply loca_bytes_len.
  - apply bytes_at_some in E as (_ & _ & _ & -> & _). apply padded_mod.
Qed.

Lemma cut_table : forall d t beyond m f gs b glyf loca l k tag, cut d t beyond m f gs b glyf loca l -> blen f < 4294967296 ->
  nth_error tags k = Some tag ->
  exists data cs len, nth_error l k = Some (tag, data, cs, len) /\ has_table f tag (pos_of l k) len /\
    dir_sum f (Z.of_nat k) = Some cs /\ bytes_at f (pos_of l k) (blen data) = Some data /\ made t beyond glyf loca (tag, data, cs, len) /\
    pos_of l k mod 4 = 0.
Proof.
  intros d t beyond m f gs b glyf loca l k tag (C1 & C2 & C3 & C4 & C5 & C6 & C7 & C8 & C9) Hs Hk.
  destruct (at_tag _ _ _ C5 Hk) as (data & cs & len & E). exists data, cs, len. split; [auto|]. subst f.
  split; [eapply file_table; eauto|]. destruct (made_tag4 _ C5) as [T4 Hl].
  destruct (file_entry l k tag data cs len T4 Hl C8 Hs E) as (_ & S & _ & _ & D). split; [auto|]. split; [auto|].
  split; [rewrite Forall_forall in C6; apply C6; eapply nth_error_In; eauto|].
  unfold pos_of. rewrite Z.add_mod by lia. rewrite datas_aligned by (apply Forall_firstn; auto). reflexivity.
Qed.

(** ** Copied tables *)
Lemma copied_index : forall tag, In tag copied_tags -> exists k, nth_error tags k = Some tag /\ tag <> B"glyf" /\ tag <> B"loca".
Proof.
  intros tag H. cbn in H.
  repeat (destruct H as [<-|H]; [match goal with |- exists k, nth_error tags k = Some ?x /\ _ =>
    first [exists 0%nat; split; [reflexivity|]; split; discriminate | exists 1%nat; split; [reflexivity|]; split; discriminate
      | exists 3%nat; split; [reflexivity|]; split; discriminate | exists 4%nat; split; [reflexivity|]; split; discriminate
      | exists 5%nat; split; [reflexivity|]; split; discriminate | exists 7%nat; split; [reflexivity|]; split; discriminate
      | exists 8%nat; split; [reflexivity|]; split; discriminate] end|]). destruct H.
Qed.

Lemma copied : forall d t beyond m f tag b, Forall bytep d -> parsed d t -> make_font t beyond m = Ok f -> blen f < 4294967296 ->
  In tag copied_tags -> table d tag b -> table f tag b.
Proof.
  intros d t beyond m f tag b Hb P H Hs Hi (off & len & T & Bt).
  destruct (cut_ok _ _ _ _ _ Hb P H Hs) as (gs & fb & glyf & loca & l & C).
  destruct (copied_index _ Hi) as (k & Hk & N1 & N2).
  destruct (cut_table _ _ _ _ _ _ _ _ _ _ _ _ C Hs Hk) as (data & cs & len' & E & T' & _ & D & M & _).
  destruct C as (_ & _ & _ & G4 & _).
  destruct (made_cases _ _ _ _ _ _ _ _ G4 M) as [(-> & _)|[(-> & _)|(_ & _ & e & -> & -> & -> & X)]]; [congruence|congruence|].
  destruct (table_spec _ _ _ _ _ (p_dir _ _ P) T) as (e & Ee & Eo & El). unfold table0 in *. rewrite Ee in *. subst off len.
  exists (pos_of l k), (tlength e). split; [exact T'|].
  rewrite (p_data _ _ P) in X. pose proof (bytes_at_some _ _ _ _ X) as (X1 & X2 & X3 & X4 & _).
  pose proof (bytes_at_some _ _ _ _ Bt) as (Y1 & Y2 & Y3 & Y4 & _). pose proof (padded_le (tlength e)).
  rewrite <- (Z.add_0_r (pos_of l k)). rewrite (bytes_at_sub _ _ _ _ 0 _ D) by lia.
  rewrite <- (bytes_at_sub _ _ _ _ 0 _ X) by lia. rewrite Z.add_0_r. apply bytes_at_more. exact Bt.
Qed.

(** ** Locations *)
Lemma flat_be2 : forall l i v y, nth_error l i = Some v -> 0 <= v / 2 < 65536 -> u16 (flat_map (fun v => be2 (v / 2)) l ++ y) (2 * Z.of_nat i) = Some (v / 2).
Proof.
  induction l as [|a l IH]; intros i v y H R; [destruct i; discriminate|]. cbn [flat_map]. rewrite <- app_assoc. destruct i as [|i].
  - injection H as ->. rewrite <- (be2_u16 _ R). apply (u16_app [] (be2 (v / 2)) _ 0); rewrite ?be2_len; lia.
  - cbn [nth_error] in H. specialize (IH i v y H R). rewrite <- IH.
    replace (2 * Z.of_nat (S i)) with (blen (be2 (a / 2)) + 2 * Z.of_nat i) by (rewrite be2_len; lia).
    apply u16_pos in IH. rewrite <- (app_nil_r (flat_map _ l ++ y)) at 1. apply u16_app; lia.
Qed.
Lemma flat_be4 : forall l i v y, nth_error l i = Some v -> 0 <= v < 4294967296 -> u32 (flat_map be4 l ++ y) (4 * Z.of_nat i) = Some v.
Proof.
  induction l as [|a l IH]; intros i v y H R; [destruct i; discriminate|]. cbn [flat_map]. rewrite <- app_assoc. destruct i as [|i].
  - injection H as ->. rewrite <- (be4_u32 _ R). apply (u32_app [] (be4 v) _ 0); rewrite ?be4_len; lia.
  - cbn [nth_error] in H. specialize (IH i v y H R). rewrite <- IH.
    replace (4 * Z.of_nat (S i)) with (blen (be4 a) + 4 * Z.of_nat i) by (rewrite be4_len; lia).
    apply u32_pos in IH. rewrite <- (app_nil_r (flat_map _ l ++ y)) at 1. apply u32_app; lia.
Qed.

(** New locations do not grow beyond the old ones and stay even *)
Lemma fill_bound : forall t (A : Z -> Z) n idx gs off size b loca, fill t n idx gs off size = Ok (b, loca) ->
  (forall i, idx <= i < idx + Z.of_nat n -> A i <= A (i + 1) /\ forall o, glyph_data t i = Ok o -> blen o = A (i + 1) - A i) ->
  forall k v, nth_error loca k = Some v -> v - off <= A (idx + Z.of_nat k) - A idx.
Proof.
  intros t A. induction n as [|n IH]; intros idx gs off size b loca H HA k v E; cbn [fill] in H.
  - injection H as <- <-. destruct k as [|[|k]]; try discriminate. injection E as <-. rewrite Z.add_0_r. lia.
  - assert (K : forall gs' p r l, fill t n (idx + 1) gs' (off + p) size = Ok (r, l) -> p <= A (idx + 1) - A idx -> loca = off :: l ->
       v - off <= A (idx + Z.of_nat k) - A idx).
    { intros gs' p r l F Hp ->. destruct k as [|k]; [injection E as <-; rewrite Z.add_0_r; lia|]. cbn [nth_error] in E.
      specialize (IH _ _ _ _ _ _ F). specialize (IH ltac:(intros i Hi; apply HA; lia) _ _ E).
      replace (idx + Z.of_nat (S k)) with (idx + 1 + Z.of_nat k) by lia. lia. }
    destruct (HA idx ltac:(lia)) as [Hm Ho].
    destruct gs as [|g gs'].
    + apply bind_ok in H as ([r l'] & F & H). apply (K [] 0 r l'); [rewrite Z.add_0_r; auto|lia|congruence].
    + destruct (Z.eqb_spec g idx) as [->|].
      * apply bind_ok in H as (p & G & H). destruct (size <? off + blen p); [discriminate|].
        apply bind_ok in H as ([r l'] & F & H). apply (K gs' (blen p) r l'); [auto|rewrite (Ho _ G); lia|congruence].
      * apply bind_ok in H as ([r l'] & F & H). apply (K (g :: gs') 0 r l'); [rewrite Z.add_0_r; auto|lia|congruence].
Qed.
Lemma fill_even : forall t n idx gs off size b loca, fill t n idx gs off size = Ok (b, loca) -> off mod 2 = 0 ->
  (forall i o, idx <= i < idx + Z.of_nat n -> glyph_data t i = Ok o -> blen o mod 2 = 0) ->
  forall k v, nth_error loca k = Some v -> v mod 2 = 0.
Proof.
  intros t. induction n as [|n IH]; intros idx gs off size b loca H He HA k v E; cbn [fill] in H.
  - injection H as <- <-. destruct k as [|[|k]]; try discriminate. injection E as <-. auto.
  - assert (K : forall gs' p r l, fill t n (idx + 1) gs' (off + p) size = Ok (r, l) -> p mod 2 = 0 -> loca = off :: l -> v mod 2 = 0).
    { intros gs' p r l F Hp ->. destruct k as [|k]; [injection E as <-; auto|]. cbn [nth_error] in E.
      apply (IH _ _ _ _ _ _ F) with (k := k); auto.
      - rewrite Z.add_mod, He, Hp by lia. reflexivity.
      - intros i o Hi. apply HA. lia. }
    destruct gs as [|g gs'].
    + apply bind_ok in H as ([r l'] & F & H). apply (K [] 0 r l'); [rewrite Z.add_0_r; auto|reflexivity|congruence].
    + destruct (Z.eqb_spec g idx) as [->|].
      * apply bind_ok in H as (p & G & H). destruct (size <? off + blen p); [discriminate|].
        apply bind_ok in H as ([r l'] & F & H). apply (K gs' (blen p) r l'); [auto|apply (HA idx p); [lia|auto]|congruence].
      * apply bind_ok in H as ([r l'] & F & H). apply (K (g :: gs') 0 r l'); [rewrite Z.add_0_r; auto|reflexivity|congruence].
Qed.

(** ** Outlines *)
Lemma outline_pos : forall d t g o, Forall bytep d -> parsed d t -> outline d g o ->
  exists h hl l ll a z, has_table d (B"head") h hl /\ has_table d (B"loca") l ll /\
    at_ (locaTable t) g = Ok a /\ at_ (locaTable t) (g + 1) = Ok z /\ z - a = blen o /\ a <= z /\
    loca_entry d (indexToLocFormat t) l g = Some a /\ loca_entry d (indexToLocFormat t) l (g + 1) = Some z.
Proof.
  intros d t g o Hb P (h & hl & x & xl & l & ll & fm & a & z & T1 & T2 & T3 & F & G1 & G2 & A & Z1 & E).
  destruct (head_ok _ _ _ _ Hb P T1) as [_ Hf]. assert (fm = indexToLocFormat t) by congruence. subst fm.
  destruct (loca_ok _ _ _ _ Hb P T3) as (_ & LL & N).
  assert (Hg : g + 1 < Z.of_nat (List.length (locaTable t))).
  { rewrite LL. apply Z.lt_le_trans with (g + 2); [lia|]. apply Z.div_le_lower_bound; destruct (indexToLocFormat t =? 0); lia. }
  destruct (N g ltac:(lia)) as (a' & A1 & A2). destruct (N (g + 1) ltac:(lia)) as (z' & Z2 & Z3).
  assert (a' = a) by congruence. assert (z' = z) by congruence. subst a' z'.
  exists h, hl, l, ll, a, z. repeat (split; [assumption|]). apply bytes_at_some in E as (_ & E1 & _ & E2 & _).
  split; [lia|]. split; [lia|]. auto.
Qed.

Theorem embedded : forall d t beyond m f n hb gs, Forall bytep d -> parsed d t -> num_glyphs d n ->
  (forall g, 0 <= g < n -> exists o, outline d g o) -> table d (B"head") hb -> 52 <= blen hb ->
  make_font t beyond m = Ok f -> blen f < 4294967296 -> glyph_closure t beyond m = Ok gs ->
  forall g o, 0 <= g < n -> outline d g o -> outline f g (if taken (sort gs) 0 g then o else []).
Proof.
  intros d t beyond m f n hb gs0 Hb P Hn Hall Hh Hl Hm Hs Hgs g o Hg Ho.
  pose proof (maxp_ok _ _ _ Hb P Hn) as Hng.
  destruct (cut_ok _ _ _ _ _ Hb P Hm Hs) as (gs & b & glyf & loca & l & C).
  pose proof C as (C1 & (size & C2) & (kz & C3) & C4 & _). assert (gs0 = gs) by congruence. subst gs0.
  destruct (fill_ok _ _ _ _ _ _ _ _ C2) as (F1 & F2 & F3 & F4).
  destruct (F4 g ltac:(lia)) as (a & z & o' & A1 & A2 & R1 & R2 & R3 & R4 & R5).
  assert (Eo : o' = if taken (sort gs) 0 g then o else []).
  { destruct (taken (sort gs) 0 g); [|auto]. pose proof (outline_data _ _ _ _ Hb P Ho) as [X _]. congruence. }
  rewrite <- Eo. clear Eo R5. rewrite Z.sub_0_r in A1, A2.
  (* head *)
  assert (Hin : In (B"head") copied_tags) by (do 2 right; left; reflexivity).
  pose proof (copied _ _ _ _ _ _ _ Hb P Hm Hs Hin Hh) as (hp & hlen & Th & Bh).
  assert (Efmt : s16 f (hp + 50) = Some (indexToLocFormat t)).
  { destruct Hh as (off & len & T & Bt). destruct (head_ok _ _ _ _ Hb P T) as [_ E]. unfold s16 in *.
    rewrite (bytes_at_u16 _ _ _ _ 50 Bt) in E by lia. rewrite (bytes_at_u16 _ _ _ _ 50 Bh) by lia. exact E. }
  (* glyf *)
  destruct (cut_table _ _ _ _ _ _ _ _ _ _ 2%nat (B"glyf") C Hs eq_refl) as (dg & csg & lg & _ & Tg & _ & Dg & Mg & _).
  destruct (made_cases _ _ _ _ _ _ _ _ C4 Mg) as [(_ & -> & _ & ->)|[(X & _)|(X & _)]]; [|discriminate|congruence].
  (* loca *)
  destruct (cut_table _ _ _ _ _ _ _ _ _ _ 6%nat (B"loca") C Hs eq_refl) as (dl & csl & ll & _ & Tl & _ & Dl & Ml & _).
  destruct (made_cases _ _ _ _ _ _ _ _ C4 Ml) as [(X & _)|[(_ & -> & _ & ->)|(_ & X & _)]]; [discriminate| |congruence].
  assert (Bl : blen glyf <= blen f) by (apply bytes_at_some in Dg; pose proof (blen_nonneg glyf); lia).
  assert (Bb : blen b <= blen glyf) by (rewrite C3, blen_app; pose proof (blen_nonneg (repeat 0 kz)); lia).
  destruct (outline_pos _ _ _ _ Hb P Ho) as (h1 & hl1 & l1 & ll1 & _ & _ & _ & Tl1 & _).
  destruct (loca_ok _ _ _ _ Hb P Tl1) as (Sh & _ & _). clear h1 hl1.
  assert (Ent : forall k v, 0 <= k <= n -> nth_error loca (Z.to_nat k) = Some v -> 0 <= v < 4294967296 -> loca_entry f (indexToLocFormat t) (pos_of l 6) k = Some v).
  { intros k v Hk E Hv. unfold loca_entry. rewrite <- Sh. pose proof (loca_bytes_len (isShortIndex t) loca) as [_ LB].
    unfold loca_bytes in *. destruct (isShortIndex t) eqn:Es.
    - assert (Hf0 : indexToLocFormat t = 0) by (symmetry in Sh; apply Z.eqb_eq in Sh; auto).
      assert (Old : forall i, 0 <= i < n -> exists x y, at_ (locaTable t) i = Ok (2 * x) /\ at_ (locaTable t) (i + 1) = Ok (2 * y) /\
         0 <= x <= 65535 /\ 0 <= y <= 65535 /\ x <= y /\ forall o, glyph_data t i = Ok o -> blen o = 2 * y - 2 * x).
      { intros i Hi. destruct (Hall i Hi) as (oi & Hoi).
        destruct (outline_pos _ _ _ _ Hb P Hoi) as (h1 & hl1 & l2 & ll2 & p & q & _ & _ & P1 & P2 & P3 & P4 & P5 & P6).
        unfold loca_entry in P5, P6. rewrite Hf0 in P5, P6. cbn [Z.eqb] in P5, P6.
        destruct (u16 d (l2 + 2 * i)) as [x|] eqn:U1; [|discriminate]. destruct (u16 d (l2 + 2 * (i + 1))) as [y|] eqn:U2; [|discriminate].
        assert (p = 2 * x) by congruence. assert (q = 2 * y) by congruence. subst p q.
        apply (u16_range _ _ _ Hb) in U1. apply (u16_range _ _ _ Hb) in U2.
        exists x, y. repeat (split; [first [assumption|lia]|]). intros oo Eoo.
        pose proof (outline_data _ _ _ _ Hb P Hoi) as [X _]. assert (oo = oi) by congruence. subst oo. lia. }
      assert (Hv2 : v <= 131070 /\ v mod 2 = 0).
      { split.
        - pose proof (fill_bound t (fun i => match at_ (locaTable t) i with Ok a => a | _ => 0 end) _ _ _ _ _ _ _ C2) as FB.
          specialize (FB ltac:(intros i Hi; destruct (Old i ltac:(lia)) as (x & y & X1 & X2 & X3 & X4 & X5 & X6); rewrite X1, X2; split; [lia|exact X6]) _ _ E).
          cbn beta in FB. rewrite Z2Nat.id, Z.add_0_l in FB by lia.
          destruct (Old 0 ltac:(lia)) as (x & y & X1 & _ & X3 & _). rewrite X1 in FB.
          destruct (Z.eq_dec k n) as [->|].
          + destruct (Old (n - 1) ltac:(lia)) as (x' & y' & _ & Y2 & _ & Y4 & _). replace (n - 1 + 1) with n in Y2 by lia. rewrite Y2 in FB. lia.
          + destruct (Old k ltac:(lia)) as (x' & y' & Y1 & _ & Y3 & _). rewrite Y1 in FB. lia.
        - apply (fill_even _ _ _ _ _ _ _ _ C2 eq_refl) with (k := Z.to_nat k); [|exact E].
          intros i oo Hi X. destruct (Old i ltac:(lia)) as (x & y & _ & _ & _ & _ & _ & X6). rewrite (X6 _ X).
          replace (2 * y - 2 * x) with ((y - x) * 2) by ring. apply Z.mod_mul. lia. }
      destruct Hv2 as [V1 V2].
      assert (Hlen : Z.of_nat (List.length loca) = n + 1) by lia.
      rewrite (bytes_at_u16 _ _ _ _ _ Dl) by lia.
      replace k with (Z.of_nat (Z.to_nat k)) by lia. rewrite (flat_be2 _ _ v); [|exact E|split; [apply Z.div_pos|apply Z.div_lt_upper_bound]; lia].
      f_equal. pose proof (Z.div_mod v 2). lia.
    - assert (Hlen : Z.of_nat (List.length loca) = n + 1) by lia.
      rewrite (bytes_at_u32 _ _ _ _ _ Dl) by lia. replace k with (Z.of_nat (Z.to_nat k)) by lia. apply flat_be4; auto. }
  exists hp, hlen, (pos_of l 2), (blen glyf), (pos_of l 6), (Z.of_nat (List.length loca) * (if isShortIndex t then 2 else 4)), (indexToLocFormat t), a, z.
  repeat (split; [assumption|]). split; [lia|].
  split; [rewrite Sh; destruct (indexToLocFormat t =? 0); lia|].
  split; [apply Ent; [lia|exact A1|lia]|]. split; [apply Ent; [lia|exact A2|lia]|].
  rewrite !Z.sub_0_r in R4. rewrite (bytes_at_sub _ _ _ _ a _ Dg) by lia.
  unfold bytes_at. destruct (Z.leb_spec 0 a); [|lia]. destruct (Z.leb_spec 0 (z - a)); [|lia]. destruct (Z.leb_spec (a + (z - a)) (blen glyf)); [|lia].
  cbn [andb]. f_equal. rewrite R4. unfold piece. rewrite C3.
  rewrite skipn_app, firstn_app. replace (Z.to_nat (z - a) - List.length (skipn (Z.to_nat a) b))%nat with 0%nat by (rewrite skipn_length; unfold blen in *; lia).
  rewrite firstn_O, app_nil_r. reflexivity.
Qed.
