(** The statements of Prop_Font.v put together. *)
From Coq Require Import String List ZArith Lia Bool.
From Verif Require Import Base BaseProofs Utf8 PdfSyntax PdfSyntaxProofs HexProofs Ttf TtfSpec TtfProofs TtfTables TtfCmap Subset CharMap FontFile FontClosure FontObjects FontFinal FontLayout TestFont.
Open Scope Z_scope.
Open Scope list_scope.

Lemma characters_have_glyphs : forall d t before s m', Forall bytep d -> blen d < 4611686018427387904 -> parseTtf d = Ok t ->
  let m := add_texts t before [] in
  add_chars t s m = (m', Ok tt) ->
  (exists k, m' = m ++ k) /\ NoDup (map fst m') /\
  forall r, In r (runes s) -> exists g, In (r, g) m' /\ char_index m' r = Ok g /\
    (forall cmap len off sx i, 0 <= r <= 65535 -> has_table d (B"cmap") cmap len -> cmap_subtable d cmap 3 1 off ->
       u16 d (cmap + off + 6) = Some sx -> segment d (cmap + off) (sx / 2) r i -> in_array4 d (cmap + off) r -> glyph_of4 d (cmap + off) r g) /\
    (forall cmap len off, 65535 < r -> has_table d (B"cmap") cmap len -> cmap_subtable d cmap 3 10 off -> glyph_of12 d (cmap + off) r g).
Proof.
  intros d t before s m' Hb Hl P m H. destruct (add_texts_good t before [] (good_nil t)) as (G & _). fold m in G.
  unfold add_chars in H. destruct (add_runes_grows _ _ _ _ _ H G) as (G' & k & E & _). split; [eauto|]. split; [apply G'|].
  intros r Hr. destruct (add_runes_all _ _ _ _ H G r Hr) as (g & Eg & V). exists g. split; [apply val_of_in; auto|].
  split; [unfold char_index; rewrite V; reflexivity|]. split.
  - intros cmap len off sx i Hr2 T Sb X Sg A. destruct (lookup4 _ _ _ _ _ _ _ _ Hb Hl P T Sb Hr2 X Sg A) as (g' & E1 & E2). congruence.
  - intros cmap len off Hr2 T Sb. eapply lookup12_sound; eauto.
Qed.

Lemma characters_stop : forall t before s m' o, let m := add_texts t before [] in add_chars t s m = (m', o) -> o <> Ok tt ->
  exists a r b, runes s = a ++ r :: b /\ (forall g, glyph_index t r <> Ok g) /\ forall x, In x a -> exists g, In (x, g) m'.
Proof.
  intros t before s m' o m H N. destruct (add_texts_good t before [] (good_nil t)) as (G & _). fold m in G.
  destruct (add_runes_stops _ _ _ _ _ H G N) as (a & r & b & E & X & K). exists a, r, b. split; [auto|]. split; [auto|].
  intros x Hx. specialize (K x Hx). destruct (val_of m' x) as [g|] eqn:V; [|congruence]. exists g. apply val_of_in. auto.
Qed.

Lemma widths_written : forall d t m family desc o, Forall bytep d -> parseTtf d = Ok t -> plain_name family ->
  cid_obj t m family desc = Ok o ->
  exists dict ws, reads o (PDict dict) [10] /\ lookup (B"W") dict = Some (PArr ws) /\
    lookup (B"FontDescriptor") dict = Some (PRef desc 0) /\
    (forall r g w u, In (r, g) m -> 0 <= g -> advance d g w -> units_per_em d u -> 0 < u -> width_in ws g = Some (w * 1000 / u)) /\
    (forall g, (forall r, ~ In (r, g) m) -> width_in ws g = None).
Proof.
  intros d t m family desc o Hb P Hf Ho. destruct (cid_obj_reads _ _ _ _ _ Hf Ho) as (ws & F & R).
  exists (cid_dict t family desc (combine (map snd m) ws)), (w_items t (combine (map snd m) ws)). split; [exact R|]. split; [reflexivity|]. split; [reflexivity|]. split.
  - intros r g w u I Hg A U Hu. apply w_items_in; [exact F|apply (in_map snd) in I; exact I|].
    eapply glyph_width_ok; eauto. apply parse_ok; auto.
  - intros g N. apply w_items_out; [exact F|]. intros I. apply in_map_iff in I as ([r g'] & E & I). cbn in E. subst g'. exact (N r I).
Qed.
Lemma widths_total : forall d t m family desc u, Forall bytep d -> parseTtf d = Ok t -> units_per_em d u -> 0 < u ->
  (forall r g, In (r, g) m -> 0 <= g /\ exists w, advance d g w) -> exists o, cid_obj t m family desc = Ok o.
Proof.
  intros d t m family desc u Hb P U Hu H. unfold cid_obj.
  assert (W : exists w, w_array t (map snd m) = Ok w).
  { induction m as [|[r g] m IH]; cbn [map w_array snd]; [eauto|]. destruct (H r g (or_introl eq_refl)) as (Hg & w & A).
    rewrite (glyph_width_ok _ _ _ _ _ Hb (parse_ok _ _ Hb P) Hg A U Hu). cbn [bind].
    destruct IH as (w2 & ->); [intros r' g' I; apply (H r' g'); right; auto|]. cbn [bind]. eauto. }
  destruct W as (w & ->). cbn [bind]. eauto.
Qed.

Lemma tounicode_entries : forall m, map_ok m -> exists s l,
  stream_object (unicode_obj m) [(B"Length", PInt (blen s))] s /\ bfranges s (Z.of_nat (List.length m)) l /\
  (forall r g, In (r, g) m -> exists r', In (g, g, r') l /\ In (r', g) m) /\
  (one_each m -> forall r g, In (r, g) m -> In (g, g, r) l) /\
  (forall a b c, In (a, b, c) l -> a = b /\ In (c, a) m).
Proof.
  intros m Hm. destruct (unicode_reads m Hm) as (s & S1 & S2). exists s. eexists. split; [exact S1|]. split; [exact S2|].
  assert (A : forall r g, In (r, g) m -> exists r', In (g, g, r') (map (fun x : Z * Z => (snd x, snd x, rune_by_index m (snd x))) m) /\ In (r', g) m).
  { intros r g I. exists (rune_by_index m g). split; [|eapply first_rune; eauto].
    apply (in_map (fun x : Z * Z => (snd x, snd x, rune_by_index m (snd x)))) in I. exact I. }
  split; [exact A|]. split.
  - intros N r g I. destruct (A r g I) as (r' & I1 & I2). replace r with r'; [auto|].
    unfold one_each in N. clear - N I I2. induction m as [|[a b] m IH]; [destruct I|]. cbn [map snd] in N. inversion N as [|? ? N1 N2]; subst.
    destruct I as [I|I], I2 as [I2|I2].
    + congruence.
    + exfalso. apply N1. injection I as _ ->. apply (in_map snd) in I2. exact I2.
    + exfalso. apply N1. injection I2 as _ ->. apply (in_map snd) in I. exact I.
    + auto.
  - intros a b c I. apply in_map_iff in I as ([r g] & E & I). cbn [snd] in E. injection E as <- <- <-. split; [auto|]. eapply first_rune; eauto.
Qed.

Lemma astral_unreadable : forall n l, ~ bfranges (unicode_content [(128512, 1)]) n l.
Proof.
  intros n l (a & body & z & hs & E & H & T).
  set (s := unicode_content [(128512, 1)]) in *.
  assert (E1 : s = (a ++ [10] ++ itoa n ++ B" ") ++ B"beginbfrange" ++ ([10] ++ body ++ B"endbfrange" ++ z)).
  { rewrite E. rewrite <- !app_assoc. reflexivity. }
  destruct (only_at (B"beginbfrange") s 236 _ _ ltac:(vm_compute; reflexivity) E1) as [_ E2].
  assert (E3 : skipn 1 (skipn (236 + List.length (B"beginbfrange")) s) = body ++ B"endbfrange" ++ z) by (rewrite <- E2; reflexivity).
  destruct (only_at (B"endbfrange") (skipn 1 (skipn (236 + List.length (B"beginbfrange")) s)) 20 _ _ ltac:(vm_compute; reflexivity) E3) as [E4 _].
  assert (X : hexes (firstn 20 (skipn 1 (skipn (236 + List.length (B"beginbfrange")) s))) [B"0001"; B"0001"; B"1F600"]).
  { eapply hexes_cons; [exists 5%nat; vm_compute; reflexivity|]. eapply hexes_cons; [exists 5%nat; vm_compute; reflexivity|].
    eapply hexes_cons; [exists 5%nat; vm_compute; reflexivity|]. constructor. blanks. }
  rewrite <- E4 in X. rewrite (hexes_unique _ _ _ H X) in T. vm_compute in T. discriminate.
Qed.

Lemma copied_checksum : forall d t beyond m f, Forall bytep d -> parseTtf d = Ok t -> make_font t beyond m = Ok f -> blen f < 4294967296 ->
  forall tag off len b, In tag copied_tags -> has_table d tag off len -> bytes_at d off (pad4 len) = Some b ->
  (exists off', has_table f tag off' len /\ bytes_at f off' (pad4 len) = Some b) /\
  (table_sum d tag (words b mod 4294967296) -> table_sum f tag (words b mod 4294967296)).
Proof.
  intros d t beyond m f Hb P M L tag off len b Ht T Bt. split; [eapply copied_padded; eauto|]. intros S. eapply copied_sum; eauto.
Qed.

(** ** The test font *)
Lemma part_comps : forall g, 0 <= g < 65536 -> comps (part g) 10 [g].
Proof.
  intros g Hg. apply (comps_last _ 10 0 g); [reflexivity| |reflexivity].
  change (u16 (part g) (10 + 2)) with (Some (256 * (g / 256) + g mod 256)). f_equal. pose proof (Z.div_mod g 256). lia.
Qed.
Lemma part_component : forall g, 0 <= g < 65536 -> component (part g) g.
Proof. intros g Hg. exists (-1). split; [reflexivity|]. split; [lia|]. apply (comps_component _ _ _ (part_comps g Hg)). left. auto. Qed.

Lemma test_shapes : forall g, 0 <= g < 5 -> exists o, nth_error shapes (Z.to_nat g) = Some o /\ outline test_font g o.
Proof.
  intros g Hg. assert (g = 0 \/ g = 1 \/ g = 2 \/ g = 3 \/ g = 4) as [->|[->|[->|[->| ->]]]] by lia;
    (eexists; split; [reflexivity|apply shape_ok; vm_compute; reflexivity]).
Qed.
Lemma test_range : forall g o, outline test_font g o -> 0 <= g < 5.
Proof.
  intros g o (h & hl & x & xl & l & ll & fm & a & z & T1 & T2 & T3 & F & G1 & G2 & A & Z1 & E).
  assert (Hh : has_table test_font (B"head") 388 54) by (apply locate_ok; vm_compute; reflexivity).
  assert (Hl : has_table test_font (B"loca") 500 12) by (apply locate_ok; vm_compute; reflexivity).
  destruct (has_table_unique _ _ _ _ _ _ T1 Hh) as [-> _]. destruct (has_table_unique _ _ _ _ _ _ T3 Hl) as [-> ->].
  change (s16 test_font (388 + 50)) with (Some 0) in F. assert (fm = 0) by congruence. subst fm. change (0 =? 0) with true in G2. cbv iota in G2. lia.
Qed.
Lemma shapes_parts : forall g o c, nth_error shapes g = Some o -> component o c -> c < 5.
Proof.
  intros g o c H (n & Hn & Neg & C).
  destruct g as [|[|[|[|[|g]]]]]; cbn [nth_error shapes] in H; try (destruct g; discriminate); match type of H with Some ?x = Some _ => assert (o = x) by congruence; subst o end;
    try (exfalso; vm_compute in Hn; assert (n = 0) by congruence; lia).
  - apply (comps_component _ _ _ (part_comps 3 ltac:(lia))) in C. destruct C as [<-|[]]. lia.
  - apply (comps_component _ _ _ (part_comps 4 ltac:(lia))) in C. destruct C as [<-|[]]. lia.
Qed.
Lemma test_sound : sound_font test_font 5.
Proof.
  constructor.
  - exact test_bytes.
  - exists 564, 6. split; [apply locate_ok; vm_compute; reflexivity|vm_compute; reflexivity].
  - intros g Hg. destruct (test_shapes g Hg) as (o & N & O). exists o. split; [auto|]. right.
    assert (g = 0 \/ g = 1 \/ g = 2 \/ g = 3 \/ g = 4) as [->|[->|[->|[->| ->]]]] by lia; match type of N with nth_error _ ?k = _ => let k' := eval vm_compute in k in change k with k' in N end; cbn [nth_error shapes] in N; match type of N with Some ?x = Some _ => assert (o = x) by congruence; subst o end;
      (eexists; split; [vm_compute; reflexivity|]); try (left; lia); right; eexists; apply part_comps; lia.
  - intros g o c O C. pose proof (test_range _ _ O) as Hg. destruct (test_shapes g Hg) as (o' & N & O'). rewrite (outline_unique _ _ _ _ O O') in C.
    eapply shapes_parts; eauto.
  - eexists. split; [exists 388, 54; split; [apply locate_ok; vm_compute; reflexivity|vm_compute; reflexivity]|vm_compute; discriminate].
Qed.
