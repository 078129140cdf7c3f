(** The statements of Prop_Text.v put together. *)
From Coq Require Import String List ZArith Lia Bool.
From Coq.Floats Require Import SpecFloat.
From Verif Require Import Base BaseProofs Utf8 Utf8Proofs PdfSyntax PdfSyntaxProofs HexProofs Float64 Ttf TtfSpec TtfProofs TtfTables TtfCmap Subset CharMap FontFile FontObjects FontFinal Text TextSpec TextNumbers TextDraw TextBody TextContent TextFinal.
Open Scope Z_scope.
Open Scope list_scope.

(** The glyph the font file gives a character (part of the specification). *)
Definition char_glyph (d : bytes) (r g : Z) : Prop :=
  (forall cmap len off sx i, 0 <= r <= 65535 -> has_table d (B"cmap") cmap len -> cmap_subtable d cmap 3 1 off ->
     u16 d (cmap + off + 6) = Some sx -> segment d (cmap + off) (sx / 2) r i -> in_array4 d (cmap + off) r -> glyph_of4 d (cmap + off) r g) /\
  (forall cmap len off, 65535 < r -> has_table d (B"cmap") cmap len -> cmap_subtable d cmap 3 10 off -> glyph_of12 d (cmap + off) r g).

Lemma glyph_index_char : forall d t r g, Forall bytep d -> blen d < 4611686018427387904 -> parseTtf d = Ok t -> glyph_index t r = Ok g -> char_glyph d r g.
Proof.
  intros d t r g Hb Hl P E. split.
  - intros cmap len off sx i Hr2 T Sb X Sg A. destruct (lookup4 _ _ _ _ _ _ _ _ Hb Hl P T Sb Hr2 X Sg A) as (g' & E1 & E2). congruence.
  - intros cmap len off Hr2 T Sb. eapply lookup12_sound; eauto.
Qed.
Lemma glyph4_range : forall t r g, r <= 65535 -> glyph_index t r = Ok g -> 0 <= g < 65536.
Proof.
  intros t r g Hr H. unfold glyph_index in H. destruct (Z.leb_spec r 65535); [|lia]. unfold glyph4, bind in H.
  repeat match type of H with
  | match ?x with _ => _ end = _ => destruct x; try discriminate
  end; injection H as <-; try lia; apply Z.mod_pos_bound; lia.
Qed.

(** The characters of a text that was added, with their glyphs. *)
Lemma added_glyphs : forall t before s after, snd (add_chars t s (add_texts t before [])) = Ok tt ->
  exists l, map fst l = runes s /\ Forall (fun x => glyph_index t (fst x) = Ok (snd x)) l /\
    Forall (fun x => val_of (add_texts t (before ++ s :: after) []) (fst x) = Some (snd x)) l.
Proof.
  intros t before s after H. set (m := add_texts t before []) in *. destruct (add_texts_good t before [] (good_nil t)) as (G & _). fold m in G.
  destruct (add_chars t s m) as (m1, o) eqn:E. cbn [snd] in H. subst o.
  assert (E2 : exists k, add_texts t (before ++ s :: after) [] = m1 ++ k).
  { assert (A : forall l x y, add_texts t (l ++ x) y = add_texts t x (add_texts t l y)) by (induction l as [|z l IH]; intros x y; cbn [app add_texts]; auto).
    rewrite A. cbn [add_texts]. fold m. rewrite E. cbn [fst]. unfold add_chars in E. destruct (add_runes_grows _ _ _ _ _ E G) as (G1 & _).
    destruct (add_texts_good t after m1 G1) as (_ & k & ->). eauto. }
  destruct E2 as (k & ->). unfold add_chars in E. pose proof (add_runes_all _ _ _ _ E G) as A.
  clear E. induction (runes s) as [|r rs IH]; [exists []; repeat split; constructor|].
  destruct IH as (l & L1 & L2 & L3); [intros x Hx; apply A; right; exact Hx|]. destruct (A r (or_introl eq_refl)) as (g & G1 & G2).
  exists ((r, g) :: l). split; [cbn [map fst]; rewrite L1; reflexivity|]. split; constructor; auto. cbn [fst snd]. rewrite val_of_app, G2. reflexivity.
Qed.

(** ** What the theorems assume of a font and a text: the font was read from
    [d], the text was added to it without an error, whatever was added before and
    after, and the font has metrics; glyphs beyond the sixteen bits of
    Identity-H are left out. *)
Definition font_ready (d : bytes) (f : sfont) (text : bytes) : Prop :=
  Forall bytep d /\ blen d < 2 ^ 62 /\ parseTtf d = Ok (sf_ttf f) /\ (exists u, units_per_em d u /\ 0 < u) /\
  (exists before after, sf_map f = add_texts (sf_ttf f) (before ++ text :: after) [] /\ snd (add_chars (sf_ttf f) text (add_texts (sf_ttf f) before [])) = Ok tt) /\
  (forall r g, In r (runes text) -> glyph_index (sf_ttf f) r = Ok g -> (65535 < r -> 0 <= g < 65536) /\ exists w, advance d g w).

Lemma ready_glyphs : forall d f text, font_ready d f text -> 0 < unitsPerEm (sf_ttf f) /\ exists l, map fst l = runes text /\ Forall (glyph_ok f) l /\
  Forall (fun x => glyph_index (sf_ttf f) (fst x) = Ok (snd x) /\ char_glyph d (fst x) (snd x) /\
    forall w u, advance d (snd x) w -> units_per_em d u -> 0 < u -> glyph_width (sf_ttf f) (snd x) = Ok (w * 1000 / u)) l.
Proof.
  intros d f text (Hb & Hl & P & (u & U & Hu) & (before & after & Em & Ea) & HG).
  pose proof (parse_ok _ _ Hb P) as PD. split.
  { rewrite (units_ok _ _ _ Hb PD U). exact Hu. }
  destruct (added_glyphs _ _ _ after Ea) as (l & L1 & L2 & L3). rewrite <- Em in L3. exists l. split; [exact L1|].
  assert (I : forall x, In x l -> In (fst x) (runes text)) by (intros x Hx; rewrite <- L1; apply in_map; exact Hx).
  rewrite Forall_forall in L2, L3. split; apply Forall_forall; intros x Hx.
  - destruct (HG _ _ (I x Hx) (L2 x Hx)) as (G1 & w & A). assert (R : 0 <= snd x < 65536).
    { destruct (Z.leb_spec (fst x) 65535); [eapply glyph4_range; eauto|apply G1; lia]. }
    split; [apply L3; exact Hx|]. split; [exact R|]. eexists. apply (glyph_width_ok d _ _ w u); try assumption. lia.
  - split; [apply L2; exact Hx|]. split; [eapply glyph_index_char; eauto|]. intros w u' A U' Hu'. apply (glyph_width_ok d); try assumption.
    destruct (HG _ _ (I x Hx) (L2 x Hx)) as (G1 & _). destruct (Z.leb_spec (fst x) 65535); [eapply (glyph4_range _ _ _ H); eauto|apply G1; lia].
Qed.

(** Every number the content writes is a finite one (a float64 may also be an
    infinity or not a number), and an underline is not of negative thickness. *)
Definition drawable (f : sfont) (c : ctext) : Prop :=
  (forall w, measure f (ct_size c) (ct_text c) = Ok w -> finite (cal_x c (ct_w c) w)) /\ finite (cal_y (sf_ttf f) c (ct_h c)) /\
  rise_fin f (ct_size c) (ct_text c) /\ ul_fin f c /\ border_fin c.

(** ** Marks *)
Definition codes_of (ms : list mark) : list Z := flat_map (fun m => match m with Glyph g _ _ _ _ _ => [g] | _ => [] end) ms.

Lemma codes_shown : forall font size fill at_ kern rise l prev k,
  codes_of (shown (fun g z => Glyph g font size z fill at_) kern rise prev k l) = map snd l.
Proof.
  intros font size fill at_ kern rise. induction l as [|[r g] l IH]; intros prev k; [reflexivity|]. cbn [shown]. unfold codes_of in *. rewrite flat_map_app. cbn [flat_map map snd app]. rewrite IH.
  destruct (_ =? 0); reflexivity.
Qed.
Lemma all_shown : forall (P : mark -> Prop) mk kern rise l prev k, (forall g z, P (mk g z)) -> (forall n, P (Adjust n)) -> Forall P (shown mk kern rise prev k l).
Proof.
  intros P mk kern rise. induction l as [|[r g] l IH]; intros prev k H1 H2; [constructor|]. cbn [shown]. apply Forall_app. split.
  - destruct (_ =? 0); [constructor|constructor; [apply H2|constructor]].
  - constructor; [apply H1|apply IH; assumption].
Qed.

Lemma shown_ext : forall mk kern kern' rise l prev k, (forall p x, kern p x = kern' p x) -> shown mk kern rise prev k l = shown mk kern' rise prev k l.
Proof. intros mk kern kern' rise. induction l as [|[r g] l IH]; intros prev k H; [reflexivity|]. cbn [shown]. rewrite !H, (IH _ _ H). reflexivity. Qed.

(** [kern] as the overrides say it, in thousandths. *)
Definition kern_of_font (f : sfont) (u : Z) (prev : option (Z * Z)) (x : Z * Z) : Z :=
  match sf_kern f, prev with Some k, Some p => Z.quot (1000 * k (fst p) (fst x) (snd p) (snd x) 0) u | _, _ => 0 end.

Lemma text_shown : forall d f index c s, font_ready d f (ct_text c) -> drawable f c -> g_text s = false ->
  exists o s2 l w u fill rise px py tail, text_stream f index c = Ok o /\ measure f (ct_size c) (ct_text c) = Ok w /\ units_per_em d u /\ 0 < u /\
    map fst l = runes (ct_text c) /\ Forall (fun x => char_glyph d (fst x) (snd x)) l /\
    draws o s s2 (shown (fun g z => Glyph g (B"F" ++ itoa index) (100 * ct_size c) z fill (px, py)) (kern_of_font f u) rise None 0 l ++ tail) /\
    near (cal_x c (ct_w c) w) px /\ near (cal_y (sf_ttf f) c (ct_h c)) py /\
    (forall prev r k, match sf_rise f with
                      | Some h => near (h (match prev with Some p => fst p | None => 0 end) r (ct_size c) (ct_text c) k) (rise prev r k)
                      | None => rise prev r k = g_rise s
                      end) /\
    fill = (if has_colour (rgb_of (ct_color c)) then colour_of (rgb_of (ct_color c)) else g_fill s) /\
    Forall no_glyph tail /\ g_text s2 = false /\ g_fill s2 = fill.
Proof.
  intros d f index c s RD (Dx & Dy & Dr & Du & Db) T. pose proof (ready_glyphs _ _ _ RD) as (Hu & l & L1 & L2 & L3).
  destruct RD as (Hb & _ & P & (u & U & Hpu) & _). pose proof (units_ok _ _ _ Hb (parse_ok _ _ Hb P) U) as Eu.
  set (sum := sum_of f None l). assert (M : measure f (ct_size c) (ct_text c) = Ok (scale_width sum (ct_size c))).
  { unfold measure. rewrite (content_eq f (ct_size c) (ct_text c) l Hu L1 L2). reflexivity. }
  specialize (Dx _ M).
  destruct (text_drawn f index c l s Hu L1 L2 Dr Dx Dy Du Db T) as (o & s2 & E1 & E2 & E3 & E4). fold sum in E2, E4.
  set (s1 := text_state f index c sum s) in *.
  exists o, s2, l, (scale_width sum (ct_size c)), u, (g_fill s1), (rise_at f (ct_size c) (ct_text c) (g_rise s)), (fst (g_at s1)), (snd (g_at s1)), (ul_marks f c s1 ++ border_marks c s1).
  split; [exact E1|]. split; [exact M|]. split; [exact U|]. split; [exact Hpu|]. split; [exact L1|]. split.
  { eapply Forall_impl; [|exact L3]. cbn beta. intros x (_ & H & _). exact H. }
  split.
  { rewrite (shown_ext _ _ (kern_opt f)).
    - exact E2.
    - intros p x. unfold kern_of_font, kern_opt, kern_at. rewrite Eu. destruct (sf_kern f); [|reflexivity]. destruct p as [[a b]|]; reflexivity. }
  split; [apply cents_num; exact Dx|]. split; [apply cents_num; exact Dy|]. split.
  { intros prev r k. unfold rise_at, rise_fin in *. destruct (sf_rise f) as [h|]; [|reflexivity]. replace (match prev with Some p => fst p | None => 0 end) with (left_of prev) by (destruct prev as [[? ?]|]; reflexivity).
    apply cents_num, Dr. }
  split; [reflexivity|]. split.
  { apply Forall_app. split.
    - unfold ul_marks. destruct (hasbit _ _); repeat constructor.
    - unfold border_marks. destruct (fgt _ _); repeat constructor. }
  split; [exact E3|exact E4].
Qed.

(** ** Colour *)
Lemma colour_near : forall z, bytez z -> Z.abs (255 * cents (fmul (fofz z) color_unit) - 100 * z) <= 127.
Proof.
  assert (H : forallb (fun z => Z.abs (255 * cents (fmul (fofz (Z.of_nat z)) color_unit) - 100 * Z.of_nat z) <=? 127) (seq 0 256) = true) by (vm_compute; reflexivity).
  intros z Hz. rewrite forallb_forall in H. specialize (H (Z.to_nat z)). rewrite Z2Nat.id in H by (unfold bytez in Hz; lia).
  assert (I : In (Z.to_nat z) (seq 0 256)) by (apply in_seq; unfold bytez in Hz; lia). specialize (H I). cbn beta in H. lia.
Qed.
