(** Fonts: the properties C24, C25, C26, C28, C29, C30, C45, C54. *)
From Coq Require Import String List ZArith Lia Bool.
From Verif Require Import Base BaseProofs Utf8 PdfSyntax PdfSyntaxProofs Ttf TtfSpec TtfProofs TtfTables TtfCmap TtfTotal Subset CharMap FontFile FontClosure FontTotal FontObjects FontFinal FontLayout BuffProofs TestFont FontCases.
Open Scope Z_scope.
Open Scope list_scope.

(** ** C54: reading a font file never crashes *)

Theorem C54_parse_partial : forall d, Forall bytep d -> tame (parseTtf d) \/ (parseTtf d = Panic /\ zero_metrics d).
Proof. exact parse_total. Qed.
Theorem C54_parse_refuted : exists d, Forall bytep d /\ parseTtf d = Panic.
Proof. exists no_metrics. split; [apply small_bytes; vm_compute; reflexivity|vm_compute; reflexivity]. Qed.
Example C54_case : parseTtf test_font = Ok test_ttf /\ parseTtf (firstn 300 test_font) = Err EOther /\ parseTtf [] = Err EOther.
Proof. split; [exact test_parses|]. split; vm_compute; reflexivity. Qed.
Print Assumptions C54_parse_partial.

(** ** C24: characters, widths, ToUnicode *)

(** Whatever texts were added before, after adding [s] every character of [s] has
    the glyph the file gives it, and no entry made before has changed. *)
Theorem C24_characters : forall d t before s m', Forall bytep d -> blen d < 2 ^ 62 -> parseTtf d = Ok t ->
  let m := add_texts t before [] in
  add_chars t s m = (m', Ok tt) ->
  (exists k, m' = m ++ k) /\ NoDup (map fst m') /\
  forall r, In r (runes s) -> exists g, In (r, g) m' /\ char_index m' r = Ok g /\
    (forall cmap len off sx i, 0 <= r <= 65535 -> has_table d (B"cmap") cmap len -> cmap_subtable d cmap 3 1 off ->
       u16 d (cmap + off + 6) = Some sx -> segment d (cmap + off) (sx / 2) r i -> in_array4 d (cmap + off) r -> glyph_of4 d (cmap + off) r g) /\
    (forall cmap len off, 65535 < r -> has_table d (B"cmap") cmap len -> cmap_subtable d cmap 3 10 off -> glyph_of12 d (cmap + off) r g).
Proof. exact characters_have_glyphs. Qed.
(** If a text cannot be added it is because of a character without a glyph, and
    the characters before it stay added. *)
Theorem C24_no_glyph : forall t before s m' o, let m := add_texts t before [] in add_chars t s m = (m', o) -> o <> Ok tt ->
  exists a r b, runes s = a ++ r :: b /\ (forall g, glyph_index t r <> Ok g) /\ forall x, In x a -> exists g, In (x, g) m'.
Proof. exact characters_stop. Qed.
Example C24_characters_case : add_chars test_ttf (B"AB@C") [] = ([(65, 1); (66, 2); (64, 0); (67, 4)], Ok tt) /\
  add_chars test_ttf ([240; 159; 152; 128] ++ B"A") [] = ([(128512, 1); (65, 1)], Ok tt).
Proof. split; vm_compute; reflexivity. Qed.

(** The CIDFont dictionary gives every character's glyph its advance width in
    thousandths, and no other glyph any. *)
Theorem C24_widths : forall d t m family desc o, Forall bytep d -> parseTtf d = Ok t -> plain_name family ->
  cid_obj t m family desc = Ok o ->
  exists dict ws, reads o (PDict dict) [10] /\ lookup (B"W") dict = Some (PArr ws) /\
    lookup (B"FontDescriptor") dict = Some (PRef desc 0) /\
    (forall r g w u, In (r, g) m -> 0 <= g -> advance d g w -> units_per_em d u -> 0 < u -> width_in ws g = Some (w * 1000 / u)) /\
    (forall g, (forall r, ~ In (r, g) m) -> width_in ws g = None).
Proof. exact widths_written. Qed.
Theorem C24_widths_total : forall d t m family desc u, Forall bytep d -> parseTtf d = Ok t -> units_per_em d u -> 0 < u ->
  (forall r g, In (r, g) m -> 0 <= g /\ exists w, advance d g w) -> exists o, cid_obj t m family desc = Ok o.
Proof. exact widths_total. Qed.
Theorem C24_widths_refuted : exists d t m, Forall bytep d /\ parseTtf d = Ok t /\ add_chars t (B"A") [] = (m, Ok tt) /\ cid_obj t m (B"F") 7 = Panic.
Proof.
  exists no_em, (the (parseTtf no_em)), [(65, 1)]. split; [apply small_bytes; vm_compute; reflexivity|]. split; [|split]; vm_compute; reflexivity.
Qed.
Example C24_widths_case : exists o dict, cid_obj test_ttf [(65, 1); (67, 4)] (B"My Font") 7 = Ok o /\ reads o (PDict dict) [10] /\
  lookup (B"BaseFont") dict = Some (PName (B"My+Font")) /\
  lookup (B"W") dict = Some (PArr [PInt 1; PArr [PInt 300]; PInt 4; PArr [PInt 450]]).
Proof. eexists. eexists. split; [vm_compute; reflexivity|]. split; [exists 30%nat; vm_compute; reflexivity|]. split; reflexivity. Qed.

(** The ToUnicode map takes every character's glyph back to a character with that
    glyph, to the character itself where the glyph has no other. *)
Theorem C24_tounicode_partial : forall m, map_ok m -> exists s l,
  stream_object (unicode_obj m) [(B"Length", PInt (blen s))] s /\ bfranges s (Z.of_nat (List.length m)) l /\
  (forall r g, In (r, g) m -> exists r', In (g, g, r') l /\ In (r', g) m) /\
  (one_each m -> forall r g, In (r, g) m -> In (g, g, r) l) /\
  (forall a b c, In (a, b, c) l -> a = b /\ In (c, a) m).
Proof. exact tounicode_entries. Qed.
Example C24_tounicode_case : bfranges (unicode_content [(65, 1); (0x20AC, 258)]) 2 [(1, 1, 65); (258, 258, 0x20AC)].
Proof.
  pose proof (unicode_reads [(65, 1); (0x20AC, 258)]) as H. destruct H as (s & (rest & e1 & e2 & tr & R & _) & H).
  - repeat constructor; unfold code; cbn; lia.
  - destruct (bf_lines [(65, 1); (0x20AC, 258)] [(65, 1); (0x20AC, 258)] (incl_refl _)) with (w := @nil Z) as (hs & H1 & H2).
    { repeat constructor; unfold code; cbn; lia. } { constructor. }
    eexists (firstn 233 (unicode_content [(65, 1); (0x20AC, 258)])), _, _, hs. split; [|split; [exact H1|exact H2]].
    vm_compute. reflexivity.
Qed.
(** A character outside the basic plane gets five hexadecimal digits, which no
    reader can take as UTF-16. *)
Theorem C24_tounicode_refuted : exists m s r g, add_chars test_ttf s [] = (m, Ok tt) /\ In (r, g) m /\ forall n l, ~ bfranges (unicode_content m) n l.
Proof.
  exists [(128512, 1)], [240; 159; 152; 128], 128512, 1. split; [vm_compute; reflexivity|]. split; [left; reflexivity|]. exact astral_unreadable.
Qed.
(** The code space is the rectangle between the smallest and the largest glyph,
    byte by byte, and need not contain the glyphs between. *)
Theorem C24_codespace_refuted : exists m a z lo hi r g, map_ok m /\
  unicode_content m = a ++ B"begincodespacerange" ++ [10] ++ B"<" ++ hex4 lo ++ B"><" ++ hex4 hi ++ B">" ++ [10] ++ B"endcodespacerange" ++ z /\
  In (r, g) m /\ ~ (lo / 256 <= g / 256 <= hi / 256 /\ lo mod 256 <= g mod 256 <= hi mod 256).
Proof.
  exists [(65, 3); (66, 80); (67, 288)], (firstn 183 (unicode_content [(65, 3); (66, 80); (67, 288)])). eexists. exists 3, 288, 66, 80.
  split; [repeat constructor; unfold code; cbn; lia|]. split; [vm_compute; reflexivity|]. split; [right; left; reflexivity|].
  vm_compute. intuition congruence.
Qed.
(** The other objects *)
Theorem C24_font_object : forall family cid uni, plain_name family -> exists dict, reads (font_obj family cid uni) (PDict dict) [10] /\
  lookup (B"Subtype") dict = Some (PName (B"Type0")) /\ lookup (B"Encoding") dict = Some (PName (B"Identity-H")) /\
  lookup (B"DescendantFonts") dict = Some (PArr [PRef cid 0]) /\ lookup (B"ToUnicode") dict = Some (PRef uni 0).
Proof. intros family cid uni H. exists (font_dict family cid uni). split; [exact (font_obj_reads _ _ _ H)|]. repeat split; reflexivity. Qed.
Theorem C24_descriptor_object : forall t family dictid, plain_name family -> exists dict, reads (desc_obj t family dictid) (PDict dict) [10] /\
  lookup (B"FontFile2") dict = Some (PRef dictid 0) /\ lookup (B"FontName") dict = Some (PName (plus_name family)).
Proof. intros t family dictid H. exists (desc_dict t family dictid). split; [exact (desc_obj_reads _ _ _ H)|]. split; reflexivity. Qed.
(** A font name with a delimiter breaks the objects. *)
Theorem C24_font_object_refuted : exists family cid uni, forall dict r, reads (font_obj family cid uni) (PDict dict) r -> lookup (B"DescendantFonts") dict = None.
Proof.
  exists (B"A>>"), 5, 6. intros dict r H.
  assert (X : reads (font_obj (B"A>>") 5 6) (PDict [(B"BaseFont", PName (B"A"))]) (skipn 17 (font_obj (B"A>>") 5 6))) by (exists 10%nat; vm_compute; reflexivity).
  destruct (reads_unique _ _ _ _ _ H X) as [E _]. assert (dict = [(B"BaseFont", PName (B"A"))]) by congruence. subst dict. reflexivity.
Qed.
Print Assumptions C24_characters.
Print Assumptions C24_no_glyph.
Print Assumptions C24_widths.
Print Assumptions C24_widths_total.
Print Assumptions C24_widths_refuted.
Print Assumptions C24_tounicode_partial.
Print Assumptions C24_tounicode_refuted.
Print Assumptions C24_codespace_refuted.
Print Assumptions C24_font_object.
Print Assumptions C24_descriptor_object.
Print Assumptions C24_font_object_refuted.

(** ** C25: cmap format 4 *)

Theorem C25_format4_partial : forall d t cmap len off c sx i, Forall bytep d -> blen d < 2 ^ 62 -> parseTtf d = Ok t ->
  has_table d (B"cmap") cmap len -> cmap_subtable d cmap 3 1 off -> 0 <= c <= 65535 ->
  u16 d (cmap + off + 6) = Some sx -> segment d (cmap + off) (sx / 2) c i -> in_array4 d (cmap + off) c ->
  exists g, glyph_of4 d (cmap + off) c g /\ glyph_index t c = Ok g.
Proof. exact lookup4. Qed.
Theorem C25_meaning_unique : forall d s c g g', glyph_of4 d s c g -> glyph_of4 d s c g' -> g = g'.
Proof. exact glyph_of4_unique. Qed.
(** Behind the last segment there is a crash. *)
Theorem C25_no_segment : forall d t cmap len off c, Forall bytep d -> blen d < 2 ^ 62 -> parseTtf d = Ok t ->
  has_table d (B"cmap") cmap len -> cmap_subtable d cmap 3 1 off -> 0 <= c <= 65535 ->
  (forall sx n i e, u16 d (cmap + off + 6) = Some sx -> n = sx / 2 -> 0 <= i < n -> end_code d (cmap + off) i = Some e -> e < c) ->
  glyph_index t c = Panic.
Proof. exact lookup4_panics. Qed.
Example C25_case : map (glyph_index test_ttf) [64; 65; 66; 67; 68; 69; 65535] = [Ok 0; Ok 1; Ok 2; Ok 4; Ok 0; Ok 0; Ok 0] /\
  glyph_of4 test_font 272 67 4 /\ glyph_of4 test_font 272 66 2.
Proof.
  split; [vm_compute; reflexivity|].
  split; [exists 6, 3, 1, 67, 0, 4|exists 6, 3, 0, 65, 65472, 0]; (split; [vm_compute; reflexivity|]; split; [vm_compute; reflexivity|]; split;
    [split; [lia|]; split; [eexists; split; [vm_compute; reflexivity|lia]|]; intros j e Hj; first [lia|replace j with 0 by lia; vm_compute; intros [= <-]; reflexivity]|]).
  - split; [vm_compute; reflexivity|]. split; [vm_compute; reflexivity|]. split; [vm_compute; reflexivity|].
    cbn. exists 4. split; vm_compute; reflexivity.
  - split; [vm_compute; reflexivity|]. split; [vm_compute; reflexivity|]. split; vm_compute; reflexivity.
Qed.
Print Assumptions C25_format4_partial.
Print Assumptions C25_meaning_unique.
Print Assumptions C25_no_segment.

(** ** C26: cmap format 12 *)

Theorem C26_format12_partial : forall d t cmap len off c g, Forall bytep d -> parseTtf d = Ok t ->
  has_table d (B"cmap") cmap len -> cmap_subtable d cmap 3 10 off -> 65535 < c -> glyph_index t c = Ok g -> glyph_of12 d (cmap + off) c g.
Proof. exact lookup12_sound. Qed.
Theorem C26_found : forall d t cmap len off c n i st en, Forall bytep d -> parseTtf d = Ok t ->
  has_table d (B"cmap") cmap len -> cmap_subtable d cmap 3 10 off -> 65535 < c ->
  u32 d (cmap + off + 12) = Some n -> 0 <= i < n -> u32 d (cmap + off + 16 + 12 * i) = Some st -> u32 d (cmap + off + 16 + 12 * i + 4) = Some en ->
  st <= c < en -> exists g, glyph_index t c = Ok g.
Proof. exact lookup12_found. Qed.
Theorem C26_last : forall d t cmap len off c, Forall bytep d -> parseTtf d = Ok t ->
  has_table d (B"cmap") cmap len -> cmap_subtable d cmap 3 10 off -> 65535 < c ->
  (forall i st en, u32 d (cmap + off + 16 + 12 * i) = Some st -> u32 d (cmap + off + 16 + 12 * i + 4) = Some en -> ~ (st <= c < en)) ->
  glyph_index t c = Err EOther.
Proof. exact lookup12_last. Qed.
(** The last character of a group is not found. *)
Theorem C26_format12_refuted : exists d t cmap len off c g, Forall bytep d /\ parseTtf d = Ok t /\ has_table d (B"cmap") cmap len /\
  cmap_subtable d cmap 3 10 off /\ glyph_of12 d (cmap + off) c g /\ glyph_index t c = Err EOther.
Proof.
  exists test_font, test_ttf, 252, 92, 64, 128513, 2. split; [exact test_bytes|]. split; [exact test_parses|]. destruct test_cmap as (H1 & _ & H3).
  split; [exact H1|]. split; [exact H3|]. split; [|vm_compute; reflexivity].
  exists 1, 0, 128512, 128513, 1. repeat (split; [first [vm_compute; reflexivity|lia]|]). vm_compute. reflexivity.
Qed.
Example C26_case : glyph_index test_ttf 128512 = Ok 1 /\ glyph_index test_ttf 70000 = Err EOther.
Proof. split; vm_compute; reflexivity. Qed.
Print Assumptions C26_format12_partial.
Print Assumptions C26_found.
Print Assumptions C26_last.
Print Assumptions C26_format12_refuted.

(** ** C28: outlines *)

(** As long as no two characters share a glyph: the used glyphs keep their
    outlines, the others are empty. *)
Theorem C28_outlines_partial : forall d n t beyond m f, sound_font d n -> parseTtf d = Ok t -> within n m ->
  make_font t beyond m = Ok f -> blen f < 2 ^ 32 -> one_each m -> forall g o, 0 <= g < n -> outline d g o ->
  (used d m g -> outline f g o) /\ (~ used d m g -> outline f g []).
Proof. exact outlines_kept. Qed.
Theorem C28_total : forall d t beyond m, Forall bytep d -> parseTtf d = Ok t -> Forall (drawable d) (map snd m) ->
  (exists o, outline d 0 o) ->
  (forall v o c, In v (map snd m) -> outline d v o -> component o c -> exists o', outline d c o') ->
  tables_inside d (blen d + blen beyond) -> exists f, make_font t beyond m = Ok f.
Proof. intros d t beyond m Hb P. exact (make_font_total d t beyond m Hb (parse_ok _ _ Hb P)). Qed.
Theorem C28_meaning_unique : forall d g o o', outline d g o -> outline d g o' -> o = o'.
Proof. exact outline_unique. Qed.
(** Behind a glyph two characters share every glyph is empty. *)
Theorem C28_shared_glyph : forall d n t beyond m f, sound_font d n -> parseTtf d = Ok t -> within n m ->
  make_font t beyond m = Ok f -> blen f < 2 ^ 32 -> forall i j r1 r2 v, i <> j -> nth_error m i = Some (r1, v) -> nth_error m j = Some (r2, v) ->
  forall g, v < g < n -> outline f g [].
Proof. exact outlines_lost. Qed.
(** Two characters the font does not have are enough. *)
Theorem C28_outlines_refuted : exists d n t s m f g o, sound_font d n /\ parseTtf d = Ok t /\ add_chars t s [] = (m, Ok tt) /\
  make_font t [0; 0] m = Ok f /\ blen f < 2 ^ 32 /\ In (65, g) m /\ outline d g o /\ o <> [] /\ outline f g [].
Proof.
  exists test_font, 5, test_ttf, (B"@zA"), [(64, 0); (122, 0); (65, 1)]. eexists. exists 1, [0; 0; 1; 1].
  split; [exact test_sound|]. split; [exact test_parses|]. split; [vm_compute; reflexivity|]. split; [vm_compute; reflexivity|]. split; [vm_compute; reflexivity|].
  split; [right; right; left; reflexivity|]. split; [apply shape_ok; vm_compute; reflexivity|]. split; [discriminate|]. apply shape_ok. vm_compute. reflexivity.
Qed.
(** The file ends within the padding of its last table. *)
Theorem C28_total_refuted : exists d t s m, Forall bytep d /\ parseTtf d = Ok t /\ add_chars t s [] = (m, Ok tt) /\ make_font t [] m = Panic.
Proof.
  exists test_font, test_ttf, (B"A"), [(65, 1)]. split; [exact test_bytes|]. split; [exact test_parses|]. split; vm_compute; reflexivity.
Qed.
Example C28_case : sound_font test_font 5 /\ exists f, make_font test_ttf [0; 0] [(65, 1); (67, 4)] = Ok f /\
  map (shape_of f) [0; 1; 2; 3; 4] = [Some [0; 0; 9; 9]; Some [0; 0; 1; 1]; Some []; Some []; Some [0; 0; 4; 4]].
Proof. split; [exact test_sound|]. eexists. split; vm_compute; reflexivity. Qed.
Print Assumptions C28_outlines_partial.
Print Assumptions C28_total.
Print Assumptions C28_shared_glyph.
Print Assumptions C28_outlines_refuted.
Print Assumptions C28_total_refuted.

(** ** C29: components *)

Theorem C29_components_partial : forall d n t beyond m f, sound_font d n -> parseTtf d = Ok t -> within n m ->
  make_font t beyond m = Ok f -> blen f < 2 ^ 32 -> one_each m ->
  (forall g o c p x, drawn m g -> outline d g o -> component o c -> outline d c p -> ~ component p x) ->
  forall g x o, drawn m g -> reach d g x -> outline d x o -> outline f x o.
Proof. exact parts_kept. Qed.
(** A component of a component is left out. *)
Theorem C29_components_refuted : exists d n t s m f g x o, sound_font d n /\ parseTtf d = Ok t /\ add_chars t s [] = (m, Ok tt) /\ one_each m /\
  make_font t [0; 0] m = Ok f /\ drawn m g /\ reach d g x /\ outline d x o /\ o <> [] /\ outline f x [].
Proof.
  exists test_font, 5, test_ttf, (B"B"), [(66, 2)]. eexists. exists 2, 4, [0; 0; 4; 4].
  split; [exact test_sound|]. split; [exact test_parses|]. split; [vm_compute; reflexivity|]. split; [repeat constructor; intros []|].
  split; [vm_compute; reflexivity|]. split; [exists 66; left; reflexivity|]. split; [|split; [apply shape_ok; vm_compute; reflexivity|split; [discriminate|apply shape_ok; vm_compute; reflexivity]]].
  apply (reach_part _ 2 (part 3) 3); [apply shape_ok; vm_compute; reflexivity|apply part_component; lia|].
  apply (reach_part _ 3 (part 4) 4); [apply shape_ok; vm_compute; reflexivity|apply part_component; lia|]. constructor.
Qed.
Example C29_case : exists f, make_font test_ttf [0; 0] [(66, 2)] = Ok f /\ map (shape_of f) [2; 3] = [Some (part 3); Some (part 4)].
Proof. eexists. split; vm_compute; reflexivity. Qed.
Print Assumptions C29_components_partial.
Print Assumptions C29_components_refuted.

(** ** C30: the table directory *)

Theorem C30_layout_partial : forall d t beyond m f, Forall bytep d -> parseTtf d = Ok t -> make_font t beyond m = Ok f -> blen f < 2 ^ 32 ->
  u16 f 4 = Some 9 /\
  (forall tag, In tag made_tags -> exists cs off len b, has_table f tag off len /\ table_sum f tag cs /\ off mod 4 = 0 /\ 156 <= off /\ 0 <= len /\
     bytes_at f off (pad4 len) = Some b /\ (tag = B"glyf" \/ tag = B"loca" -> cs = words b mod 2 ^ 32)) /\
  (forall tag1 tag2 o1 l1 o2 l2, In tag1 made_tags -> In tag2 made_tags -> tag1 <> tag2 -> has_table f tag1 o1 l1 -> has_table f tag2 o2 l2 ->
     o1 + pad4 l1 <= o2 \/ o2 + pad4 l2 <= o1).
Proof. exact layout. Qed.
(** The seven copied tables have the bytes and the checksum they had; so the
    checksum is right if it was. *)
Theorem C30_copied : forall d t beyond m f, Forall bytep d -> parseTtf d = Ok t -> make_font t beyond m = Ok f -> blen f < 2 ^ 32 ->
  forall tag off len b, In tag copied_tags -> has_table d tag off len -> bytes_at d off (pad4 len) = Some b ->
  (exists off', has_table f tag off' len /\ bytes_at f off' (pad4 len) = Some b) /\
  (table_sum d tag (words b mod 2 ^ 32) -> table_sum f tag (words b mod 2 ^ 32)).
Proof. exact copied_checksum. Qed.
Theorem C30_tables : forall d t beyond m f tag b, Forall bytep d -> parseTtf d = Ok t -> make_font t beyond m = Ok f -> blen f < 2 ^ 32 ->
  In tag copied_tags -> table d tag b -> table f tag b.
Proof. intros d t beyond m f tag b Hb P. exact (FontEmbed.copied d t beyond m f tag b Hb (parse_ok _ _ Hb P)). Qed.
Theorem C30_advances : forall d t beyond m f, Forall bytep d -> parseTtf d = Ok t -> make_font t beyond m = Ok f -> blen f < 2 ^ 32 ->
  metrics_inside d -> forall g w, 0 <= g -> advance d g w -> advance f g w.
Proof. exact advance_kept. Qed.
(** A wrong checksum of a copied table stays wrong. *)
Theorem C30_checksum_refuted : exists d t m f tag off len b, Forall bytep d /\ parseTtf d = Ok t /\ make_font t [0; 0] m = Ok f /\
  has_table f tag off len /\ bytes_at f off (pad4 len) = Some b /\ table_sum f tag 0 /\ words b mod 2 ^ 32 <> 0.
Proof.
  exists test_font, test_ttf, [(65, 1)]. eexists. exists (B"hhea"), 220, 36. eexists. split; [exact test_bytes|]. split; [exact test_parses|].
  split; [vm_compute; reflexivity|]. split; [apply locate_ok; vm_compute; reflexivity|]. split; [vm_compute; reflexivity|].
  split; [exists 9, 4; repeat (split; [first [vm_compute; reflexivity|lia]|]); vm_compute; reflexivity|]. vm_compute. discriminate.
Qed.
(** The font program's stream *)
Theorem C30_stream : forall compress t beyond m o, dict_obj compress t beyond m = Ok o ->
  exists f, make_font t beyond m = Ok f /\
    stream_object o [(B"Length", PInt (blen (compress f))); (B"Filter", PName (B"FlateDecode")); (B"Length1", PInt (blen f))] (compress f).
Proof. exact dict_obj_reads. Qed.
Example C30_case : exists f, make_font test_ttf [0; 0] [(65, 1)] = Ok f /\ map (locate f) [B"glyf"; B"head"; B"loca"; B"maxp"] =
  [Some (156, 8); Some (164, 54); Some (276, 12); Some (288, 6)] /\ table_sum f (B"glyf") 2570.
Proof.
  eexists. split; [vm_compute; reflexivity|]. split; [vm_compute; reflexivity|].
  exists 9, 2. repeat (split; [first [vm_compute; reflexivity|lia]|]). vm_compute. reflexivity.
Qed.
Print Assumptions C30_layout_partial.
Print Assumptions C30_copied.
Print Assumptions C30_tables.
Print Assumptions C30_advances.
Print Assumptions C30_checksum_refuted.
Print Assumptions C30_stream.

(** ** C45: the buffer *)

Theorem C45_write : forall pos x p, 0 <= pos ->
  let b := bwrite (mkBuff pos x) p in
  bpos b = pos + blen p /\ bytes_at (bdat b) pos (blen p) = Some p /\
  blen (bdat b) = Z.max (blen x) (pos + blen p) /\
  (forall q, q < blen x -> q < pos \/ pos + blen p <= q -> u8 (bdat b) q = u8 x q) /\
  (forall q, blen x <= q < pos -> u8 (bdat b) q = Some 0).
Proof. exact write_spec. Qed.
Theorem C45_uint16 : forall pos x v, 0 <= pos -> 0 <= v < 65536 -> readUShort (bdat (writeUInt16 (mkBuff pos x) v)) pos = Ok (v, pos + 2).
Proof. exact write16_read. Qed.
Theorem C45_int16 : forall pos x v, 0 <= pos -> -32768 <= v < 32768 -> readShort (bdat (writeUInt16 (mkBuff pos x) v)) pos = Ok (v, pos + 2).
Proof. exact write16_signed. Qed.
Theorem C45_uint32 : forall pos x v, 0 <= pos -> 0 <= v < 2 ^ 32 -> readULong (bdat (writeUInt32 (mkBuff pos x) v)) pos = Ok (v, pos + 4).
Proof. exact write32_read. Qed.
Example C45_case : bdat (writeUInt32 (mkBuff 2 [1; 2; 3]) 258) = [1; 2; 0; 0; 1; 2] /\ bdat (writeUInt16 (mkBuff 4 [1]) 65535) = [1; 0; 0; 0; 255; 255] /\
  bdat (writeUInt16 (mkBuff 1 [1; 2; 3; 4]) 1800) = [1; 7; 8; 4].
Proof. repeat split; vm_compute; reflexivity. Qed.
Print Assumptions C45_write.
Print Assumptions C45_uint16.
Print Assumptions C45_int16.
Print Assumptions C45_uint32.
