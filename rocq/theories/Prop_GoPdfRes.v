(** The fonts and pictures that pages of GoPdf use: the property C64. *)
From Coq Require Import String List ZArith Lia Bool.
From Coq.Floats Require Import SpecFloat.
From Verif Require Import Base Float64 PdfSyntax CryptoSpec Md5Rc4 Ttf Subset Text Utf8 TestFont TtfSpec TextCases FontObjects Png PngSpec PngObject GoPdf GoPdfSpec GoPdfDrawSpec GoPdfDocSpec GoPdfSetSpec GoPdfResSpec GoPdfCases GoPdfEmbed GoPdfPict GoPdfResCases.
Open Scope Z_scope.
Open Scope list_scope.

(** ** Fonts *)

(** The font name that a text is drawn with (see C63, [F] and the number of the
    selected font) leads, through the resources of the pages, to a Type 0 font that
    gives the characters of the text the glyphs, widths and outlines of the font
    file that SetFont chose, with and without a protection. Missing: fonts that were
    added with Underline in their style (false below), and names of families with
    other characters. *)
Theorem C64_fonts_partial : forall w inflate rnd cfg t F key, document w rnd cfg t F -> blen F < 10 ^ 10 -> 0 <= cfg_perm cfg < 256 -> (forall i, info_of t = Some i -> simple_info i) ->
  (forall x, inflate (gw_compress w x) = Ok x) -> opens F (cfg_user cfg) key ->
  forall a q c b s family style size, t = a ++ (q, c, None) :: b -> call_text c = Some s -> s_font (settings_of cfg a) = Some (family, style, size) -> FontObjects.plain_name family ->
  Forall (fun x => af_style x = Z.ldiff (af_style x) 4) (added a) ->
  exists af id ws uni prog m, font_for (added a) family style = Some af /\ resource F (B"Font") (B"F" ++ itoa (u_count (g_cur q) + 1)) id /\
    embedded_in inflate key F id (plus_name family) ws uni prog /\
    (forall r, In r (runes s) -> exists v, In (r, v) m) /\ (forall r v, In (r, v) m -> exists x s', In x t /\ call_text (snd (fst x)) = Some s' /\ In r (runes s')) /\
    font_gives (af_file af) m ws uni prog.
Proof. exact doc_fonts. Qed.
Print Assumptions C64_fonts_partial.

Example C64_fonts_case : exists t F key id ws uni prog m, document gw_pics [] locked_cfg t F /\ map (fun x => snd (fst x)) t = prog_res /\ opens F (B"user") (Some key) /\
  resource F (B"Font") (B"F1") id /\ embedded_in (gw_inflate gw_pics) (Some key) F id (B"T") ws uni prog /\ (exists v, In (65, v) m) /\ (exists v, In (66, v) m) /\ font_gives test_font m ws uni prog.
Proof. exact fonts_case. Qed.

(** False for a family whose first font has Underline in its style: SetFont chooses
    the second font, the resources have the first one, and the text is drawn with
    glyphs that the embedded font does not have. *)
Theorem C64_fonts_refuted : exists t F a q b d7 d8 c, document gw_id [] page_cfg t F /\ map (fun x => snd (fst x)) t = prog_under /\ Forall (fun x => snd x = None) t /\
  t = a ++ (q, Text (B"A"), None) :: b /\ font_for (added a) (B"T") 0 = Some (mkAF (B"T") 0 test_font false None) /\ char_glyph test_font 65 1 /\
  stream_is F 15 c (B"BT" ++ [10] ++ B"10.00 290.00 TD" ++ [10] ++ B"/F1 12 Tf" ++ [10] ++ B"[<0001>] TJ" ++ [10] ++ B"ET" ++ [10]) /\
  resource F (B"Font") (B"F1") 8 /\ object_is F 8 (PDict d8) /\ lookup (B"DescendantFonts") d8 = Some (PArr [PRef 7 0]) /\ object_is F 7 (PDict d7) /\ lookup (B"W") d7 = Some (PArr []).
Proof. exact under_case. Qed.
Print Assumptions C64_fonts_refuted.

(** The strings of the fonts are not enciphered in protected documents. *)
Theorem C64_strings_refuted : exists t F key d e s, document gw_pics [] locked_cfg t F /\ map (fun x => snd (fst x)) t = prog_res /\ opens F (B"user") (Some key) /\
  object_is F 7 (PDict d) /\ lookup (B"Subtype") d = Some (PName (B"CIDFontType2")) /\ lookup (B"CIDSystemInfo") d = Some (PDict e) /\ lookup (B"Registry") e = Some (PStr (B"Adobe")) /\
  rc4 (object_key key 7 0) (B"Adobe") = Ok s /\ s <> B"Adobe".
Proof. exact strings_case. Qed.
Print Assumptions C64_strings_refuted.

(** ** Pictures *)

(** The name that a picture is drawn with leads to an image with the data and the
    size of the file that was read when the name came up first: JPEG files. In a
    protected document the data is enciphered, and the object is no stream (one
    line end too many follows the data). *)
Theorem C64_jpeg : forall w rnd cfg t F key, document w rnd cfg t F -> blen F < 10 ^ 10 -> 0 <= cfg_perm cfg < 256 -> (forall i, info_of t = Some i -> simple_info i) -> opens F (cfg_user cfg) key ->
  forall a q id d0 bey0 x y r b, t = a ++ (q, ImageBy id d0 bey0 x y r, None) :: b ->
  forall img bey cs wd h, picture_of t id = Some (id, img, bey) -> gw_config w img = FJpeg (Some cs) wd h -> In cs [B"DeviceGray"; B"DeviceRGB"; B"DeviceCMYK"] ->
  exists n d, resource F (B"XObject") (B"I" ++ itoa (fst (place id (u_cache (g_cur q)) 0) + 1)) n /\ jpeg_dict wd h cs d /\ picture_data key F n d img /\ (forall k, key = Some k -> forall d' s, ~ stream_is F n d' s).
Proof. exact doc_jpeg. Qed.
Print Assumptions C64_jpeg.

(** PNG files in grey or colours. *)
Theorem C64_png : forall w rnd cfg t F key, document w rnd cfg t F -> blen F < 10 ^ 10 -> 0 <= cfg_perm cfg < 256 -> (forall i, info_of t = Some i -> simple_info i) -> opens F (cfg_user cfg) key ->
  forall a q id d0 bey0 x y r b, t = a ++ (q, ImageBy id d0 bey0 x y r, None) :: b ->
  forall bey wd h depth ct crc cs rest, 0 <= wd < 32768 -> 0 <= h < 32768 -> depth <= 8 -> ct = 0 \/ ct = 2 -> List.length crc = 4%nat -> Forall (chunk_read ct) cs ->
  let img := png_file (header wd h depth ct crc) cs rest in picture_of t id = Some (id, img, bey) -> gw_config w img = FPng ->
  exists n d, resource F (B"XObject") (B"I" ++ itoa (fst (place id (u_cache (g_cur q)) 0) + 1)) n /\
    png_dict wd h depth (if ct =? 2 then 3 else 1) (if ct =? 0 then PName (B"DeviceGray") else PName (B"DeviceRGB")) d /\ picture_data key F n d (image_data cs) /\
    (forall k, key = Some k -> forall d' s, ~ stream_is F n d' s).
Proof. exact doc_opaque. Qed.
Print Assumptions C64_png.

(** PNG files with alpha: the colours and the mask are in the file, and the
    reference to the mask, which should be j + 1, is always j (see C71). *)
Theorem C64_alpha_partial : forall w rnd cfg t F key, document w rnd cfg t F -> blen F < 10 ^ 10 -> 0 <= cfg_perm cfg < 256 -> (forall i, info_of t = Some i -> simple_info i) -> opens F (cfg_user cfg) key ->
  (forall x, gw_compress w x <> [] /\ gw_inflate w (gw_compress w x) = Ok x) ->
  forall a q id d0 bey0 x y r b, t = a ++ (q, ImageBy id d0 bey0 x y r, None) :: b ->
  forall bey wd h crc cs rest z extra rws, Z.of_nat h < 32768 -> Z.of_nat wd < 32768 -> List.length crc = 4%nat -> Forall (chunk_read 6) cs ->
  gw_inflate w (image_data cs) = Ok (z ++ extra) -> image 4 wd [] z rws -> List.length rws = h ->
  let img := png_file (header (Z.of_nat wd) (Z.of_nat h) 8 6 crc) cs rest in picture_of t id = Some (id, img, bey) -> gw_config w img = FPng ->
  exists n d j dm cbytes mbytes color alpha, resource F (B"XObject") (B"I" ++ itoa (fst (place id (u_cache (g_cur q)) 0) + 1)) n /\
    picture_data key F n d cbytes /\ png_dict (Z.of_nat wd) (Z.of_nat h) 8 3 (PName (B"DeviceRGB")) d /\
    gw_inflate w cbytes = Ok color /\ image 3 wd [] color (map rgb rws) /\
    picture_data key F (j + 1) dm mbytes /\ png_dict (Z.of_nat wd) (Z.of_nat h) 8 1 (PName (B"DeviceGray")) dm /\
    gw_inflate w mbytes = Ok alpha /\ image 1 wd [] alpha (map alphas rws) /\
    lookup (B"SMask") d = Some (PRef j 0).
Proof. exact doc_rgba. Qed.
Print Assumptions C64_alpha_partial.

Example C64_pictures_case : exists t F n2 n1 n3 d2 d1 d3 j dm, document gw_pics [] page_cfg t F /\ map (fun x => snd (fst x)) t = prog_res /\
  resource F (B"XObject") (B"I2") n2 /\ jpeg_dict 3 2 (B"DeviceRGB") d2 /\ stream_is F n2 d2 a_jpeg /\
  resource F (B"XObject") (B"I1") n1 /\ png_dict 1 1 8 3 (PName (B"DeviceRGB")) d1 /\ stream_is F n1 d1 [7; 0; 1; 2; 3] /\
  resource F (B"XObject") (B"I3") n3 /\ png_dict 1 1 8 3 (PName (B"DeviceRGB")) d3 /\ lookup (B"SMask") d3 = Some (PRef j 0) /\
    png_dict 1 1 8 1 (PName (B"DeviceGray")) dm /\ exists mb, stream_is F (j + 1) dm mb.
Proof. exact pictures_case. Qed.

Theorem C64_protected_refuted : exists t F key n d, document gw_pics [] locked_cfg t F /\ map (fun x => snd (fst x)) t = prog_res /\ opens F (B"user") (Some key) /\
  resource F (B"XObject") (B"I2") n /\ jpeg_dict 3 2 (B"DeviceRGB") d /\ picture_data (Some key) F n d a_jpeg /\ forall d' s, ~ stream_is F n d' s.
Proof. exact protected_case. Qed.
Print Assumptions C64_protected_refuted.
