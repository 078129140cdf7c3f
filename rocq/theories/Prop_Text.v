(** Text: the properties C27, C31, C32, C33, C48, C55, C56. *)
From Coq Require Import String List ZArith Lia Bool.
From Coq.Floats Require Import SpecFloat.
From Verif Require Import Base BaseProofs Utf8 Utf8Proofs PdfSyntax PdfSyntaxProofs Float64 Ttf TtfSpec TtfProofs TtfTables Subset CharMap TestFont Text TextSpec TextNumbers TextDraw TextBody TextContent TextFinal TextCases TextCases2 Wrap WrapProofs.
Open Scope Z_scope.
Open Scope list_scope.

(** ** C48: text is shown with the glyphs of its characters *)

(** From any state in which no text is open, the content draws the glyphs of the
    characters in order, with the font, the size and the start of the line asked
    for; other than that only lines and rectangles. *)
Theorem C48_text_partial : forall d f index c s, font_ready d f (ct_text c) -> drawable f c -> g_text s = false ->
  exists o s2 ms tail w gs, text_stream f index c = Ok o /\ draws o s s2 (ms ++ tail) /\ g_text s2 = false /\ Forall no_glyph tail /\
    measure f (ct_size c) (ct_text c) = Ok w /\
    codes_of ms = gs /\ Forall2 (char_glyph d) (runes (ct_text c)) gs /\
    Forall (fun m => match m with
                     | Glyph _ font size _ _ start => font = B"F" ++ itoa index /\ size = 100 * ct_size c /\
                         near (cal_x c (ct_w c) w) (fst start) /\ near (cal_y (sf_ttf f) c (ct_h c)) (snd start)
                     | Adjust _ => True
                     | _ => False
                     end) ms.
Proof. exact text_codes. Qed.
(** What is drawn is determined by the content. *)
Theorem C48_unique : forall s g g1 ms1 g2 ms2, draws s g g1 ms1 -> draws s g g2 ms2 -> g1 = g2 /\ ms1 = ms2.
Proof. exact draws_unique. Qed.
(** A text that could not be added (a character beyond the Basic Multilingual
    Plane that is not in the font) still is written, as something that is not a
    content stream. *)
Theorem C48_failed_refuted : exists d t c m o, Forall bytep d /\ parseTtf d = Ok t /\ add_chars t (ct_text c) [] = (m, Err EOther) /\
  text_stream (mkSfont t m None None) 1 c = Ok o /\ forall s s2 ms, ~ draws o s s2 ms.
Proof. exact failed_text. Qed.
Example C48_case : exists o s2 fill start, text_stream (test_sfont (B"AC" ++ [240; 159; 152; 128]) None None) 1 (test_text (B"AC" ++ [240; 159; 152; 128]) None) = Ok o /\
  font_ready test_font (test_sfont (B"AC" ++ [240; 159; 152; 128]) None None) (B"AC" ++ [240; 159; 152; 128]) /\
  draws o plain_state s2 [Glyph 1 (B"F1") 1200 0 fill start; Glyph 4 (B"F1") 1200 0 fill start; Glyph 1 (B"F1") 1200 0 fill start].
Proof. exact text_case. Qed.
Print Assumptions C48_text_partial.
Print Assumptions C48_unique.
Print Assumptions C48_failed_refuted.

(** ** C55: kerning and rise *)

(** Before each character but the first stands the kerning the override gives for
    the pair, in thousandths of the size and counted to the left, and each
    character has the rise the override gives for its position. *)
Theorem C55_overrides_partial : forall d f index c s, font_ready d f (ct_text c) -> drawable f c -> g_text s = false ->
  exists o s2 l u fill start rise tail, text_stream f index c = Ok o /\ units_per_em d u /\ map fst l = runes (ct_text c) /\
    draws o s s2 (shown (fun g z => Glyph g (B"F" ++ itoa index) (100 * ct_size c) z fill start)
      (fun prev x => match sf_kern f, prev with Some k, Some p => Z.quot (1000 * k (fst p) (fst x) (snd p) (snd x) 0) u | _, _ => 0 end) rise None 0 l ++ tail) /\
    Forall no_glyph tail /\
    forall prev r k, match sf_rise f with
                     | Some h => near (h (match prev with Some p => fst p | None => 0 end) r (ct_size c) (ct_text c) k) (rise prev r k)
                     | None => rise prev r k = g_rise s
                     end.
Proof. exact text_overrides. Qed.
(** The rise of one text stays for the texts after it on the page: without an
    override of its own the second text is raised by the first. *)
Theorem C55_leak_refuted : exists h c1 c2 o1 o2 s2 s3 fill start,
  text_stream (test_sfont (ct_text c1) None (Some h)) 1 c1 = Ok o1 /\ text_stream (test_sfont (ct_text c2) None None) 2 c2 = Ok o2 /\
  (exists ms, draws o1 plain_state s2 ms) /\ draws o2 s2 s3 [Glyph 1 (B"F2") 1200 500 fill start] /\ g_rise plain_state = 0.
Proof. exact rise_leaks. Qed.
Example C55_case : exists o s2 fill start, text_stream (test_sfont (B"AB") (Some (fun _ _ _ _ _ => -100)) (Some (fun _ _ _ _ k => fofz k))) 1 (test_text (B"AB") None) = Ok o /\
  draws o plain_state s2 [Glyph 1 (B"F1") 1200 0 fill start; Adjust 5000; Glyph 2 (B"F1") 1200 100 fill start].
Proof. exact overrides_case. Qed.
Print Assumptions C55_overrides_partial.
Print Assumptions C55_leak_refuted.

(** ** C33: colour *)

(** If the components do not add up to a multiple of 256, or no colour is given,
    every glyph has the colour to the nearest hundredth (black if none is given),
    whatever was drawn before. *)
Theorem C33_colour_partial : forall d f index c s, font_ready d f (ct_text c) -> drawable f c -> g_text s = false ->
  (forall r g b, ct_color c = Some (r, g, b) -> (0 <= r < 256 /\ 0 <= g < 256 /\ 0 <= b < 256) /\ (r + g + b) mod 256 <> 0) ->
  exists o s2 ms fr fg fb, text_stream f index c = Ok o /\ draws o s s2 ms /\
    Forall (fun m => match m with Glyph _ _ _ _ fill _ => fill = (fr, fg, fb) | _ => True end) ms /\
    match ct_color c with
    | Some (r, g, b) => Z.abs (255 * fr - 100 * r) <= 127 /\ Z.abs (255 * fg - 100 * g) <= 127 /\ Z.abs (255 * fb - 100 * b) <= 127
    | None => (fr, fg, fb) = (0, 0, 0)
    end.
Proof. exact text_colour. Qed.
(** Olive, and black, are drawn in whatever colour came before. *)
Theorem C33_inherited_refuted : forall rgb, rgb = (128, 128, 0) \/ rgb = (0, 0, 0) -> exists o s s2 start,
  text_stream (test_sfont (B"A") None None) 1 (test_text (B"A") (Some rgb)) = Ok o /\
  draws o s s2 [Glyph 1 (B"F1") 1200 0 (100, 0, 0) start].
Proof. exact colour_inherited. Qed.
(** Two different colours give the same drawing. *)
Theorem C33_rounded_refuted : exists c1 c2, c1 <> c2 /\
  text_stream (test_sfont (B"A") None None) 1 (test_text (B"A") (Some c1)) = text_stream (test_sfont (B"A") None None) 1 (test_text (B"A") (Some c2)).
Proof. exists (99, 0, 1), (100, 0, 1). split; [discriminate|vm_compute; reflexivity]. Qed.
Example C33_case : exists o s s2 start, text_stream (test_sfont (B"A") None None) 1 (test_text (B"A") (Some (255, 0, 51))) = Ok o /\
  g_fill s = (10, 20, 30) /\ draws o s s2 [Glyph 1 (B"F1") 1200 0 (100, 0, 20) start].
Proof. exact colour_case. Qed.
Print Assumptions C33_colour_partial.
Print Assumptions C33_inherited_refuted.
Print Assumptions C33_rounded_refuted.

(** ** C56: underline and border *)

(** After the text the underline is one filled rectangle that hangs down from
    the underline position, and the border is four strokes around the cell, in
    that order, and nothing else is drawn. *)
Theorem C56_decoration_partial : forall d f index c s, font_ready d f (ct_text c) -> drawable f c -> g_text s = false ->
  exists o s2 ms ul br, text_stream f index c = Ok o /\ draws o s s2 (ms ++ ul ++ br) /\
    Forall (fun m => match m with Glyph _ _ _ _ _ _ | Adjust _ => True | _ => False end) ms /\
    (if Z.testbit (ct_style c) 2
     then exists x y w h fill, ul = [Filled [(x, y); (x + w, y); (x + w, y - h); (x, y - h)] fill] /\
            near (ct_x c) x /\ near (ul_y (sf_ttf f) c) y /\ near (fsub (fadd (ct_x c) (ct_w c)) (ct_x c)) w /\ near (ul_h (sf_ttf f) c) h
     else ul = []) /\
    (if fgt (ct_line c) (fofz 0)
     then let off := fmul (ct_line c) half in let top := fsub (ct_height c) (ct_y c) in let bot := fsub top (ct_h c) in let xr := fadd (ct_x c) (ct_w c) in
          exists x0 x1 x2 x3 y0 y1, br = map (fun p => Stroke p (g_line s) (g_dash s)) [[(x0, y0); (x3, y0)]; [(x1, y0); (x1, y1)]; [(x2, y0); (x2, y1)]; [(x0, y1); (x3, y1)]] /\
            near (fsub (ct_x c) off) x0 /\ near (ct_x c) x1 /\ near xr x2 /\ near (fadd xr off) x3 /\ near top y0 /\ near bot y1
     else br = []).
Proof. exact text_decoration. Qed.
(** A negative underline thickness gives two minus signs and no content stream. *)
Theorem C56_thickness_refuted : exists d t c m o, Forall bytep d /\ parseTtf d = Ok t /\ underlineThickness t = -100 /\ add_chars t (ct_text c) [] = (m, Ok tt) /\
  text_stream (mkSfont t m None None) 1 c = Ok o /\ forall s s2 ms, ~ draws o s s2 ms.
Proof. exact negative_underline. Qed.
Example C56_case : exists o s2 ms, text_stream (test_sfont (B"A") None None) 1 (decorated (B"A")) = Ok o /\
  draws o plain_state s2 (ms ++ [Filled [(1000, 81349); (11000, 81349); (11000, 81349); (1000, 81349)] (0, 0, 0);
    Stroke [(950, 82189); (11050, 82189)] 100 ([], 0); Stroke [(1000, 82189); (1000, 80189)] 100 ([], 0);
    Stroke [(11000, 82189); (11000, 80189)] 100 ([], 0); Stroke [(950, 80189); (11050, 80189)] 100 ([], 0)]).
Proof. exact decoration_case. Qed.
Print Assumptions C56_decoration_partial.
Print Assumptions C56_thickness_refuted.

(** ** C27: widths *)

(** Without kerning the width is the sum of the advance widths of the characters'
    glyphs, in thousandths, times size/1000. *)
Theorem C27_sum : forall d f text, font_ready d f text -> sf_kern f = None -> exists u ws, units_per_em d u /\ 0 < u /\
  Forall2 (fun r w => exists g a, char_glyph d r g /\ advance d g a /\ w = a * 1000 / u) (runes text) ws /\
  forall size, measure f size text = Ok (fmul (fofz (fold_right Z.add 0 ws)) (fdiv (fofz size) (fofz 1000))).
Proof. exact measure_sum. Qed.
(** What MeasureTextWidth returns, an error included, does not depend on the texts
    the font was used for before. *)
Theorem C27_history : forall t k h before before' size text,
  snd (measure_text (mkSfont t (add_texts t before []) k h) size text) = snd (measure_text (mkSfont t (add_texts t before' []) k h) size text).
Proof. exact measure_history. Qed.
Theorem C27_concat_partial : forall d f a b, font_ready d f a -> font_ready d f b -> valid_utf8 a -> sf_kern f = None ->
  exists na nb, forall size, measure f size a = Ok (scale_width na size) /\ measure f size b = Ok (scale_width nb size) /\ measure f size (a ++ b) = Ok (scale_width (na + nb) size).
Proof. exact measure_concat. Qed.
(** Halves of a character are two characters. *)
Theorem C27_concat_refuted : exists f a b, sf_kern f = None /\ sf_ttf f = test_ttf /\
  measure f 1000 a = Ok (fofz 250) /\ measure f 1000 b = Ok (fofz 250) /\ measure f 1000 (a ++ b) = Ok (fofz 250).
Proof.
  exists (mkSfont test_ttf [(233, 0); (65533, 0)] None None), [195], [169]. vm_compute. auto.
Qed.
Example C27_case : font_ready test_font (test_sfont (B"AC") None None) (B"AC") /\ measure (test_sfont (B"AC") None None) 12 (B"AC") = Ok (fofz 9).
Proof. split; [apply test_ready; vm_compute; reflexivity|vm_compute; reflexivity]. Qed.
Print Assumptions C27_sum.
Print Assumptions C27_history.
Print Assumptions C27_concat_partial.
Print Assumptions C27_concat_refuted.

(** ** C32: breaking *)
Theorem C32_lossless_partial : forall s, valid_utf8 s -> List.concat (break_text s) = s.
Proof. exact break_valid. Qed.
(** What is not valid UTF-8 comes out with U+FFFD instead. *)
Theorem C32_any : forall s, List.concat (break_text s) = flat_map string_of_rune (runes s).
Proof. intros s. apply (break_concat (runes s) []). Qed.
Theorem C32_lossless_refuted : exists s, List.concat (break_text s) <> s.
Proof. exists [255]. vm_compute. discriminate. Qed.
Theorem C32_tokens : forall s tok, In tok (break_text s) -> tok = B" " \/ ~ In 32 tok.
Proof. intros s tok H. apply (break_tokens (runes s) []); [intros []|exact H]. Qed.
Example C32_case : break_text (B"Hello  World") = [B"Hello"; B" "; []; B" "; B"World"].
Proof. vm_compute. reflexivity. Qed.
Print Assumptions C32_lossless_partial.
Print Assumptions C32_any.
Print Assumptions C32_lossless_refuted.
Print Assumptions C32_tokens.

(** ** C31: wrapping *)

(** The non-empty tokens are divided into groups, one per line, in order; what is
    drawn of a group is its text without white space at both ends.  A group of
    two or more tokens is not wider than [w], and with the first token of the
    next group it would be.  Lines are 1.2 sizes apart. *)
Theorem C31_groups_partial : forall t k h before size w y align toks f' lines,
  let f := mkSfont t (add_texts t before []) k h in
  wrap_lines f size w y align toks = (f', Ok lines) ->
  exists groups off, List.concat groups = filter nonempty toks /\ map fst lines = map (fun g => trim_space (List.concat g)) groups /\
    Forall (fun g => (2 <= List.length g)%nat -> exists v, width_of f size (List.concat g) = Ok v /\ fgt v w = false) groups /\
    (forall p a b q, groups = p ++ a :: b :: q -> exists x v, hd_error b = Some x /\ width_of f size (List.concat a ++ x) = Ok v /\ fgt v w = true) /\
    map snd lines = map (fun z => fsub z off) (steps (List.length groups) y (fadd (fofz size) (fmul (fofz size) (fconst 2 10)))) /\
    (hasbit align aMiddle = false -> off = fofz 0).
Proof. exact wrap_groups_of. Qed.
(** With the library's breaker the lines joined are the text, but for white space
    at the ends of lines. *)
Theorem C31_text : forall t k h before size w y align text f' lines, valid_utf8 text ->
  wrap_lines (mkSfont t (add_texts t before []) k h) size w y align (break_text text) = (f', Ok lines) -> joined (map fst lines) text.
Proof. exact wrap_text. Qed.
(** White space is lost also where no line is broken, and at a break. *)
Theorem C31_spaces_refuted : exists w text f' lines, wrap_lines (test_sfont [] None None) 12 w (fofz 0) 0 (break_text text) = (f', Ok lines) /\
  List.concat (map fst lines) <> text.
Proof. exists (fofz 20), (B"AA BB "). eexists. eexists. split; [vm_compute; reflexivity|]. discriminate. Qed.
(** If the first token does not fit, an empty line is drawn before it. *)
Theorem C31_empty_line_refuted : exists w f' lines, wrap_lines (test_sfont [] None None) 12 w (fofz 0) 0 (break_text (B"AAA")) = (f', Ok lines) /\
  map fst lines = [[]; B"AAA"].
Proof. exists (fofz 1). eexists. eexists. split; vm_compute; reflexivity. Qed.
Example C31_case : exists f', wrap_lines (test_sfont [] None None) 10 (fofz 13) (fofz 0) 0 (break_text (B"AA BB A")) = (f', Ok [(B"AA", fofz 0); (B"BB A", fofz 12)]).
Proof. eexists. vm_compute. reflexivity. Qed.
Print Assumptions C31_groups_partial.
Print Assumptions C31_text.
Print Assumptions C31_spaces_refuted.
Print Assumptions C31_empty_line_refuted.
