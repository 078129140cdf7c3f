(** Where text and images are on the page: the properties C57, C58 and, in real
    numbers, C56. *)
From Coq Require Import String List ZArith Lia Bool Reals.
From Coq.Floats Require Import SpecFloat.
From Verif Require Import Base Utf8 PdfSyntax Float64 Ttf TtfSpec TestFont Text TextSpec TextPlaceSpec TextNumbers TextDraw TextFinal TextCases TextCases2 PdfSyntaxProofs ImgDraw TextPlaced PlaceCases.
Open Scope Z_scope.
Open Scope list_scope.

(** ** C57: where text is *)

(** The stream of a text shows the glyphs of its characters in the font and
    size asked for, beginning where the alignment puts a line of the measured
    width in the cell, with the base line where the alignment puts a line that
    reaches from the font's typographic descender to its ascender.
    [set_in] (TextPlaced.v) limits numbers to a million points, and asks for an
    underline thickness that is not negative.  Missing: larger numbers. *)
Theorem C57_text_placed_partial : forall d f c u a b up uh, set_in d f c u a b up uh -> forall index s, g_text s = false ->
  exists o s2 ms tail w gs, text_stream f index c = Ok o /\ draws o s s2 (ms ++ tail) /\ Forall no_glyph tail /\
    measure f (ct_size c) (ct_text c) = Ok w /\ codes_of ms = gs /\ Forall2 (char_glyph d) (runes (ct_text c)) gs /\
    Forall (fun m => match m with
                     | Glyph _ font size _ _ (x, y) => font = B"F" ++ itoa index /\ size = 100 * ct_size c /\
                         across (ct_align c) (val (ct_x c)) (val (ct_w c)) (val w) x /\
                         along (ct_align c) (val (ct_height c) - val (ct_y c)) (val (ct_h c)) (units a u (ct_size c)) (units b u (ct_size c)) y
                     | Adjust _ => True
                     | _ => False
                     end) ms.
Proof. exact text_placed. Qed.
Print Assumptions C57_text_placed_partial.

(** A font with lines at 1600 and -400 of 2000 units; the cell is 200 by 100 at
    (10, 20) from the upper left corner, the text is at its bottom right. *)
Example C57_set : set_in lined_font (lined (B"AB")) (cell (B"AB") 4 3 1) 2000 1600 (-400) (-150) 100.
Proof. exact (lined_set 4 3). Qed.
Example C57_case : exists o s2 fill, text_stream (lined (B"AB")) 1 (cell (B"AB") 4 3 1) = Ok o /\
  draws o plain_state s2 [Glyph 1 (B"F1") 1200 0 fill (20220, 72429); Glyph 2 (B"F1") 1200 0 fill (20220, 72429);
    Filled [(1000, 81259); (21000, 81259); (21000, 81199); (1000, 81199)] fill;
    Stroke [(950, 82189); (21050, 82189)] 100 ([], 0); Stroke [(1000, 82189); (1000, 72189)] 100 ([], 0);
    Stroke [(21000, 82189); (21000, 72189)] 100 ([], 0); Stroke [(950, 72189); (21050, 72189)] 100 ([], 0)].
Proof. exact placed_case. Qed.

(** ** C56: where underline and border are *)
Theorem C56_placed_partial : forall d f c u a b up uh, set_in d f c u a b up uh -> forall index s, g_text s = false ->
  let top := (val (ct_height c) - val (ct_y c))%R in let x := val (ct_x c) in let w := val (ct_w c) in
  exists o s2 ms ul br, text_stream f index c = Ok o /\ draws o s s2 (ms ++ ul ++ br) /\
    Forall (fun m => match m with Glyph _ _ _ _ _ _ | Adjust _ => True | _ => False end) ms /\
    (if Z.testbit (ct_style c) 2
     then exists x0 y0 w0 h0 fill, ul = [Filled [(x0, y0); (x0 + w0, y0); (x0 + w0, y0 - h0); (x0, y0 - h0)] fill] /\
            cents_of x0 x /\ cents_of y0 (top + units up u (ct_size c) - IZR (ct_size c) * 7 / 10) /\ cents_of w0 w /\ cents_of h0 (units uh u (ct_size c))
     else ul = []) /\
    (if fgt (ct_line c) (fofz 0)
     then exists x0 x1 x2 x3 y0 y1, br = map (fun p => Stroke p (g_line s) (g_dash s)) [[(x0, y0); (x3, y0)]; [(x1, y0); (x1, y1)]; [(x2, y0); (x2, y1)]; [(x0, y1); (x3, y1)]] /\
            cents_of x0 (x - val (ct_line c) / 2) /\ cents_of x1 x /\ cents_of x2 (x + w) /\ cents_of x3 (x + w + val (ct_line c) / 2) /\
            cents_of y0 top /\ cents_of y1 (top - val (ct_h c))
     else br = []).
Proof. exact decoration_placed. Qed.
Print Assumptions C56_placed_partial.

(** The underline does not follow the text: for a text at the bottom right of
    its cell it is more than seven times the font size above the base line, and
    begins 190 points to the left of the text. *)
Theorem C56_aligned_refuted : exists d f c u a b up uh o s2 ms x y w h fill, set_in d f c u a b up uh /\ text_stream f 1 c = Ok o /\
  draws o plain_state s2 (ms ++ [Filled [(x, y); (x + w, y); (x + w, y - h); (x, y - h)] fill]) /\
  Exists (fun m => match m with Glyph _ _ size _ _ (gx, gy) => 7 * size <= y - gy /\ x + 19000 <= gx | _ => False end) ms.
Proof. exact underline_apart. Qed.
Print Assumptions C56_aligned_refuted.

(** ** C58: where images are *)

(** The content of an image draws that image, under its resource name, scaled
    to the size asked for, its upper left corner at the place asked for, and
    leaves the drawing state as it was. *)
Theorem C58_image_placed_partial : forall w h x y height ch idx s, on_paper w -> on_paper h -> on_paper x -> on_paper y -> on_paper height -> reg_word ch -> g_cm s = None ->
  exists a b e f, draws (img_stream w h x y height ch idx) s s [Image (ch ++ itoa idx) (Some (a, 0, 0, b, e, f))] /\
    cents_of a (val w) /\ cents_of b (val h) /\ cents_of e (val x) /\ cents_of f (val height - val y - val h).
Proof. exact img_placed. Qed.
Print Assumptions C58_image_placed_partial.

Example C58_case : on_paper (fofz 100) /\ draws (img_stream (fofz 100) (fofz 50) (fofz 10) (fofz 20) (fconst 84189 100) (B"Im") 3) plain_state plain_state
  [Image (B"Im3") (Some (10000, 0, 0, 5000, 1000, 77189))].
Proof. exact img_case. Qed.
