(** Borders around cells (C80).  Specification. *)
From Coq Require Import String List ZArith Lia Bool Reals.
From Coq.Floats Require Import SpecFloat.
From Verif Require Import Base PdfSyntax Float64 Ttf TtfSpec Text TextSpec TextPlaceSpec TextPlaced Api ApiSpec.
Open Scope Z_scope.
Open Scope list_scope.

(** After the calls of [log] borders are shown, or not: what the last
    ShowCellBorder says, if no document was opened since; a document that is
    opened has them hidden.  An Open that fails leaves it open which. *)
Definition says_border (e : entry) (b : bool) : Prop := e = (KBorder b, None) \/ (b = false /\ exists raw, e = (KOpen raw, None)).
Definition border_matter (e : entry) : bool := match fst e with KBorder _ | KOpen _ => true | _ => false end.
Definition border_is (log : list entry) (b : bool) : Prop :=
  exists before e after, log = before ++ e :: after /\ says_border e b /\ forallb (fun e => negb (border_matter e)) after = true.

(** How lines are drawn: width and dashes in hundredths; with borders a tenth
    wide, two on and three off, beginning at eleven. *)
Definition line_style (st : gstate) : Z * (list Z * Z) := (g_line st, g_dash st).
Definition dotted_thin : Z * (list Z * Z) := (10, ([200; 300], 1100)).

(** The cell with upper left corner [(x, y)], seen from the upper left corner of a
    page of the given height, and its border: two lines along the upper and lower
    edge that go half a line width further on both sides, and two down the sides. *)
Definition bordered (b : bool) (style : Z * (list Z * Z)) (x y w h height : R) (br : list mark) : Prop :=
  if b
  then exists x0 x1 x2 x3 y0 y1 half, br = map (fun p => Stroke p (fst style) (snd style)) [[(x0, y0); (x3, y0)]; [(x1, y0); (x1, y1)]; [(x2, y0); (x2, y1)]; [(x0, y1); (x3, y1)]] /\
    (Rabs (half - 1 / 20) <= 1 / 1000000)%R /\
    cents_of x0 (x - half) /\ cents_of x1 x /\ cents_of x2 (x + w) /\ cents_of x3 (x + w + half) /\ cents_of y0 (height - y) /\ cents_of y1 (height - y - h)
  else br = [].
Definition no_stroke (m : mark) : Prop := match m with Stroke _ _ _ => False | _ => True end.

(** What is needed of what is on page [pg] up to the text: numbers and fonts as in
    C57 and C58. *)
Definition well_set (s : state) (pg : Z) (e : contenter) : Prop :=
  match e with
  | CLine _ _ => True
  | CText id c => ct_page c = pg -> exists f d u a b up uh, nth_error (s_fonts s) id = Some f /\ set_in d (sfont_of f) c u a b up uh
  | CImg id p x y w h height => p = pg -> on_paper x /\ on_paper y /\ on_paper w /\ on_paper h /\ on_paper height /\ exists i, nth_error (s_imgs s) id = Some i
  end.
