(** Texts that are written: the conditions of C92. *)
From Coq Require Import String List ZArith Bool.
From Coq.Floats Require Import SpecFloat.
From Verif Require Import Base Utf8 Float64 Ttf TtfSpec Subset GoPdf GoPdfSpec GoPdfSetSpec GoPdfResSpec.
Open Scope Z_scope.
Open Scope list_scope.

(** The texts that were handed over before were texts. *)
Definition texts_valid (t : trace) : Prop := forall x s, In x t -> call_text (snd (fst x)) = Some s -> valid_utf8 s.
(** No font was added twice under the same name and style. *)
Definition added_once (t : trace) : Prop :=
  forall n m a b, nth_error (added t) n = Some a -> nth_error (added t) m = Some b -> af_family a = af_family b -> no_underline (af_style a) = no_underline (af_style b) -> n = m.
(** The cmap table of a font file leads every character of a text to a glyph; this is
    glyph 0 for a character below 65536 that the font does not have. *)
Definition font_has (d text : bytes) : Prop := forall tf c, parseTtf d = Ok tf -> In c (runes text) -> exists g, glyph_index tf c = Ok g.
(** The calls that write a text. *)
Definition writes_text (c : gcall) : option bytes := match c with Text t | Cell _ t | CellOpt _ t _ _ _ => Some t | _ => None end.
