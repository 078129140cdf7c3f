(** When the documents of GoPdf can be saved: what C91 says of the fonts and the
    pictures of a program. *)
From Coq Require Import String List ZArith Bool.
From Coq.Floats Require Import SpecFloat.
From Verif Require Import Base Output Png Float64 Ttf TtfSpec Subset GoPdf GoPdfSpec GoPdfSetSpec SaveGoesFinal.
Open Scope Z_scope.
Open Scope list_scope.

(** A font file all of whose characters have glyphs that can be embedded. *)
Definition fit_font (d beyond : bytes) : Prop :=
  exists n, complete_font d beyond n /\ forall t r g, parseTtf d = Ok t -> glyph_index t r = Ok g -> g < n.
(** The font files that the calls have added. *)
Definition fit_fonts (t : trace) : Prop :=
  forall q family kerning style d beyond, In (q, AddFont family kerning style (Some d) beyond, None) t -> fit_font d beyond.
(** No picture that the calls have added has a palette. *)
Definition no_palette (w : gworld) (t : trace) : Prop :=
  forall p, In p (pictures t) -> forall info, parseImg (gw_config w) (gw_inflate w) (gw_compress w) (snd p) (snd (fst p)) = Ok info -> colspace info <> B"Indexed".
