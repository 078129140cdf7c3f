(** How the calls of a program end; part of the specification. *)
From Coq Require Import String List ZArith Lia Bool.
From Coq.Floats Require Import SpecFloat.
From Verif Require Import Base Utf8 Png Float64 Ttf TtfSpec TtfProofs TtfTotal Subset Text GoPdf GoPdfSpec GoPdfSetSpec.
Open Scope Z_scope.
Open Scope list_scope.

(** The file of a font has a number of units above 0 and a width for every glyph. *)
Definition has_widths (d : bytes) : Prop :=
  Forall bytep d /\ (exists u, units_per_em d u /\ 0 < u) /\ forall g, 0 <= g -> exists w, advance d g w.

(** No value of the call comes back, that is the program is at its end. *)
Definition dies (r : gends) : Prop := r = Panic.
Definition succeeds (r : gends) : Prop := exists g, r = Ok (g, None).
Definition fails (r : gends) : Prop := exists g e, r = Ok (g, Some e).

(** The end of a call of text: with no font selected the program is at its end, also
    for an empty text.  With a font it is at its end only if a character leads the
    lookup out of the segments or the glyphs of the cmap table. *)
Definition text_end (s : settings) (l : list afont) (text : bytes) (r : gends) : Prop :=
  match s_font s with
  | None => dies r
  | Some (family, style, _) => exists a, font_for l family style = Some a /\
      (Forall (fun a => has_widths (af_file a)) l ->
       succeeds r \/ fails r \/ (dies r /\ exists t c, parseTtf (af_file a) = Ok t /\ In c (runes text) /\ glyph_index t c = Panic))
  end.

(** The end of the reading of a picture (C51 to C53 and C71 are about what it makes): [parseImg] is
    called for the bytes [d]. *)
Definition picture_end (w : gworld) (beyond d : bytes) (r : gends) : Prop :=
  match parseImg (gw_config w) (gw_inflate w) (gw_compress w) beyond d with
  | Ok _ => succeeds r
  | Err _ => fails r
  | Panic => dies r
  | Diverge => r = Diverge
  end.

(** The end of a call after the calls of [t].  A picture of an earlier name is not
    read again.  Without a rectangle the size of the picture is asked for first, and
    with a height or width of 0 the program may be at its end. *)
Definition end_of (w : gworld) (cfg : gconfig) (t : trace) (c : gcall) (r : gends) : Prop :=
  let s := settings_of cfg t in
  let l := added t in
  match c with
  | SetFont family style _ => if match font_for l family style with Some _ => true | None => false end then succeeds r else fails r
  | SetFontString family style _ => if match font_for l family (converted_style style) with Some _ => true | None => false end then succeeds r else fails r
  | KernOverride family _ => if existsb (fun a => beqb (af_family a) family) l then succeeds r else fails r
  | AddFont _ _ _ None _ => fails r
  | AddFont _ _ _ (Some d) _ => Forall bytep d -> succeeds r \/ fails r \/ (dies r /\ zero_metrics d)
  | Text text | Cell _ text | CellOpt _ text _ _ _ => text_end s l text r
  | Measure _ => (s_font s = None -> dies r) /\ (dies r \/ fails r)
  | ImageBy id d beyond _ _ rect =>
    if existsb (fun p => beqb id (fst (fst p))) (pictures t) then succeeds r else
    match rect, gw_bounds w d with
    | Some _, _ => picture_end w beyond d r
    | None, None => fails r
    | None, Some (dx, dy) => (dx <> 0 -> dy <> 0 -> picture_end w beyond d r) /\ (picture_end w beyond d r \/ dies r)
    end
  | _ => succeeds r
  end.
