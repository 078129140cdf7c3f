(** What the operators a save adds to the pages draw (C72).  Specification. *)
From Coq Require Import String List ZArith Lia Bool Reals.
From Coq.Floats Require Import SpecFloat.
From Verif Require Import Base Utf8 PdfSyntax Float64 Output OutputSpec Props PropsSpec PdfData InjectSpec PagesSpec Ttf TtfSpec Subset FontChainSpec FontChain Crypto Api Text TextSpec TextPlaceSpec TextCases SaveSpec SaveLockSpec.
Open Scope Z_scope.
Open Scope list_scope.

(** Without more, [ops] draws the image with data [data] that the image
    dictionary [xps] has, as a rectangle of [w] by [h] with the upper left corner
    [x] to the right of the left and [y] below the upper edge of a page of the
    given height. *)
Definition shows_image (os : list obj) (xps : list prop) (data : bytes) (x y w h height : R) (ops : bytes) : Prop :=
  exists name n, font_named xps name n /\ the_object os n (mkObj n data) /\
    forall st, g_cm st = None -> exists a b e f, draws ops st st [Image name (Some (a, 0, 0, b, e, f))] /\
      cents_of a w /\ cents_of b h /\ cents_of e x /\ cents_of f (height - y - h)%R.

(** [ops] draws the text of [c] with the glyphs the font file [d] has for its
    characters, in a font that the font dictionary [fps] has and that is completely
    embedded; the places are those of C57 ([u] units per em, typographic lines
    [a] and [b]). *)
Definition shows_text (w : world) (os : list obj) (fps : list prop) (f : font) (d : bytes) (u a b : Z) (c : ctext) (ops : bytes) : Prop :=
  exists name n wd, font_named fps name n /\ embeds w os f n /\ measure (sfont_of f) (ct_size c) (ct_text c) = Ok wd /\
    forall st, g_text st = false -> exists st2 ms tail, draws ops st st2 (ms ++ tail) /\ Forall no_glyph tail /\
      Forall2 (char_glyph d) (runes (ct_text c)) (codes_of ms) /\
      Forall (fun m => match m with
                       | Glyph _ font size _ _ (x, y) => font = name /\ size = 100 * ct_size c /\
                           across (ct_align c) (val (ct_x c)) (val (ct_w c)) (val wd) x /\
                           along (ct_align c) (val (ct_height c) - val (ct_y c)) (val (ct_h c)) (units a u (ct_size c)) (units b u (ct_size c)) y
                       | Adjust _ => True
                       | _ => False
                       end) ms.

(** The file of a font: bytes, [u] units per em, the typographic lines and the
    underline; and what the theorems need of its characters in a text: widths,
    and glyph numbers of sixteen bits. *)
Record face_file (d : bytes) (u a b up uh : Z) : Prop := {
  ff_bytes : Forall (fun c => 0 <= c <= 255) d; ff_small : blen d < 2 ^ 62;
  ff_units : units_per_em d u; ff_some : 0 < u; ff_lines : typo_lines d a b; ff_under : underline_at d up uh; ff_thick : 0 <= uh }.
Definition has_widths (d text : bytes) : Prop :=
  forall t r g, parseTtf d = Ok t -> In r (runes text) -> glyph_index t r = Ok g -> (65535 < r -> 0 <= g < 65536) /\ exists w, advance d g w.

(** The content stream of page [pid] is [old] followed by what was drawn, and
    [ops] is a part of that. *)
Definition drawn_on (os : list obj) (pid cid : Z) (old ops : bytes) : Prop :=
  exists pre post, page_shows os pid cid (old ++ [10] ++ pre ++ ops ++ post).
(** Page [k] of the document before it is saved: object [pid], with a content
    stream that no other page has. *)
Definition own_page (ts : list tree) (srcs : list (option (Z * bytes))) (k pid cid : Z) (old : bytes) : Prop :=
  1 <= k /\ nth_error (flat_map leaves ts) (Z.to_nat (k - 1)) = Some pid /\
  nth_error srcs (Z.to_nat (k - 1)) = Some (Some (cid, old)) /\
  forall j t, nth_error srcs j = Some (Some (cid, t)) -> j = Z.to_nat (k - 1).

(** No passwords, or a user and an owner password. *)
Definition protected_by (s : state) (pw : option (bytes * bytes)) : Prop :=
  match pw with
  | None => s_prot s = None
  | Some (user, owner) => exists pr rnd perm, s_prot s = Some pr /\ setProtection rnd perm user owner = Ok pr /\ 0 <= perm < 256
  end.
Definition file_holds (F : bytes) (p : pdf) (pw : option (bytes * bytes)) : Prop :=
  match pw with None => file_of F p | Some (user, owner) => locked_file F p user owner end.
