(** Where texts move the position to, and how contents are compressed; part of
    the specification (C70, C73). *)
From Coq Require Import String List ZArith Lia Bool.
From Coq.Floats Require Import SpecFloat.
From Verif Require Import Base Utf8 PdfSyntax Float64 Ttf Text TextSpec GoPdf GoPdfSpec GoPdfDrawSpec GoPdfDocSpec.
Open Scope Z_scope.
Open Scope list_scope.

(** ** Positions *)

(** The text is added to the last line of the page. *)
Definition joins (ps : list piece) (l : line) (g : gp) : Prop := exists r, ps = r ++ [Words l] /\ goes_on l g = true.

(** The size of a text: that of its rectangle, or else the width of its glyphs
    and the height of the font. *)
Definition extent (f : gfont) (size : Z) (rect : option (f64 * f64)) (text : bytes) : f64 * f64 :=
  match rect with
  | Some r => r
  | None => (scale_width (advances f None (runes text)) size, fsub (typo_asc (gf_ttf f) size) (typo_desc (gf_ttf f) size))
  end.

(** Where a cell moves to: to the right if the option says so or says nothing,
    down if the option says so. *)
Definition floats (c : gcall) : Z := match c with Cell _ _ => 2 | CellOpt _ _ _ _ f => f | _ => 0 end.
Definition to_right (c : gcall) : bool := (floats c =? 0) || Z.testbit (floats c) 1.
Definition down (c : gcall) : bool := Z.testbit (floats c) 0.

(** ** Levels of compression *)

(** What SetCompressLevel says it does: levels from -2 to 9 are taken, smaller
    ones are replaced by the default and greater ones by the best. *)
Definition level_for (n : Z) : Z := if n <? -2 then -1 else if 9 <? n then 9 else n.
Definition level_of (t : trace) : Z := fold_left (fun l x => match snd (fst x) with CompressLevel n => level_for n | _ => l end) t (-1).

(** The stream of object [id] is [s], packed at that level, or as it is for level 0. *)
Definition packed (w : gworld) (level : Z) (key : option bytes) (F : bytes) (id : Z) (s : bytes) : Prop :=
  exists d raw mid, stream_is F id d raw /\ decrypted key id raw mid /\
    if level =? 0 then lookup (B"Filter") d = None /\ mid = s else lookup (B"Filter") d = Some (PName (B"FlateDecode")) /\ mid = gw_deflate w level s.

(** The text can be measured: the font has units, and glyphs of sixteen bits for it. *)
Definition measurable (f : gfont) (text : bytes) : Prop := sound (Show (gf_ttf f) (kern_units f) text).
