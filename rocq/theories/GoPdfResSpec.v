(** Fonts and pictures in a file of GoPdf, as a reader finds them; part of the
    specification. *)
From Coq Require Import String List ZArith Lia Bool.
From Coq.Floats Require Import SpecFloat.
From Verif Require Import Base CryptoSpec PdfSyntax Float64 Ttf TtfSpec TtfProofs Subset FontObjects FontFinal TextCases GoPdf GoPdfSpec GoPdfDrawSpec GoPdfDocSpec GoPdfSetSpec.
Open Scope Z_scope.
Open Scope list_scope.

(** The resources of every page are object 3 (see [page_is]): under [name] of a
    category there is object [id]. *)
Definition resource (F : bytes) (category name : bytes) (id : Z) : Prop :=
  exists d e, object_is F 3 (PDict d) /\ lookup category d = Some (PDict e) /\ lookup name e = Some (PRef id 0).

(** Object [id] is a Type 0 font called [base] (ISO 32000-1, 9.7.6, 9.7.4, 9.8,
    9.9, 9.10.3) with widths [ws], ToUnicode map [uni] and font program [prog]. *)
Definition embedded_in (inflate : bytes -> res bytes) (key : option bytes) (F : bytes) (id : Z) (base : bytes) (ws : list pv) (uni prog : bytes) : Prop :=
  exists cid u desc file d1 d2 d3 d4 d5,
    object_is F id (PDict d1) /\ lookup (B"Type") d1 = Some (PName (B"Font")) /\ lookup (B"Subtype") d1 = Some (PName (B"Type0")) /\
      lookup (B"Encoding") d1 = Some (PName (B"Identity-H")) /\ lookup (B"BaseFont") d1 = Some (PName base) /\
      lookup (B"DescendantFonts") d1 = Some (PArr [PRef cid 0]) /\ lookup (B"ToUnicode") d1 = Some (PRef u 0) /\
    object_is F cid (PDict d2) /\ lookup (B"Type") d2 = Some (PName (B"Font")) /\ lookup (B"Subtype") d2 = Some (PName (B"CIDFontType2")) /\
      lookup (B"BaseFont") d2 = Some (PName base) /\ lookup (B"W") d2 = Some (PArr ws) /\ lookup (B"FontDescriptor") d2 = Some (PRef desc 0) /\
    decodes inflate key F u d3 uni /\ lookup (B"Filter") d3 = None /\
    object_is F desc (PDict d4) /\ lookup (B"Type") d4 = Some (PName (B"FontDescriptor")) /\ lookup (B"FontName") d4 = Some (PName base) /\
      lookup (B"FontFile2") d4 = Some (PRef file 0) /\
    decodes inflate key F file d5 prog /\ lookup (B"Filter") d5 = Some (PName (B"FlateDecode")) /\ lookup (B"Length1") d5 = Some (PInt (blen prog)).

(** What an embedded font must give for the characters [m] of the font file [d]:
    the glyphs of the file, their widths in thousandths, the way back to the
    characters, and the outlines. *)
Definition font_gives (d : bytes) (m : charmap) (ws : list pv) (uni prog : bytes) : Prop :=
  Forall bytep d -> blen d < 2 ^ 62 ->
  (forall r g, In (r, g) m -> char_glyph d r g) /\
  (forall r g w u, In (r, g) m -> 0 <= g -> advance d g w -> units_per_em d u -> 0 < u -> width_in ws g = Some (w * 1000 / u)) /\
  (map_ok m -> exists l, bfranges uni (Z.of_nat (List.length m)) l /\
     (forall r g, In (r, g) m -> exists r', In (g, g, r') l /\ In (r', g) m) /\
     (one_each m -> forall r g, In (r, g) m -> In (g, g, r) l) /\
     (forall a b c, In (a, b, c) l -> a = b /\ In (c, a) m)) /\
  (forall n, sound_font d n -> within n m -> one_each m -> blen prog < 2 ^ 32 -> forall g o, 0 <= g < n -> outline d g o -> used d m g -> outline prog g o).

(** The text of a call that has one. *)
Definition call_text (c : gcall) : option bytes :=
  match c with Text t | Cell _ t | CellOpt _ t _ _ _ | Measure t => Some t | _ => None end.

(** The picture of a name: what was read when the name came up first. *)
Definition picture_of (t : trace) (id : bytes) : option (bytes * bytes * bytes) := find (fun p => beqb id (fst (fst p))) (pictures t).

(** Like [stream_object], for a reader that goes by /Length and lets any number of
    line ends follow the data. *)
Definition stream_lines (F : bytes) (id : Z) (d : list (bytes * pv)) (body : bytes) : Prop :=
  exists s rest eol eols trail, object_text F id s /\ reads s (PDict d) rest /\ skip rest = B"stream" ++ eol ++ body ++ eols ++ B"endstream" ++ trail /\
    (eol = [10] \/ eol = [13; 10]) /\ Forall (fun c => c = 10 \/ c = 13) eols /\ lookup (B"Length") d = Some (PInt (blen body)).
(** The stream of a picture and what it is when deciphered: in a document without
    a protection it must be a stream, in one with a protection line ends may follow. *)
Definition picture_data (key : option bytes) (F : bytes) (id : Z) (d : list (bytes * pv)) (s : bytes) : Prop :=
  exists raw, match key with None => stream_is F id d raw | Some _ => stream_lines F id d raw end /\ decrypted key id raw s.
