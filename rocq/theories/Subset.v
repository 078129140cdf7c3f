(** Font subsets: minigopdf/subset_font_obj.go, map_of_character_To_glyph_index.go,
    cid_font_obj.go, unicode_map.go, subfont_descriptor_obj.go,
    pdf_dictionary_obj.go, buff.go, buff_write.go, strhelper.go.

    The objects' own protection is never set by pdft (streams are encrypted
    later, pdf_obj_data.go), so its branches are left out. *)
From Coq Require Import String List ZArith Lia Bool.
From Coq.Floats Require Import SpecFloat.
From Verif Require Import Base Utf8 Float64 Ttf.
Open Scope Z_scope.
Open Scope list_scope.

(** ** Characters and glyphs *)

(** MapOfCharacterToGlyphIndex: Keys and Vals in order; a key is only set when it
    is not there yet (AddChars), so the first entry is the one keyIndexs tells. *)
Definition charmap := list (Z * Z).
Fixpoint val_of (m : charmap) (k : Z) : option Z :=
  match m with [] => None | (a, v) :: r => if a =? k then Some v else val_of r k end.

(** subset_font_obj.go:184-196, charCodeToGlyphIndexFormat12: the end of a group
    is left out. *)
Fixpoint glyph12 (gs : list (Z * Z * Z)) (v : Z) : res Z :=
  match gs with
  | [] => Err EOther
  | (s, e, g) :: r => if (s <=? v) && (v <? e) then Ok (v - s + g) else glyph12 r v
  end.

(** 198-225, charCodeToGlyphIndexFormat4 *)
Fixpoint seg_of (ends : list Z) (n : nat) (v : Z) (seg : Z) : res Z :=
  match n with
  | O => Ok seg
  | S k => do e <- at_ ends seg; if v <=? e then Ok seg else seg_of ends k v (seg + 1)
  end.
Definition glyph4 (t : ttf) (v : Z) : res Z :=
  do seg <- seg_of (endCount t) (Z.to_nat (segCount t)) v 0;
  do start <- at_ (startCount t) seg;
  if v <? start then Ok 0 else
  do ro <- at_ (idRangeOffset t) seg;
  do delta <- at_ (idDelta t) seg;
  if ro =? 0 then Ok ((v + delta) mod 65536) else
  do g <- at_ (glyphIdArray t) (int_of_u64 (u64 (ro / 2 + (v - start) - (segCount t - seg))));
  if g =? 0 then Ok 0 else Ok ((g + delta) mod 65536).

(** 227-246, CharCodeToGlyphIndex *)
Definition glyph_index (t : ttf) (r : Z) : res Z :=
  if r <=? 65535 then glyph4 t r else glyph12 (groups t) r.

(** 130-143, AddChars.  On an error the characters before it stay added. *)
Fixpoint add_runes (t : ttf) (rs : list Z) (m : charmap) : charmap * res unit :=
  match rs with
  | [] => (m, Ok tt)
  | r :: rs => match val_of m r with
               | Some _ => add_runes t rs m
               | None => match glyph_index t r with
                         | Ok g => add_runes t rs (m ++ [(r, g)])
                         | Err e => (m, Err e)
                         | Panic => (m, Panic)
                         | Diverge => (m, Diverge)
                         end
               end
  end.
Definition add_chars (t : ttf) (txt : bytes) (m : charmap) : charmap * res unit := add_runes t (runes txt) m.

(** 248-261, GlyphIndexToPdfWidth *)
Definition glyph_width (t : ttf) (g : Z) : res Z :=
  let g := if numberOfHMetrics t <=? g then numberOfHMetrics t - 1 else g in
  do w <- at_ (widths t) g;
  if unitsPerEm t =? 1000 then Ok w else if unitsPerEm t =? 0 then Panic else Ok (w * 1000 / unitsPerEm t).

(** CharIndex, 146-158; CharWidth, 161-174 *)
Definition char_index (m : charmap) (r : Z) : res Z := match val_of m r with Some g => Ok g | None => Err ECharNotFound end.
Definition char_width (t : ttf) (m : charmap) (r : Z) : res Z :=
  match val_of m r with Some g => glyph_width t g | None => Err ECharNotFound end.

(** ** The five font objects *)

(** strhelper.go:22-26 *)
Definition subset_name (n : bytes) : bytes := replace1 47 [43] (replace1 32 [43] n).

(** subset_font_obj.go:47-59; the objects refer to each other by number *)
Definition font_obj (family : bytes) (cidID unicodeID : Z) : bytes :=
  B"<<" ++ [10] ++ B"/BaseFont /" ++ subset_name family ++ [10]
  ++ B"/DescendantFonts [" ++ itoa cidID ++ B" 0 R]" ++ [10]
  ++ B"/Encoding /Identity-H" ++ [10] ++ B"/Subtype /Type0" ++ [10]
  ++ B"/ToUnicode " ++ itoa unicodeID ++ B" 0 R" ++ [10] ++ B"/Type /Font" ++ [10] ++ B">>" ++ [10].

(** cid_font_obj.go:17-43 *)
Fixpoint w_array (t : ttf) (gs : list Z) : res bytes :=
  match gs with
  | [] => Ok []
  | g :: r => do w <- glyph_width t g; do l <- w_array t r; Ok (itoa g ++ B"[" ++ itoa w ++ B"]" ++ l)
  end.
Definition cid_obj (t : ttf) (m : charmap) (family : bytes) (descID : Z) : res bytes :=
  do w <- w_array t (map snd m);
  Ok (B"<<" ++ [10] ++ B"/BaseFont /" ++ subset_name family ++ [10] ++ B"/CIDSystemInfo" ++ [10]
      ++ B"<<" ++ [10] ++ B"  /Ordering (Identity)" ++ [10] ++ B"  /Registry (Adobe)" ++ [10] ++ B"  /Supplement 0" ++ [10] ++ B">>" ++ [10]
      ++ B"/FontDescriptor " ++ itoa descID ++ B" 0 R" ++ [10] ++ B"/Subtype /CIDFontType2" ++ [10] ++ B"/Type /Font" ++ [10]
      ++ B"/W [" ++ w ++ B"]" ++ [10] ++ B">>" ++ [10]).

(** %04X of an int *)
Definition fhex4 (n : Z) : bytes := if n <? 0 then B"-" ++ pad0 3 (utox (- n)) else hex4 n.

(** unicode_map.go:50-117, 129-159.  Every character has a line; its character is
    the first one with that glyph. *)
Definition rune_by_index (m : charmap) (g : Z) : Z :=
  match find (fun x => snd x =? g) m with Some (r, _) => r | None => 0 end.
Definition unicode_content (m : charmap) : bytes :=
  let low := fold_left (fun a x => if snd x <? a then snd x else a) m 65536 in
  let hi := fold_left (fun a x => if a <? snd x then snd x else a) m (-1) in
  B"/CIDInit /ProcSet findresource begin" ++ [10] ++ B"12 dict begin" ++ [10] ++ B"begincmap" ++ [10]
  ++ B"/CIDSystemInfo << /Registry (Adobe)/Ordering (UCS)/Supplement 0>> def" ++ [10]
  ++ B"/CMapName /Adobe-Identity-UCS def /CMapType 2 def" ++ [10]
  ++ B"1 begincodespacerange" ++ [10] ++ B"<" ++ fhex4 low ++ B"><" ++ fhex4 hi ++ B">" ++ [10] ++ B"endcodespacerange" ++ [10]
  ++ itoa (Z.of_nat (List.length m)) ++ B" beginbfrange" ++ [10]
  ++ flat_map (fun x => B"<" ++ fhex4 (snd x) ++ B"><" ++ fhex4 (snd x) ++ B"><" ++ fhex4 (rune_by_index m (snd x)) ++ B">" ++ [10]) m
  ++ B"endbfrange" ++ [10] ++ B"endcmap CMapName currentdict /CMap defineresource pop end end" ++ [10].
Definition unicode_obj (m : charmap) : bytes :=
  B"<<" ++ [10] ++ B"/Length " ++ itoa (blen (unicode_content m)) ++ [10] ++ B">>" ++ [10] ++ B"stream" ++ [10]
  ++ unicode_content m ++ B"endstream" ++ [10].

(** subfont_descriptor_obj.go:65-68 DesignUnitsToPdf, core/math.go:3-10 Round *)
Definition half : f64 := fconst 1 2.
Definition round (x : f64) : Z := ftoz (if flt x (fofz 0) then fsub x half else fadd x half).
Definition design_units (v upem : Z) : Z := round (fdiv (fmul (fofz v) (fofz 1000)) (fofz upem)).

(** ttfparser.go:102-158: XHeight, Flag, Ascender, Descender *)
Definition x_height (t : ttf) : Z :=
  if (2 <=? os2Version t) && negb (sxHeight t =? 0) then sxHeight t else ftoz (fmul (fconst 66 100) (fofz (ascender t))).
Definition flags (t : ttf) : Z := if symbol t then 4 else 32.
Definition ascent (t : ttf) : Z := if typoAscender t =? 0 then ascender t else usWinAscent t.
Definition descent (t : ttf) : Z :=
  if typoDescender t =? 0 then descender t else if descender t <? 0 then - usWinDescent t else usWinDescent t.

(** subfont_descriptor_obj.go:27-53 *)
Definition desc_obj (t : ttf) (family : bytes) (dictID : Z) : bytes :=
  let du v := itoa (design_units v (unitsPerEm t)) in
  B"<<" ++ [10] ++ B"/Type /FontDescriptor" ++ [10]
  ++ B"/Ascent " ++ du (ascent t) ++ [10] ++ B"/CapHeight " ++ du (capHeight t) ++ [10] ++ B"/Descent " ++ du (descent t) ++ [10]
  ++ B"/Flags " ++ itoa (flags t) ++ [10]
  ++ B"/FontBBox [" ++ du (xMin t) ++ B" " ++ du (yMin t) ++ B" " ++ du (xMax t) ++ B" " ++ du (yMax t) ++ B"]" ++ [10]
  ++ B"/FontFile2 " ++ itoa dictID ++ B" 0 R" ++ [10] ++ B"/FontName /" ++ subset_name family ++ [10]
  ++ B"/ItalicAngle " ++ itoa (italicAngle t) ++ [10] ++ B"/StemV 0" ++ [10]
  ++ B"/XHeight " ++ du (x_height t) ++ [10] ++ B">>" ++ [10].

(** ** The embedded font program *)

(** buff.go: the buffer with a write position *)
Record buff := mkBuff { bpos : Z; bdat : bytes }.
(** Write, 10-22: the buffer is made long enough with zeros, then overwritten *)
Definition bwrite (b : buff) (p : bytes) : buff :=
  let d := bdat b ++ repeat 0 (Z.to_nat (bpos b + blen p - blen (bdat b))) in
  mkBuff (bpos b + blen p) (firstn (Z.to_nat (bpos b)) d ++ p ++ skipn (Z.to_nat (bpos b + blen p)) d).
(** SetPosition, 40-42 *)
Definition bseek (b : buff) (pos : Z) : buff := mkBuff pos (bdat b).

(** buff_write.go:6-29; byte(v) *)
Definition byte (v : Z) : Z := v mod 256.
Definition be2 (v : Z) : bytes := [byte (v / 256); byte v].
Definition be4 (v : Z) : bytes := [byte (v / 16777216); byte (v / 65536); byte (v / 256); byte v].
Definition writeUInt32 (b : buff) (v : Z) : buff := bwrite b (be4 v).
Definition writeUInt16 (b : buff) (v : Z) : buff := bwrite b (be2 v).
Definition writeTag (b : buff) (tag : bytes) : buff := bwrite b tag.

(** strhelper.go:29-49; [d] includes the bytes up to the capacity of the slice
    (slicing is checked against the capacity) *)
Definition readUShortAt (d : bytes) (p : Z) : res Z := do b <- slice d p (p + 2); Ok (be b).
Definition readShortAt (d : bytes) (p : Z) : res Z :=
  do u <- readUShortAt d p; Ok (if 32768 <=? u then u - 65536 else u).

(** pdf_dictionary_obj.go:337-342 GetOffset *)
Definition glyph_offset (t : ttf) (g : Z) : res Z :=
  do l <- at_ (locaTable t) g; Ok (toffset (table0 (tables t) (B"glyf")) + l).

(** 132-153 getGlyphSize, getGlyphData: [count] bytes one after the other *)
Definition glyph_size (t : ttf) (g : Z) : res Z :=
  do a <- glyph_offset t g; do b <- glyph_offset t (g + 1); Ok (b - a).
Definition glyph_data (t : ttf) (g : Z) : res bytes :=
  do a <- glyph_offset t g; do b <- glyph_offset t (g + 1);
  if b <=? a then Ok [] else slice (fontData t) a b.

(** 277-328 AddCompositeGlyphs; every round moves on by at least six bytes, the
    fuel is the length of the file *)
Definition add_glyph (gs : list Z) (g : Z) : list Z := if existsb (Z.eqb g) gs then gs else gs ++ [g].
Definition flag (w n : Z) : bool := Z.testbit w n.
Fixpoint components (fuel : nat) (d : bytes) (pos : Z) (gs : list Z) : res (list Z) :=
  match fuel with
  | O => Diverge
  | S f =>
    do fl <- readUShortAt d pos;
    do c <- readUShortAt d (pos + 2);
    let gs := add_glyph gs c in
    if negb (flag fl 5) then Ok gs
    else
      let k := (if flag fl 0 then 4 else 2)
               + (if flag fl 3 then 2 else if flag fl 6 then 4 else 0)
               + (if flag fl 7 then 8 else 0) in
      components f d (pos + 4 + k) gs
  end.
Definition add_composite (t : ttf) (beyond : bytes) (gs : list Z) (g : Z) : res (list Z) :=
  do start <- glyph_offset t g;
  do next <- glyph_offset t (g + 1);
  if start =? next then Ok gs else
  let d := fontData t ++ beyond in
  do nc <- readShortAt d start;
  if 0 <=? nc then Ok gs else components (S (List.length d)) d (start + 10) gs.

(** 253-275 completeGlyphClosure: only the glyphs of the characters are looked
    into, the loop does not get to what it adds *)
Fixpoint closure_loop (t : ttf) (beyond : bytes) (todo gs : list Z) : res (list Z) :=
  match todo with
  | [] => Ok gs
  | g :: r => do gs' <- add_composite t beyond gs g; closure_loop t beyond r gs'
  end.
Definition glyph_closure (t : ttf) (beyond : bytes) (m : charmap) : res (list Z) :=
  let vs := map snd m in
  closure_loop t beyond vs (if existsb (Z.eqb 0) vs then vs else vs ++ [0]).

(** sort.Ints *)
Fixpoint insert (x : Z) (l : list Z) : list Z :=
  match l with [] => [x] | y :: r => if x <=? y then x :: l else y :: insert x r end.
Definition sort (l : list Z) : list Z := fold_right insert [] l.

(** 93-130 makeGlyfAndLocaTable.  The glyph table is made for the sum of the sizes
    of all glyphs of the array, then filled from the front: [used] are the bytes
    written, an index behind the size panics. *)
Fixpoint sizes (t : ttf) (gs : list Z) : res Z :=
  match gs with [] => Ok 0 | g :: r => do n <- glyph_size t g; do k <- sizes t r; Ok (n + k) end.
Fixpoint fill (t : ttf) (n : nat) (idx : Z) (gs : list Z) (off size : Z) : res (bytes * list Z) :=
  match n with
  | O => Ok ([], [off])
  | S n =>
    match gs with
    | g :: gs' =>
      if g =? idx then
        do b <- glyph_data t idx;
        if size <? off + blen b then Panic else
        do (r, l) <- fill t n (idx + 1) gs' (off + blen b) size;
        Ok (b ++ r, off :: l)
      else do (r, l) <- fill t n (idx + 1) gs off size; Ok (r, off :: l)
    | [] => do (r, l) <- fill t n (idx + 1) gs off size; Ok (r, off :: l)
    end
  end.
Definition glyf_and_loca (t : ttf) (beyond : bytes) (m : charmap) : res (bytes * list Z) :=
  do gs <- glyph_closure t beyond m;
  let gs := sort gs in
  do size <- sizes t gs;
  let padded := paddedLength size in
  if padded <? 0 then Panic else
  do (b, loca) <- fill t (Z.to_nat (numGlyphs t)) 0 gs 0 padded;
  Ok (b ++ repeat 0 (Z.to_nat (padded - blen b)), loca).

(** 355-378 CheckSum *)
Fixpoint sum4 (d : bytes) (b3 b2 b1 b0 : Z) : res Z :=
  match d with
  | [] => Ok ((b3 * 16777216) mod 4294967296 + (b2 * 65536) mod 4294967296 + (b1 * 256) mod 4294967296 + b0 mod 4294967296)
  | p :: q :: r :: s :: d => sum4 d (b3 + p) (b2 + q) (b1 + r) (b0 + s)
  | _ => Panic
  end.
Definition check_sum (d : bytes) : res Z := do s <- sum4 d 0 0 0 0; Ok (s mod 4294967296).

(** 196-219: the bytes of the loca table *)
Definition loca_bytes (short : bool) (l : list Z) : bytes :=
  let d := if short then flat_map (fun v => be2 (v / 2)) l else flat_map be4 l in
  d ++ repeat 0 (Z.to_nat (paddedLength (blen d) - blen d)).

(** sorted tags, 157-167 *)
Definition tags : list bytes := [B"cvt "; B"fpgm"; B"glyf"; B"head"; B"hhea"; B"hmtx"; B"loca"; B"maxp"; B"prep"].

(** 185-245, one round of the loop; [beyond] are the bytes behind the font data
    up to the capacity of its slice *)
Definition font_table (t : ttf) (beyond : bytes) (glyf : bytes) (loca : list Z) (tag : bytes) : res (bytes * Z * Z) :=
  let e := table0 (tables t) tag in
  if beqb tag (B"glyf") then
    do cs <- check_sum glyf; do b <- slice glyf 0 (paddedLength (blen glyf)); Ok (b, cs, blen glyf)
  else if beqb tag (B"loca") then
    let d := loca_bytes (isShortIndex t) loca in
    do cs <- check_sum d;
    Ok (d, cs, Z.of_nat (List.length loca) * (if isShortIndex t then 2 else 4))
  else
    do b <- slice (fontData t ++ beyond) (toffset e) (toffset e + paddedLength (tlength e));
    Ok (b, checkSum e, tlength e).
Fixpoint font_loop (t : ttf) (beyond glyf : bytes) (loca : list Z) (ts : list bytes) (idx pos : Z) (b : buff) : res buff :=
  match ts with
  | [] => Ok b
  | tag :: ts =>
    do (data, cs, len) <- font_table t beyond glyf loca tag;
    let b := bwrite (bseek b pos) data in
    let pos' := bpos b in
    let b := writeTag (bseek b (idx * 16 + 12)) tag in
    let b := writeUInt32 (writeUInt32 (writeUInt32 b cs) pos) len in
    font_loop t beyond glyf loca ts (idx + 1) pos' b
  end.

(** 155-251 makeFont; EntrySelectors[9] = 3 *)
Definition make_font (t : ttf) (beyond : bytes) (m : charmap) : res bytes :=
  do (glyf, loca) <- glyf_and_loca t beyond m;
  let n := Z.of_nat (List.length tags) in
  let b := writeUInt32 (mkBuff 0 []) 65536 in
  let b := writeUInt16 b n in
  let b := writeUInt16 b (2 ^ 3 * 16) in
  let b := writeUInt16 b 3 in
  let b := writeUInt16 b ((n - 2 ^ 3) * 16) in
  do b <- font_loop t beyond glyf loca tags 0 (12 + 16 * n) b;
  Ok (bdat b).

(** 45-78 build; [compress] is the zlib writer *)
Definition dict_obj (compress : bytes -> bytes) (t : ttf) (beyond : bytes) (m : charmap) : res bytes :=
  do p <- make_font t beyond m;
  let z := compress p in
  Ok (B"<</Length " ++ itoa (blen z) ++ [10] ++ B"/Filter /FlateDecode" ++ [10] ++ B"/Length1 " ++ itoa (blen p) ++ [10]
      ++ B">>" ++ [10] ++ B"stream" ++ [10] ++ z ++ [10] ++ B"endstream" ++ [10]).
