(** Reading TrueType fonts: minigopdf/fontmaker/core/ttfparser.go,
    ttfparser_cmap_other_format.go, table_directory_entry.go.

    Not modelled: Parsekern (pdft never switches UseKerning on before a font is
    parsed, so the kerning table is never read; GoPdf.v has it), the map [chars] and
    the fields only the font maker reads (FontMaker.v has them), and sTypoLineGap,
    which nothing reads. *)
From Coq Require Import String List ZArith Lia Bool.
From Verif Require Import Base.
Open Scope Z_scope.
Open Scope list_scope.

(** table_directory_entry.go:3-12 *)
Record entry := mkEntry { checkSum : Z; toffset : Z; tlength : Z }.
Definition paddedLength (n : Z) : Z := (n + 3) / 4 * 4.

(** t.tables, a Go map: the last entry with a tag counts; a missing one reads as
    the zero entry. *)
Definition tablemap := list (bytes * entry).
Fixpoint table_of (t : tablemap) (tag : bytes) : option entry :=
  match t with [] => None | (k, e) :: r => match table_of r tag with Some e' => Some e' | None => if beqb k tag then Some e else None end end.
Definition table0 (t : tablemap) (tag : bytes) : entry :=
  match table_of t tag with Some e => e | None => mkEntry 0 0 0 end.

(** ttfparser.go:24-84 TTFParser *)
Record ttf := mkTtf {
  tables : tablemap;
  unitsPerEm : Z; xMin : Z; yMin : Z; xMax : Z; yMax : Z; indexToLocFormat : Z;
  ascender : Z; descender : Z; numberOfHMetrics : Z;
  numGlyphs : Z;
  widths : list Z;
  segCount : Z; startCount : list Z; endCount : list Z; idDelta : list Z; idRangeOffset : list Z; glyphIdArray : list Z;
  symbol : bool;
  groups : list (Z * Z * Z);
  os2Version : Z; typoAscender : Z; typoDescender : Z; usWinAscent : Z; usWinDescent : Z; sxHeight : Z; capHeight : Z;
  italicAngle : Z; underlinePosition : Z; underlineThickness : Z;
  isShortIndex : bool; locaTable : list Z;
  fontData : bytes }.

(** ** Reading at a position of the file; a position may lie behind the end. *)

(** Read, 1027-1039: nothing left is io.EOF, too little is an error too. *)
Definition readN (d : bytes) (pos n : Z) : res (bytes * Z) :=
  if blen d <=? pos then Err EOther
  else let got := firstn (Z.to_nat n) (skipn (Z.to_nat pos) d) in
       if blen got =? n then Ok (got, pos + n) else Err EOther.

Definition be (b : bytes) : Z := fold_left (fun v c => 256 * v + c) b 0.

(** ReadUShort, 966-974; ReadShort, 976-991; ReadULong, 1003-1012 *)
Definition readUShort (d : bytes) (pos : Z) : res (Z * Z) := do (b, p) <- readN d pos 2; Ok (be b, p).
Definition readShort (d : bytes) (pos : Z) : res (Z * Z) :=
  do (u, p) <- readUShort d pos; Ok (if 32768 <=? u then u - 65536 else u, p).
Definition readULong (d : bytes) (pos : Z) : res (Z * Z) := do (b, p) <- readN d pos 4; Ok (be b, p).

(** Seek, 946-958 *)
Definition seekTag (t : tablemap) (tag : bytes) : res Z :=
  match table_of t tag with Some e => Ok (toffset e) | None => Err EOther end.
(** ... where the caller ignores the error and reads on where it is *)
Definition seekTag' (t : tablemap) (tag : bytes) (pos : Z) : Z :=
  match table_of t tag with Some e => toffset e | None => pos end.

(** [n] times [f] (every round reads at least one byte, the fuel is the length
    of the file). *)
Fixpoint times {A} (f : Z -> res (A * Z)) (fuel : nat) (n pos : Z) : res (list A * Z) :=
  if n <=? 0 then Ok ([], pos)
  else match fuel with
       | O => Diverge
       | S k => do (a, pos) <- f pos; do (l, pos) <- times f k (n - 1) pos; Ok (a :: l, pos)
       end.
Definition loop {A} (d : bytes) (f : Z -> res (A * Z)) (n pos : Z) : res (list A * Z) := times f (S (List.length d)) n pos.

(** 238-269, one entry of the table directory *)
Definition readEntry (d : bytes) (pos : Z) : res (bytes * entry * Z) :=
  do (tag, pos) <- readN d pos 4;
  do (cs, pos) <- readULong d pos;
  do (off, pos) <- readULong d pos;
  do (len, pos) <- readULong d pos;
  Ok ((tag, mkEntry cs off len), pos).

(** ParseHead, 795-862 *)
Definition parseHead (d : bytes) (t : tablemap) : res (Z * (Z * Z * Z * Z) * Z) :=
  do pos <- seekTag t (B"head");
  do (magic, pos) <- readULong d (pos + 12);
  if negb (magic =? 1594834165) then Err EOther else
  do (u, pos) <- readUShort d (pos + 2);
  do (x0, pos) <- readShort d (pos + 16);
  do (y0, pos) <- readShort d pos;
  do (x1, pos) <- readShort d pos;
  do (y1, pos) <- readShort d pos;
  do (loc, pos) <- readShort d (pos + 6);
  Ok (u, (x0, y0, x1, y1), loc).

(** ParseHhea, 864-899 *)
Definition parseHhea (d : bytes) (t : tablemap) : res (Z * Z * Z) :=
  do pos <- seekTag t (B"hhea");
  do (a, pos) <- readShort d (pos + 4);
  do (de, pos) <- readShort d pos;
  do (n, pos) <- readUShort d (pos + 26);
  Ok (a, de, n).

(** ParseMaxp, 901-916; the position is where hmtx is read from if the font has
    no such table *)
Definition parseMaxp (d : bytes) (t : tablemap) : res (Z * Z) :=
  do pos <- seekTag t (B"maxp");
  readUShort d (pos + 4).

(** ParseHmtx, 747-775, ArrayPadUint, 777-790; with no metrics at all the last
    one, widths[numberOfHMetrics-1], does not exist. *)
Definition parseHmtx (d : bytes) (t : tablemap) (pos nm ng : Z) : res (list Z * Z) :=
  do (w, pos) <- loop d (fun pos => do (a, p) <- readUShort d pos; Ok (a, p + 2)) nm (seekTag' t (B"hmtx") pos);
  if nm <? ng then
    if nm =? 0 then Panic
    else do last <- at_ w (nm - 1); Ok (w ++ repeat last (Z.to_nat (ng - nm)), pos)
  else Ok (w, pos).

(** 591-616: the list of encoding records *)
Definition readEnc (d : bytes) (pos : Z) : res (Z * Z * Z * Z) :=
  do (p, pos) <- readUShort d pos;
  do (e, pos) <- readUShort d pos;
  do (o, pos) <- readULong d pos;
  Ok ((p, e, o), pos).

(** 703-737: reading the glyph ids of the segments once more for [chars]; only
    the read errors and the position matter. *)
Fixpoint scanSeg (d : bytes) (k : nat) (c ro pos : Z) : res Z :=
  match k with
  | O => Ok pos
  | S k => if c =? 65535 then Ok pos
           else if 0 <? ro then do (g, pos) <- readUShort d pos; scanSeg d k (c + 1) ro pos
           else scanSeg d k (c + 1) ro pos
  end.
Fixpoint scanSegs (d : bytes) (off i : Z) (starts ends ros : list Z) (pos : Z) : res Z :=
  match starts, ends, ros with
  | c1 :: starts, c2 :: ends, ro :: ros =>
    do pos <- scanSeg d (Z.to_nat (c2 - c1 + 1)) c1 ro (if 0 <? ro then off + 2 * i + ro else pos);
    scanSegs d off (i + 1) starts ends ros pos
  | _, _, _ => Ok pos
  end.

(** ParseCmapFormat12 *)
Definition readGroup (d : bytes) (pos : Z) : res (Z * Z * Z * Z) :=
  do (s, pos) <- readULong d pos;
  do (e, pos) <- readULong d pos;
  do (g, pos) <- readULong d pos;
  Ok ((s, e, g), pos).
Definition parseCmap12 (d : bytes) (t : tablemap) (pos0 : Z) : res (list (Z * Z * Z)) :=
  do (n, pos) <- readUShort d (seekTag' t (B"cmap") pos0 + 2);
  do (encs, pos) <- loop d (readEnc d) n pos;
  match find (fun x => let '(p, e, _) := x in (p =? 3) && (e =? 10)) encs with
  | None => Ok []
  | Some (_, _, off) =>
    do (format, pos) <- readUShort d (toffset (table0 t (B"cmap")) + off);
    if negb (format =? 12) then Err EOther else
    do (reserved, pos) <- readUShort d pos;
    if negb (reserved =? 0) then Err EOther else
    do (ng, pos) <- readULong d (pos + 8);
    do (gs, pos) <- loop d (readGroup d) ng pos;
    Ok gs
  end.

(** ParseCmap, 581-745.  [symbol] ends up false: it is only set when the encoding
    is both 1 and 0. *)
Definition u64 (n : Z) : Z := n mod 18446744073709551616.
(** int(x) of a uint *)
Definition int_of_u64 (n : Z) : Z := if n <? 9223372036854775808 then n else n - 18446744073709551616.

Definition parseCmap (d : bytes) (t : tablemap) (pos0 : Z) : res (Z * (list Z * list Z * list Z * list Z * list Z) * list (Z * Z * Z)) :=
  do (n, pos) <- readUShort d (seekTag' t (B"cmap") pos0 + 2);
  do (encs, pos) <- loop d (readEnc d) n pos;
  let off31 := fold_left (fun acc x => let '(p, e, o) := x in if (p =? 3) && (e =? 1) then o else acc) encs 0 in
  if off31 =? 0 then Err EOther else
  do (format, pos) <- readUShort d (toffset (table0 t (B"cmap")) + off31);
  if negb (format =? 4) then Err EOther else
  do (length, pos) <- readUShort d pos;
  do (sc2, pos) <- readUShort d (pos + 2);
  let sc := sc2 / 2 in
  let gc := u64 (length - (16 + 8 * sc)) / 2 in
  do (ends, pos) <- loop d (readUShort d) sc (pos + 6);
  do (starts, pos) <- loop d (readUShort d) sc (pos + 2);
  do (deltas, pos) <- loop d (readUShort d) sc pos;
  let roff := pos in
  do (ros, pos) <- loop d (readUShort d) sc pos;
  do (gids, pos) <- loop d (readUShort d) (int_of_u64 gc) pos;
  do pos <- scanSegs d roff 0 starts ends ros pos;
  do gs <- parseCmap12 d t pos;
  Ok (sc, (starts, ends, deltas, ros, gids), gs).

(** ParseName, 503-568: the PostScript name must not be empty after NUL bytes and
    the digit 0 are taken out.  The regular expression of line 557 prefers its
    first, empty, alternative everywhere, so it removes nothing. *)
Definition readName (d : bytes) (pos : Z) : res (Z * Z * Z * Z) :=
  do (id, pos) <- readUShort d (pos + 6);
  do (len, pos) <- readUShort d pos;
  do (off, pos) <- readUShort d pos;
  Ok (id, len, off, pos).
Fixpoint nameLoop (d : bytes) (base : Z) (n : nat) (pos : Z) : res bytes :=
  match n with
  | O => Ok []
  | S n =>
    do (id, len, off, pos) <- readName d pos;
    if id =? 6 then do (s, _) <- readN d (base + off) len; Ok (filter (fun c => negb (c =? 48)) (filter (fun c => negb (c =? 0)) s))
    else nameLoop d base n pos
  end.
Definition parseName (d : bytes) (t : tablemap) : res unit :=
  do pos <- seekTag t (B"name");
  do (count, p) <- readUShort d (pos + 2);
  do (so, p) <- readUShort d p;
  do s <- nameLoop d (pos + so) (Z.to_nat count) p;
  match s with [] => Err EOther | _ => Ok tt end.

(** ParseOS2, 424-500 *)
Definition parseOS2 (d : bytes) (t : tablemap) (asc : Z) : res (Z * Z * Z * Z * Z * Z * Z) :=
  do pos <- seekTag t (B"OS/2");
  do (version, pos) <- readUShort d pos;
  do (fsType, pos) <- readUShort d (pos + 6);
  do (fsSel, pos) <- readUShort d (pos + 52);
  do (ta, pos) <- readShort d (pos + 4);
  do (td, pos) <- readShort d pos;
  do (gap, pos) <- readShort d pos;
  do (wa, pos) <- readUShort d pos;
  do (wd, pos) <- readUShort d pos;
  if 2 <=? version then
    do (sx, pos) <- readShort d (pos + 8);
    do (ch, pos) <- readShort d pos;
    Ok (version, ta, td, wa, wd, sx, ch)
  else Ok (version, ta, td, wa, wd, 0, asc).

(** ParsePost, 380-421 *)
Definition parsePost (d : bytes) (t : tablemap) : res (Z * Z * Z) :=
  do pos <- seekTag t (B"post");
  do (ia, pos) <- readShort d (pos + 4);
  do (up, pos) <- readShort d (pos + 2);
  do (ut, pos) <- readShort d pos;
  do (fp, pos) <- readULong d pos;
  Ok (ia, up, ut).

(** ParseLoca, 335-377 *)
Definition parseLoca (d : bytes) (t : tablemap) (loc : Z) : res (bool * list Z) :=
  let short := loc =? 0 in
  do pos <- seekTag t (B"loca");
  let len := tlength (table0 t (B"loca")) in
  do (l, _) <- (if short then loop d (fun p => do (x, p) <- readUShort d p; Ok (x * 2, p)) (len / 2) pos
                else loop d (readULong d) (len / 4) pos);
  Ok (short, l).

(** parse, 217-326 *)
Definition parseTtf (d : bytes) : res ttf :=
  do (version, pos) <- readN d 0 4;
  if negb (beqb version [0; 1; 0; 0]) then Err EOther else
  do (n, pos) <- readUShort d pos;
  do (t, pos) <- loop d (readEntry d) n (pos + 6);
  do (upem, (x0, y0, x1, y1), loc) <- parseHead d t;
  do (asc, desc, nm) <- parseHhea d t;
  do (ng, pos) <- parseMaxp d t;
  do (w, pos) <- parseHmtx d t pos nm ng;
  do (sc, (starts, ends, deltas, ros, gids), gs) <- parseCmap d t pos;
  do _ <- parseName d t;
  do (ver, ta, td, wa, wd, sx, ch) <- parseOS2 d t asc;
  do (ia, up, ut) <- parsePost d t;
  do (short, l) <- parseLoca d t loc;
  Ok (mkTtf t upem x0 y0 x1 y1 loc asc desc nm ng w sc starts ends deltas ros gids false gs
        ver ta td wa wd sx ch ia up ut short l d).
