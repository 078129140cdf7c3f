(** The font maker: minigopdf/fontmaker/core/fontmaker.go, ttf_info.go, math.go,
    fontmap.go, and what only it reads of a font (ttfparser.go).

    [read] gives the content of a file (a path is that of a readable file or of
    none at all), [write] whether a file
    can be written, [deflate] is zlib's compression.  A file that is written is
    not read again by the same call.  Paths are those of Unix.  The values the
    font maker keeps in a TtfInfo (a map from names to values of any type) are
    the fields of a record here: every key that is asked for was stored with the
    type it is asked for.  Not modelled: main.go (prints the results), FileSize
    and the keys Data, OriginalSize and File, which nothing asks for. *)
From Coq Require Import String List ZArith Lia Bool.
From Coq.Floats Require Import SpecFloat.
From Verif Require Import Base Float64 Ttf Output Subset.
Open Scope Z_scope.
Open Scope list_scope.

(** ** What else the parser finds in a font.  The reads are those of parseTtf;
    their results that Ttf.v leaves out are kept. *)

(** ttfparser.go:735-774, the map [chars]: the newest entry is the first. *)
Fixpoint charSeg (d : bytes) (k : nat) (c de ro pos : Z) (m : list (Z * Z)) : res (Z * list (Z * Z)) :=
  match k with
  | O => Ok (pos, m)
  | S k =>
    if c =? 65535 then Ok (pos, m)
    else do (gid, pos) <- (if 0 <? ro then do (g, pos) <- readUShort d pos; Ok (if 0 <? g then g + de else g, pos) else Ok (c + de, pos));
         let gid := if 65536 <=? gid then gid - 65536 else gid in
         charSeg d k (c + 1) de ro pos (if 0 <? gid then (c, gid) :: m else m)
  end.
Fixpoint charSegs (d : bytes) (off i : Z) (starts ends deltas ros : list Z) (pos : Z) (m : list (Z * Z)) : res (list (Z * Z)) :=
  match starts, ends, deltas, ros with
  | c1 :: starts, c2 :: ends, de :: deltas, ro :: ros =>
    do (pos, m) <- charSeg d (Z.to_nat (c2 - c1 + 1)) c1 de ro (if 0 <? ro then off + 2 * i + ro else pos) m;
    charSegs d off (i + 1) starts ends deltas ros pos m
  | _, _, _, _ => Ok m
  end.
(** 590-735: where the array idRangeOffset and the end of the glyph ids are *)
Definition readChars (d : bytes) (t : ttf) : res (list (Z * Z)) :=
  let tb := tables t in
  do (ng, pos) <- parseMaxp d tb;
  do (w, pos) <- parseHmtx d tb pos (numberOfHMetrics t) ng;
  do (n, pos) <- readUShort d (seekTag' tb (B"cmap") pos + 2);
  do (encs, pos) <- loop d (readEnc d) n pos;
  let off31 := fold_left (fun acc x => let '(p, e, o) := x in if (p =? 3) && (e =? 1) then o else acc) encs 0 in
  let s := toffset (table0 tb (B"cmap")) + off31 in
  charSegs d (s + 16 + 6 * segCount t) 0 (startCount t) (endCount t) (idDelta t) (idRangeOffset t)
    (s + 16 + 8 * segCount t + 2 * Z.of_nat (List.length (glyphIdArray t))) [].
Fixpoint char_at (m : list (Z * Z)) (c : Z) : option Z :=
  match m with [] => None | (k, g) :: m => if k =? c then Some g else char_at m c end.

(** 508-588 postScriptName *)
Definition readPSName (d : bytes) (t : ttf) : res bytes :=
  do pos <- seekTag (tables t) (B"name");
  do (count, p) <- readUShort d (pos + 2);
  do (so, p) <- readUShort d p;
  nameLoop d (pos + so) (Z.to_nat count) p.
(** 439-453 Embeddable and Bold *)
Definition readLicense (d : bytes) (t : ttf) : res (bool * bool) :=
  do pos <- seekTag (tables t) (B"OS/2");
  do (fsType, pos) <- readUShort d (pos + 8);
  do (fsSel, pos) <- readUShort d (pos + 52);
  Ok (negb (fsType =? 2) && (Z.land fsType 512 =? 0), negb (Z.land fsSel 32 =? 0)).
(** 414-418 isFixedPitch *)
Definition readFixed (d : bytes) (t : ttf) : res bool :=
  do pos <- seekTag (tables t) (B"post");
  do (f, pos) <- readULong d (pos + 12);
  Ok (negb (f =? 0)).

(** ** Map files *)

(** fontmap.go:3-6 FontMap *)
Record fmap := mkFM { fm_uv : Z; fm_name : bytes }.
Definition notdef : fmap := mkFM (-1) (B".notdef").

(** bufio.Scanner with ScanLines: lines without their line end; a line of 65536
    bytes or more ends the scan without an error that anyone asks for. *)
Definition drop_cr (l : bytes) : bytes := match rev l with c :: r => if c =? 13 then rev r else l | [] => l end.
Fixpoint short_lines (l : list bytes) : list bytes :=
  match l with [] => [] | x :: l => if blen x <? 65536 then drop_cr x :: short_lines l else [] end.
Definition scan_lines (s : bytes) : list bytes :=
  let l := split1 10 s in
  short_lines (match rev l with [] :: r => rev r | _ => l end).

(** strconv.ParseInt(s, 16, 0) *)
Definition hex_digit (c : Z) : option Z :=
  if is_digit c then Some (c - 48) else if (97 <=? c) && (c <=? 102) then Some (c - 87) else if (65 <=? c) && (c <=? 70) then Some (c - 55) else None.
Fixpoint hex_value (acc : Z) (s : bytes) : option Z :=
  match s with [] => Some acc | c :: s => match hex_digit c with Some v => hex_value (16 * acc + v) s | None => None end end.
Definition parse_hex (s : bytes) : res Z :=
  let '(neg, body) := match s with c :: r => if c =? 43 then (false, r) else if c =? 45 then (true, r) else (false, s) | [] => (false, s) end in
  match body with
  | [] => Err EOther
  | _ => match hex_value 0 body with
         | None => Err EOther
         | Some v => let v := if neg then - v else v in if (int64_min <=? v) && (v <=? int64_max) then Ok v else Err EOther
         end
  end.

(** fontmaker.go:470-487, one line of a map file *)
Definition map_line (m : list fmap) (line : bytes) : res (list fmap) :=
  let e := split1 32 (trim_space line) in
  do e0 <- at_ e 0; do strC <- slice e0 1 (blen e0);
  do e1 <- at_ e 1; do strU <- slice e1 2 (blen e1);
  do c <- parse_hex strC;
  do uv <- parse_hex strU;
  do name <- at_ e 2;
  do _ <- at_ m c;
  Ok (set_nth (Z.to_nat c) (fun _ => mkFM uv name) m).
Fixpoint map_lines (m : list fmap) (l : list bytes) : res (list fmap) :=
  match l with [] => Ok m | x :: l => do m <- map_line m x; map_lines m l end.
(** 447-489 LoadMap, of a file with content [s] *)
Definition load_map (s : bytes) : res (list fmap) := map_lines (repeat notdef 256) (scan_lines s).

(** ** The values of the definition file *)
Record info := mkInfo {
  i_name : bytes; i_bold : bool; i_italic : Z; i_fixed : bool; i_asc : Z; i_desc : Z; i_ut : Z; i_up : Z;
  i_box : Z * Z * Z * Z; i_cap : Z; i_missing : Z; i_widths : list Z }.

(** 433-445 MultiplyAndRound and MultiplyAndRoundWithUInt64; [k] is computed in 386 *)
Definition em_scale (t : ttf) : f64 := fdiv (fofz 1000) (fofz (unitsPerEm t)).
Definition mul_round (k : f64) (v : Z) : Z := round (fmul k (fofz v)).

(** 413-427: the widths of the codes from [c] on, and the warnings *)
Fixpoint code_widths (t : ttf) (chars : list (Z * Z)) (missing : Z) (fms : list fmap) : res (list Z * list bytes) :=
  match fms with
  | [] => Ok ([], [])
  | f :: fms =>
    do (w, warn) <-
      (if beqb (fm_name f) (B".notdef") then Ok (missing, [])
       else match char_at chars (fm_uv f) with
            | Some g => do a <- at_ (widths t) g; Ok (mul_round (em_scale t) a, [])
            | None => Ok (missing, [B"Warning: Character " ++ fm_name f ++ B" (" ++ itoa (fm_uv f) ++ B") is missing"])
            end);
    do (ws, warns) <- code_widths t chars missing fms;
    Ok (w :: ws, warn ++ warns)
  end.

(** 361-431 GetInfoFromTrueType *)
Definition get_info (d : bytes) (fms : list fmap) : res (info * list bytes) :=
  do t <- parseTtf d;
  do (embeddable, bold) <- readLicense d t;
  do fixed <- readFixed d t;
  do name <- readPSName d t;
  do chars <- readChars d t;
  if negb embeddable then Err EOther else
  let r := mul_round (em_scale t) in
  do w0 <- at_ (widths t) 0;
  do (ws, warns) <- code_widths t chars (r w0) fms;
  Ok (mkInfo name bold (italicAngle t) fixed (r (typoAscender t)) (r (typoDescender t)) (r (underlineThickness t)) (r (underlinePosition t))
        (r (xMin t), r (yMin t), r (xMax t), r (yMax t)) (r (capHeight t)) (r w0) ws, warns).

(** 325-343 MakeWidthArray *)
Definition width_key (c : Z) : bytes :=
  if c =? 34 then B"gopdf.ToByte(""\"""")"
  else if c =? 92 then B"gopdf.ToByte(""\\"")"
  else if (32 <=? c) && (c <=? 126) then B"gopdf.ToByte(""" ++ [c] ++ B""")"
  else B"gopdf.Chr(" ++ itoa c ++ B")".
Fixpoint width_lines (c : Z) (ws : list Z) : bytes :=
  match ws with [] => [] | w :: ws => [9] ++ B"me.cw[" ++ width_key c ++ B"]=" ++ itoa w ++ [10] ++ width_lines (c + 1) ws end.
Definition width_array (ws : list Z) : bytes := [9] ++ B"me.cw = make(gopdf.FontCw)" ++ [10] ++ width_lines 0 ws.

(** 304-323 MakeFontEncoding, from code [c] on *)
Fixpoint diff_text (c last : Z) (fms ref : list fmap) : bytes :=
  match fms, ref with
  | f :: fms, r :: ref =>
    if beqb (fm_name f) (fm_name r) then diff_text (c + 1) last fms ref
    else (if c =? last + 1 then [] else itoa c ++ B" ") ++ B"/" ++ fm_name f ++ B" " ++ diff_text (c + 1) c fms ref
  | _, _ => []
  end.
Definition font_encoding (fms ref : list fmap) : bytes := trim_space (diff_text 0 0 fms ref).

(** 213-302 MakeFontDescriptor; CapHeight is always known, StdVW never *)
Definition desc_flags (i : info) : Z := (if i_fixed i then 1 else 0) + 32 + (if i_italic i =? 0 then 0 else 64).
Definition font_descriptor (i : info) : bytes :=
  let '(x0, y0, x1, y1) := i_box i in
  [9] ++ B"me.desc = make([]gopdf.FontDescItem,8)" ++ [10]
  ++ [9] ++ B"me.desc[0] =  gopdf.FontDescItem{ Key:""Ascent"",Val : """ ++ itoa (i_asc i) ++ B""" }" ++ [10]
  ++ [9] ++ B"me.desc[1] =  gopdf.FontDescItem{ Key: ""Descent"", Val : """ ++ itoa (i_desc i) ++ B""" }" ++ [10]
  ++ [9] ++ B"me.desc[2] =  gopdf.FontDescItem{ Key:""CapHeight"", Val :  """ ++ itoa (i_cap i) ++ B""" }" ++ [10]
  ++ [9] ++ B"me.desc[3] =  gopdf.FontDescItem{ Key: ""Flags"", Val :  """ ++ itoa (desc_flags i) ++ B""" }" ++ [10]
  ++ [9] ++ B"me.desc[4] =  gopdf.FontDescItem{ Key:""FontBBox"", Val :  ""[" ++ itoa x0 ++ B" " ++ itoa y0 ++ B" " ++ itoa x1 ++ B" " ++ itoa y1 ++ B"]"" }" ++ [10]
  ++ [9] ++ B"me.desc[5] =  gopdf.FontDescItem{ Key:""ItalicAngle"", Val :  """ ++ itoa (i_italic i) ++ B""" }" ++ [10]
  ++ [9] ++ B"me.desc[6] =  gopdf.FontDescItem{ Key:""StemV"", Val :  """ ++ itoa (if i_bold i then 120 else 70) ++ B""" }" ++ [10] ++ B" "
  ++ [9] ++ B"me.desc[7] =  gopdf.FontDescItem{ Key:""MissingWidth"", Val :  """ ++ itoa (i_missing i) ++ B""" } " ++ [10] ++ B" ".

(** 94-97 GoStructName: the first byte in upper case; one that is no ASCII
    character is replaced, strings.ToUpper makes it U+FFFD. *)
Definition go_name (name : bytes) : res bytes :=
  match name with
  | [] => Panic
  | c :: r => Ok ((if (97 <=? c) && (c <=? 122) then [c - 32] else if 128 <=? c then [239; 191; 189] else [c]) ++ r)
  end.

(** 99-211 MakeDefinitionFile: the text *)
Definition getter (ty head body : bytes) : bytes := B"func (me * " ++ ty ++ head ++ [10] ++ [9] ++ B"return " ++ body ++ [10].
Definition definition_text (ty encode : bytes) (i : info) (diff : bytes) : bytes :=
  B"package fonts //change this" ++ [10]
  ++ B"import (" ++ [10] ++ [9] ++ B"""github.com/signintech/gopdf""" ++ [10] ++ B")" ++ [10]
  ++ B"type " ++ ty ++ B" struct {" ++ [10]
  ++ [9] ++ B"family string" ++ [10] ++ [9] ++ B"fonttype string" ++ [10] ++ [9] ++ B"name string" ++ [10]
  ++ [9] ++ B"desc  []gopdf.FontDescItem" ++ [10] ++ [9] ++ B"up int" ++ [10] ++ [9] ++ B"ut int" ++ [10]
  ++ [9] ++ B"cw gopdf.FontCw" ++ [10] ++ [9] ++ B"enc string" ++ [10] ++ [9] ++ B"diff string" ++ [10] ++ B"}" ++ [10]
  ++ B"func (me * " ++ ty ++ B") Init(){" ++ [10]
  ++ width_array (i_widths i)
  ++ [9] ++ B"me.up = " ++ itoa (i_up i) ++ [10]
  ++ [9] ++ B"me.ut = " ++ itoa (i_ut i) ++ [10]
  ++ [9] ++ B"me.fonttype = ""TrueType""" ++ [10]
  ++ [9] ++ B"me.name = """ ++ i_name i ++ B"""" ++ [10]
  ++ [9] ++ B"me.enc = """ ++ encode ++ B"""" ++ [10]
  ++ (match diff with [] => [] | _ => [9] ++ B"me.diff = """ ++ diff ++ B"""" ++ [10] end)
  ++ font_descriptor i
  ++ B"}" ++ [10]
  ++ getter ty (B")GetType() string{") (B"me.fonttype") ++ B"}" ++ [10]
  ++ getter ty (B")GetName() string{") (B"me.name") ++ B"}" ++ [9] ++ [10]
  ++ getter ty (B")GetDesc() []gopdf.FontDescItem{") (B"me.desc") ++ B"}" ++ [10]
  ++ getter ty (B")GetUp() int{") (B"me.up") ++ B"}" ++ [10]
  ++ getter ty (B")GetUt()  int{") (B"me.ut") ++ B"}" ++ [10]
  ++ getter ty (B")GetCw() gopdf.FontCw{") (B"me.cw") ++ B"}" ++ [10]
  ++ getter ty (B")GetEnc() string{") (B"me.enc") ++ B"}" ++ [10]
  ++ getter ty (B")GetDiff() string {") (B"me.diff") ++ B"}" ++ [10]
  ++ getter ty (B") GetOriginalsize() int{") (B"98764") ++ B"}" ++ [10]
  ++ B"func (me * " ++ ty ++ B")  SetFamily(family string){" ++ [10] ++ [9] ++ B"me.family = family" ++ [10] ++ B"}" ++ [10]
  ++ getter ty (B") " ++ [9] ++ B"GetFamily() string{") (B"me.family") ++ B"}" ++ [10].

(** ** MakeFont *)

(** path/filepath on Unix: Ext is what follows the last dot of the last element,
    with the dot; Base the last element. *)
Fixpoint ext_rev (r acc : bytes) : bytes :=
  match r with [] => [] | c :: r => if c =? 47 then [] else if c =? 46 then c :: acc else ext_rev r (c :: acc) end.
Definition path_ext (p : bytes) : bytes := ext_rev (rev p) [].
Fixpoint drop_slashes (r : bytes) : bytes := match r with c :: r' => if c =? 47 then drop_slashes r' else r | [] => [] end.
Fixpoint last_rev (r acc : bytes) : bytes := match r with [] => acc | c :: r => if c =? 47 then acc else last_rev r (c :: acc) end.
Definition path_base (p : bytes) : bytes :=
  match p with [] => B"." | _ => match last_rev (drop_slashes (rev p)) [] with [] => B"/" | l => l end end.
Definition lower (s : bytes) : bytes := map (fun c => if (65 <=? c) && (c <=? 90) then c + 32 else c) s.
(** 59-62: up to the first dot, spaces replaced *)
Definition font_base (p : bytes) : bytes :=
  match split1 46 (path_base p) with x :: _ => replace1 32 (B"_") x | [] => [] end.

(** What a call did: the files written, in order, and the results noted. *)
Record outcome := mkOut { o_files : list (bytes * bytes); o_log : list bytes; o_res : res unit }.
Definition stop {A} (files : list (bytes * bytes)) (log : list bytes) (r : res A) (k : A -> outcome) : outcome :=
  match r with Ok a => k a | Err e => mkOut files log (Err e) | Panic => mkOut files log Panic | Diverge => mkOut files log Diverge end.
Definition file_res (read : bytes -> option bytes) (p : bytes) : res bytes := match read p with Some d => Ok d | None => Err EOther end.
Definition write_res (write : bytes -> bytes -> bool) (p b : bytes) : res unit := if write p b then Ok tt else Err EOther.

(** 34-92; the map file cp1252.map is read by MakeFontEncoding, after the
    compressed font was written *)
Definition make_font (read : bytes -> option bytes) (write : bytes -> bytes -> bool) (deflate : bytes -> bytes)
    (fontpath mappath encode out : bytes) : outcome :=
  stop [] [] (file_res read fontpath) (fun d =>
  if negb (beqb (lower (path_ext fontpath)) (B".ttf")) then mkOut [] [] (Err EOther) else
  stop [] [] (file_res read (mappath ++ B"/" ++ encode ++ B".map")) (fun ms =>
  stop [] [] (load_map ms) (fun fms =>
  stop [] [] (get_info d fms) (fun '(i, warns) =>
  let base := font_base fontpath in
  let zpath := out ++ B"/" ++ base ++ B".z" in
  stop [] warns (write_res write zpath (deflate d)) (fun _ =>
  let files := [(zpath, deflate d)] in
  let log := warns ++ [B"Save Z file at " ++ zpath ++ B"."] in
  stop files log (go_name base) (fun ty =>
  stop files log (file_res read (mappath ++ B"/cp1252.map")) (fun rs =>
  stop files log (load_map rs) (fun ref =>
  let text := definition_text ty encode i (font_encoding fms ref) in
  let gpath := out ++ B"/" ++ base ++ B".font.go" in
  stop files log (write_res write gpath text) (fun _ =>
  mkOut (files ++ [(gpath, text)]) (log ++ [B"Save GO file at " ++ gpath ++ B"."]) (Ok tt))))))))))
.
