(** The PDF writer GoPdf: minigopdf/gopdf.go, content_obj.go, list_cache_content.go,
    cache_*.go, current.go, page_obj.go, pages_obj.go, procset_obj.go,
    catalog_obj.go, device_rgb_obj.go, image_holder.go, font_option.go, style.go,
    fontmaker/core/ttfparser_kern.go, kern_table.go.

    Every exported call is a transition.  Objects point to each other and to
    fonts by numbers: a font (SubsetFontObj) is a number of [g_fonts].  FontObj,
    EncodingObj and the other objects of core fonts are never added to a document
    (nothing fills indexEncodingObjFonts), so their branch in prepare is left out. *)
From Coq Require Import String List ZArith Lia Bool.
From Coq.Floats Require Import SpecFloat.
From Verif Require Import Base Output Md5Rc4 Crypto Png Utf8 Float64 Ttf Subset Text.
Open Scope Z_scope.
Open Scope list_scope.

(** ** What the writer calls *)

(** The standard library functions that are not implemented here:
    image.DecodeConfig, the bounds of image.Decode, zlib reading, zlib at the
    default level and at a level. *)
Record gworld := mkGW {
  gw_config : bytes -> imgFormat;
  gw_bounds : bytes -> option (Z * Z);
  gw_inflate : bytes -> res bytes;
  gw_compress : bytes -> bytes;
  gw_deflate : Z -> bytes -> bytes }.

(** ** Kerning tables *)

(** kern_table.go:3-14: the pairs of the map, the latest first *)
Definition kernpairs := list (Z * Z * Z).
Fixpoint kern_value (k : kernpairs) (l r : Z) : option Z :=
  match k with [] => None | (a, b, v) :: k => if (a =? l) && (b =? r) then Some v else kern_value k l r end.

(** ttfparser_kern.go:67-102 parsekernSubTableFormat0; an error ends the reading
    and is dropped by the caller (58), the pairs read so far stay *)
Fixpoint kern_pairs (d : bytes) (n : nat) (pos : Z) (k : kernpairs) : kernpairs * Z :=
  match n with
  | O => (k, pos)
  | S n =>
    match (do (l, pos) <- readUShort d pos; do (r, pos) <- readUShort d pos; do (v, pos) <- readShort d pos; Ok (l, r, v, pos)) with
    | Ok (l, r, v, pos) => kern_pairs d n pos ((l, r, v) :: k)
    | _ => (k, blen d)
    end
  end.
(** 45-65 parsekernSubTable; the bits looked at are 4 to 7 of the coverage *)
Definition kern_subtable (d : bytes) (pos : Z) : res (kernpairs * Z) :=
  do (cov, pos) <- readUShort d (pos + 4);
  if negb (Z.land cov 240 =? 0) then Err EOther else
  match readUShort d pos with
  | Ok (n, pos) => Ok (kern_pairs d (Z.to_nat n) (pos + 6) [])
  | _ => Ok ([], blen d)
  end.
(** 9-43 Parsekern: every subtable takes the place of the one before; None is a
    font without the table (or, with no subtables, an empty map) *)
Fixpoint kern_subtables (d : bytes) (n : nat) (pos : Z) (k : kernpairs) : res kernpairs :=
  match n with O => Ok k | S n => do (k, pos) <- kern_subtable d pos; kern_subtables d n pos k end.
Definition parseKern (d : bytes) (t : tablemap) : res kernpairs :=
  match table_of t (B"kern") with
  | None => Ok []
  | Some e =>
    do (_, pos) <- readUShort d (toffset e);
    do (n, pos) <- readUShort d pos;
    kern_subtables d (Z.to_nat n) pos []
  end.

(** ** Fonts *)

(** subset_font_obj.go:17-28 SubsetFontObj; [gf_cid] and [gf_unicode] are
    indexObjCIDFont and indexObjUnicodeMap, [gf_beyond] as in Subset.v.  The rise
    override cannot be set through GoPdf. *)
Record gfont := mkGF {
  gf_family : bytes; gf_ttf : ttf; gf_beyond : bytes; gf_map : charmap; gf_count : Z;
  gf_kerning : bool; gf_style : Z; gf_pairs : kernpairs; gf_over : option kernfn; gf_cid : Z; gf_unicode : Z }.
Definition gf_set_map (f : gfont) (m : charmap) : gfont :=
  mkGF (gf_family f) (gf_ttf f) (gf_beyond f) m (gf_count f) (gf_kerning f) (gf_style f) (gf_pairs f) (gf_over f) (gf_cid f) (gf_unicode f).
Definition gf_set_over (f : gfont) (k : option kernfn) : gfont :=
  mkGF (gf_family f) (gf_ttf f) (gf_beyond f) (gf_map f) (gf_count f) (gf_kerning f) (gf_style f) (gf_pairs f) k (gf_cid f) (gf_unicode f).

(** cache_content_text.go:311-330 kern, subset_font_obj.go:91-108
    KernValueByLeft; without UseKerning createContent does not ask (264) *)
Definition gkern (f : gfont) : option kernfn :=
  if gf_kerning f then
    Some (fun left r lg g _ =>
      let v := match kern_value (gf_pairs f) lg g with Some v => v | None => 0 end in
      match gf_over f with Some h => h left r lg g v | None => v end)
  else None.
Definition gsfont (f : gfont) : sfont := mkSfont (gf_ttf f) (gf_map f) (gkern f) None.

(** ** Contents *)

(** a == b of float64 *)
Definition feq (a b : f64) : bool := match SFcompare a b with Some Eq => true | _ => false end.

(** cache_content_text.go:16-36 cacheContentText *)
Record gtext := mkGT {
  x_rect : option (f64 * f64); x_color : Z * Z * Z; x_gray : f64; x_index : Z; x_size : Z; x_style : Z; x_setx : Z;
  x_x : f64; x_y : f64; x_font : nat; x_height : f64; x_cell : bool; x_align : Z; x_border : Z; x_float : Z; x_line : f64;
  x_content : bytes; x_text : bytes; x_cw : f64; x_tw : f64; x_ch : f64 }.

Inductive gcache :=
| CText (c : gtext)
| CLine (h x1 y1 x2 y2 : f64)
| CRect (h x y w hh : f64) (style : bytes)
| COval (h x1 y1 x2 y2 : f64)
| CCurve (h x0 y0 x1 y1 x2 y2 x3 y3 : f64) (style : bytes)
| CWidth (w : f64)
| CType (t : bytes)
| CGray (stroke : bool) (scale : f64)
| CColor (stroke : bool) (rgb : Z * Z * Z)
| CImage (index : Z) (x y h : f64) (rect : f64 * f64).

(** cache_content_text.go:38-54 isSame *)
Definition rgb_eq (a b : Z * Z * Z) : bool :=
  let '(r, g, b1) := a in let '(r', g', b2) := b in (r =? r') && (g =? g') && (b1 =? b2).
Definition is_same (c n : gtext) : bool :=
  match x_rect c with
  | Some _ => false
  | None => rgb_eq (x_color c) (x_color n) && feq (x_gray c) (x_gray n) && (x_index c =? x_index n) && (x_size c =? x_size n)
            && (x_style c =? x_style n) && (x_setx c =? x_setx n) && feq (x_y c) (x_y n)
  end.

(** 234-246, 297-306 createContent: the content, and if there is no error the
    widths and the height *)
Definition create_content (f : gfont) (c : gtext) (text : bytes) : gtext * res (f64 * f64) :=
  let (body, s) := content (gsfont f) (x_size c) text in
  let upd cw tw ch := mkGT (x_rect c) (x_color c) (x_gray c) (x_index c) (x_size c) (x_style c) (x_setx c) (x_x c) (x_y c) (x_font c)
                        (x_height c) (x_cell c) (x_align c) (x_border c) (x_float c) (x_line c) body text cw tw ch in
  match s with
  | Ok sum =>
    let tw := scale_width sum (x_size c) in
    let (cw, ch) := match x_rect c with
                    | None => (tw, fsub (typo_asc (gf_ttf f) (x_size c)) (typo_desc (gf_ttf f) (x_size c)))
                    | Some (w, h) => (w, h)
                    end in
    (upd cw tw ch, Ok (cw, ch))
  | Err e => (upd (x_cw c) (x_tw c) (x_ch c), Err e)
  | Panic => (upd (x_cw c) (x_tw c) (x_ch c), Panic)
  | Diverge => (upd (x_cw c) (x_tw c) (x_ch c), Diverge)
  end.

(** list_cache_content.go:21-63 appendContentText; [fs] are the fonts *)
Definition append_text (fs : list gfont) (l : list gcache) (c : gtext) (text : bytes) : list gcache * f64 * f64 * res unit :=
  let '(before, cur) :=
    match rev l with
    | CText old :: r => if is_same old c then (rev r, old) else (l, c)
    | _ => (l, c)
    end in
  match nth_error fs (x_font cur) with
  | None => (l, x_x c, x_y c, Panic)
  | Some f =>
    let (cur', r) := create_content f cur (x_text cur ++ text) in
    let l' := before ++ [CText cur'] in
    match r with
    | Ok (w, h) =>
      (l', (if (x_float cur =? 0) || hasbit (x_float cur) aRight || negb (x_cell cur) then fadd (x_x c) w else x_x c),
           (if hasbit (x_float cur) aBottom then fadd (x_y c) h else x_y c), Ok tt)
    | Err e => (l', x_x c, x_y c, Err e)
    | Panic => (l', x_x c, x_y c, Panic)
    | Diverge => (l', x_x c, x_y c, Diverge)
    end
  end.

(** 77-112 calY, calX *)
Definition gcal_y (t : ttf) (c : gtext) : f64 :=
  let y := fsub (x_height c) (x_y c) in
  if negb (x_cell c) then y
  else if hasbit (x_align c) aBottom then fsub (fsub y (x_ch c)) (typo_desc t (x_size c))
  else if hasbit (x_align c) aMiddle then
    fsub (fsub y (fmul (x_ch c) half)) (fmul (fadd (typo_desc t (x_size c)) (typo_asc t (x_size c))) half)
  else fsub y (typo_asc t (x_size c)).
Definition gcal_x (c : gtext) : f64 :=
  if negb (x_cell c) then x_x c
  else if hasbit (x_align c) aRight then fsub (fadd (x_x c) (x_cw c)) (x_tw c)
  else if hasbit (x_align c) aCenter then fsub (fadd (x_x c) (fmul (x_cw c) half)) (fmul (x_tw c) half)
  else x_x c.

(** 162-213 drawBorder *)
Definition gborder (c : gtext) : bytes :=
  let off := fmul (x_line c) half in
  let top := fsub (x_height c) (x_y c) in
  let x := x_x c in
  let xr := fadd x (x_cw c) in
  (if hasbit (x_border c) aTop then line_text (fsub x off) top (fadd xr off) top else [])
  ++ (if hasbit (x_border c) aLeft then line_text x top x (fsub top (x_ch c)) else [])
  ++ (if hasbit (x_border c) aRight then line_text xr top xr (fsub top (x_ch c)) else [])
  ++ (if hasbit (x_border c) aBottom then line_text (fsub x off) (fsub top (x_ch c)) (fadd xr off) (fsub top (x_ch c)) else []).

(** 215-232 underline *)
Definition gunderline (t : ttf) (c : gtext) : bytes :=
  let em := fofz (unitsPerEm t) in
  let size := fofz (x_size c) in
  let arg3 := fsub (fsub (x_height c) (fsub (x_y c) (fmul (fdiv (fofz (underlinePosition t)) em) size))) (fmul size (fconst 7 10)) in
  let arg4 := fmul (fdiv (fofz (underlineThickness t)) em) size in
  fmt2 (x_x c) ++ B" " ++ fmt2 arg3 ++ B" " ++ fmt2 (fsub (fadd (x_x c) (x_cw c)) (x_x c)) ++ B" -" ++ fmt2 arg4 ++ B" re f" ++ [10].

(** 114-160 toStream *)
Definition gtext_stream (t : ttf) (c : gtext) : bytes :=
  B"BT" ++ [10] ++ fmt2 (gcal_x c) ++ B" " ++ fmt2 (gcal_y t c) ++ B" TD" ++ [10]
  ++ B"/F" ++ itoa (x_index c) ++ B" " ++ itoa (x_size c) ++ B" Tf" ++ [10]
  ++ color_text (x_color c) ++ x_content c ++ B"ET" ++ [10]
  ++ (if hasbit (x_style c) uUnderline then gunderline t c else [])
  ++ gborder c.

(** style.go:3-11 parseStyle, cache_contnent_curve.go:41-46 the same *)
Definition style_op (s : bytes) : bytes :=
  if beqb s (B"F") then B"f" else if beqb s (B"FD") || beqb s (B"DF") then B"B" else B"S".

(** six numbers *)
Definition six (a b c d e f : f64) : bytes :=
  fmt2 a ++ B" " ++ fmt2 b ++ B" " ++ fmt2 c ++ B" " ++ fmt2 d ++ B" " ++ fmt2 e ++ B" " ++ fmt2 f.

(** cache_content_line.go:16-25 *)
Definition line_cache (h x1 y1 x2 y2 : f64) : bytes := line_text x1 (fsub h y1) x2 (fsub h y2).

(** cache_content_rectangle.go:17-30 *)
Definition rect_cache (h x y w hh : f64) (style : bytes) : bytes :=
  fmt2 x ++ B" " ++ fmt2 (fsub h y) ++ B" " ++ fmt2 w ++ B" " ++ fmt2 hh ++ B" re " ++ style_op style ++ [10].

(** cache_content_oval.go:16-50 *)
Definition oval_cache (h x1 y1 x2 y2 : f64) : bytes :=
  let cp := fconst 55228 100000 in
  let two := fofz 2 in
  let cx := fadd x1 (fdiv (fsub x2 x1) two) in
  let cy := fsub h (fadd y1 (fdiv (fsub y2 y1) two)) in
  let dx := fmul (fdiv (fsub x2 x1) two) cp in
  let dy := fmul (fdiv (fsub y2 y1) two) cp in
  let lo := fsub h y2 in
  let hi := fsub h y1 in
  fmt2 cx ++ B" " ++ fmt2 lo ++ B" m" ++ [10]
  ++ six (fadd cx dx) lo x2 (fsub cy dy) x2 cy ++ B" c" ++ [10]
  ++ six x2 (fadd cy dy) (fadd cx dx) hi cx hi ++ B" c" ++ [10]
  ++ six (fsub cx dx) hi x1 (fadd cy dy) x1 cy ++ B" c" ++ [10]
  ++ six x1 (fsub cy dy) (fsub cx dx) lo cx lo ++ B" c S" ++ [10].

(** cache_contnent_curve.go:21-49 *)
Definition curve_cache (h x0 y0 x1 y1 x2 y2 x3 y3 : f64) (style : bytes) : bytes :=
  fmt2 x0 ++ B" " ++ fmt2 (fsub h y0) ++ B" m" ++ [10]
  ++ six x1 (fsub h y1) x2 (fsub h y2) x3 (fsub h y3) ++ B" c" ++ B" " ++ style_op style ++ [10].

(** cache_content_line_width.go:12-16, cache_content_line_type.go:12-23,
    cache_content_gray.go:16-20, cache_contact_color.go:17-24 *)
Definition width_cache (w : f64) : bytes := fmt2 w ++ B" w" ++ [10].
Definition type_cache (t : bytes) : bytes :=
  (if beqb t (B"dashed") then B"[5] 2 d" else if beqb t (B"dotted") then B"[2 3] 11 d" else B"[] 0 d") ++ [10].
Definition gray_cache (stroke : bool) (w : f64) : bytes := fmt2 w ++ B" " ++ (if stroke then B"G" else B"g") ++ [10].
Definition color_cache (stroke : bool) (rgb : Z * Z * Z) : bytes :=
  let '(r, g, b) := rgb in
  fmt2 (fmul (fofz r) color_unit) ++ B" " ++ fmt2 (fmul (fofz g) color_unit) ++ B" " ++ fmt2 (fmul (fofz b) color_unit)
  ++ B" " ++ (if stroke then B"RG" else B"rg") ++ [10].

(** cache_content_image.go:16-20 *)
Definition image_cache (index : Z) (x y h : f64) (rect : f64 * f64) : bytes :=
  img_stream (fst rect) (snd rect) x y h (B"I") (index + 1).

(** the toStream functions; underline and calY read the font of the text *)
Definition cache_stream (fs : list gfont) (c : gcache) : res bytes :=
  match c with
  | CText c => match nth_error fs (x_font c) with Some f => Ok (gtext_stream (gf_ttf f) c) | None => Panic end
  | CLine h x1 y1 x2 y2 => Ok (line_cache h x1 y1 x2 y2)
  | CRect h x y w hh s => Ok (rect_cache h x y w hh s)
  | COval h x1 y1 x2 y2 => Ok (oval_cache h x1 y1 x2 y2)
  | CCurve h x0 y0 x1 y1 x2 y2 x3 y3 s => Ok (curve_cache h x0 y0 x1 y1 x2 y2 x3 y3 s)
  | CWidth w => Ok (width_cache w)
  | CType t => Ok (type_cache t)
  | CGray s w => Ok (gray_cache s w)
  | CColor s c => Ok (color_cache s c)
  | CImage i x y h r => Ok (image_cache i x y h r)
  end.

(** list_cache_content.go:65-78 *)
Fixpoint caches_stream (fs : list gfont) (l : list gcache) : res bytes :=
  match l with
  | [] => Ok []
  | c :: l => do a <- cache_stream fs c; do b <- caches_stream fs l; Ok (a ++ b)
  end.

(** ** Objects *)

(** procset_obj.go:85-98 RelateFont, RealteXobject: family, CountOfFont,
    IndexOfObj, Style *)
Record relfont := mkRel { r_family : bytes; r_count : Z; r_obj : Z; r_style : Z }.

(** The kinds of objects with their fields; protections as they were set *)
Inductive gkind :=
| KCatalog
| KPages (count : Z) (kids : bytes)
| KProcSet (fonts : list relfont) (xobjs : list Z)
| KPage (contents resources : bytes) (opt : f64 * f64)
| KContent (stream : bytes) (caches : list gcache)
| KUnicode (font : nat) (prot : option protection)
| KDict (font : nat) (prot : option protection)
| KDesc (font : nat) (dict : Z)
| KCid (font : nat) (desc : Z)
| KFont (font : nat)
| KImage (info : imgInfo) (rgb : Z) (prot : option protection)
| KSMask (info : imgInfo) (prot : option protection)
| KRgb (data : bytes)
| KEncrypt (pr : protection).

(** every object has a buffer that builds append to *)
Record gobj := mkGO { o_buf : bytes; o_kind : gkind }.
Definition new_obj (k : gkind) : gobj := mkGO [] k.

(** page_option.go:8-13 isEmpty *)
Definition opt_empty (o : f64 * f64) : bool := feq (snd o) (fofz 0) && feq (fst o) (fofz 0).

(** ** State *)

(** config.go:4-18 *)
Record gconfig := mkCfg { cfg_w : f64; cfg_h : f64; cfg_use : bool; cfg_perm : Z; cfg_user : bytes; cfg_owner : bytes }.

(** pdf_info_obj.go:6-13; the date as infodate writes it, None is the zero time *)
Record ginfo := mkInfo { i_title : bytes; i_author : bytes; i_subject : bytes; i_creator : bytes; i_producer : bytes; i_date : option bytes }.

(** current.go:4-44 Current.  ImgCaches: the names of the images and their sizes;
    Index is the place in the list. *)
Record gcur := mkCur {
  u_setx : Z; u_x : f64; u_y : f64; u_fonts : Z; u_l : Z; u_size : Z; u_style : Z; u_count : Z; u_font : option nat;
  u_imgs : Z; u_cache : list (bytes * Z * (f64 * f64)); u_color : Z * Z * Z; u_gray : f64; u_line : f64; u_page : f64 * f64 }.

(** gopdf.go:18-59 GoPdf.  [g_cap]: the buffer has a capacity; [g_first] is
    indexOfFirstPageObj. *)
Record gp := mkGp {
  g_left : f64; g_top : f64; g_objs : list gobj; g_cfg : gconfig; g_pages : Z; g_first : Z; g_cur : gcur; g_content : Z; g_procset : Z;
  g_buf : bytes; g_cap : bool; g_prot : option protection; g_enc : Z; g_level : Z; g_info : option ginfo; g_fonts : list gfont }.

Definition cur0 : gcur :=
  mkCur 0 (fofz 0) (fofz 0) 0 0 0 0 0 None 0 [] (0, 0, 0) (fofz 0) (fofz 0) (fofz 0, fofz 0).
(** var gp GoPdf *)
Definition gp0 : gp :=
  mkGp (fofz 0) (fofz 0) [] (mkCfg (fofz 0) (fofz 0) false 0 [] []) 0 0 cur0 0 0 [] false None 0 0 None [].

Definition g_set_objs (g : gp) (os : list gobj) : gp :=
  mkGp (g_left g) (g_top g) os (g_cfg g) (g_pages g) (g_first g) (g_cur g) (g_content g) (g_procset g) (g_buf g) (g_cap g) (g_prot g) (g_enc g) (g_level g) (g_info g) (g_fonts g).
Definition g_set_cur (g : gp) (c : gcur) : gp :=
  mkGp (g_left g) (g_top g) (g_objs g) (g_cfg g) (g_pages g) (g_first g) c (g_content g) (g_procset g) (g_buf g) (g_cap g) (g_prot g) (g_enc g) (g_level g) (g_info g) (g_fonts g).
Definition g_set_content (g : gp) (i : Z) : gp :=
  mkGp (g_left g) (g_top g) (g_objs g) (g_cfg g) (g_pages g) (g_first g) (g_cur g) i (g_procset g) (g_buf g) (g_cap g) (g_prot g) (g_enc g) (g_level g) (g_info g) (g_fonts g).
Definition g_set_fonts (g : gp) (fs : list gfont) : gp :=
  mkGp (g_left g) (g_top g) (g_objs g) (g_cfg g) (g_pages g) (g_first g) (g_cur g) (g_content g) (g_procset g) (g_buf g) (g_cap g) (g_prot g) (g_enc g) (g_level g) (g_info g) fs.
Definition g_set_buf (g : gp) (b : bytes) (cap : bool) : gp :=
  mkGp (g_left g) (g_top g) (g_objs g) (g_cfg g) (g_pages g) (g_first g) (g_cur g) (g_content g) (g_procset g) b cap (g_prot g) (g_enc g) (g_level g) (g_info g) (g_fonts g).
Definition g_set_level (g : gp) (l : Z) : gp :=
  mkGp (g_left g) (g_top g) (g_objs g) (g_cfg g) (g_pages g) (g_first g) (g_cur g) (g_content g) (g_procset g) (g_buf g) (g_cap g) (g_prot g) (g_enc g) l (g_info g) (g_fonts g).
Definition g_set_info (g : gp) (i : option ginfo) : gp :=
  mkGp (g_left g) (g_top g) (g_objs g) (g_cfg g) (g_pages g) (g_first g) (g_cur g) (g_content g) (g_procset g) (g_buf g) (g_cap g) (g_prot g) (g_enc g) (g_level g) i (g_fonts g).
Definition g_set_margins (g : gp) (l t : f64) : gp :=
  mkGp l t (g_objs g) (g_cfg g) (g_pages g) (g_first g) (g_cur g) (g_content g) (g_procset g) (g_buf g) (g_cap g) (g_prot g) (g_enc g) (g_level g) (g_info g) (g_fonts g).
Definition g_set_first (g : gp) (i : Z) : gp :=
  mkGp (g_left g) (g_top g) (g_objs g) (g_cfg g) (g_pages g) i (g_cur g) (g_content g) (g_procset g) (g_buf g) (g_cap g) (g_prot g) (g_enc g) (g_level g) (g_info g) (g_fonts g).
Definition g_set_enc (g : gp) (i : Z) : gp :=
  mkGp (g_left g) (g_top g) (g_objs g) (g_cfg g) (g_pages g) (g_first g) (g_cur g) (g_content g) (g_procset g) (g_buf g) (g_cap g) (g_prot g) i (g_level g) (g_info g) (g_fonts g).

Definition u_set_xy (c : gcur) (x y : f64) : gcur :=
  mkCur (u_setx c) x y (u_fonts c) (u_l c) (u_size c) (u_style c) (u_count c) (u_font c) (u_imgs c) (u_cache c) (u_color c) (u_gray c) (u_line c) (u_page c).
Definition u_set_font (c : gcur) (size style count : Z) (f : nat) : gcur :=
  mkCur (u_setx c) (u_x c) (u_y c) (u_fonts c) (u_l c) size style count (Some f) (u_imgs c) (u_cache c) (u_color c) (u_gray c) (u_line c) (u_page c).
Definition u_set_l (c : gcur) (l : Z) : gcur :=
  mkCur (u_setx c) (u_x c) (u_y c) (u_fonts c) l (u_size c) (u_style c) (u_count c) (u_font c) (u_imgs c) (u_cache c) (u_color c) (u_gray c) (u_line c) (u_page c).
Definition u_set_fonts (c : gcur) (n : Z) : gcur :=
  mkCur (u_setx c) (u_x c) (u_y c) n (u_l c) (u_size c) (u_style c) (u_count c) (u_font c) (u_imgs c) (u_cache c) (u_color c) (u_gray c) (u_line c) (u_page c).
Definition u_set_color (c : gcur) (rgb : Z * Z * Z) : gcur :=
  mkCur (u_setx c) (u_x c) (u_y c) (u_fonts c) (u_l c) (u_size c) (u_style c) (u_count c) (u_font c) (u_imgs c) (u_cache c) rgb (u_gray c) (u_line c) (u_page c).
Definition u_set_gray (c : gcur) (w : f64) : gcur :=
  mkCur (u_setx c) (u_x c) (u_y c) (u_fonts c) (u_l c) (u_size c) (u_style c) (u_count c) (u_font c) (u_imgs c) (u_cache c) (u_color c) w (u_line c) (u_page c).
Definition u_set_line (c : gcur) (w : f64) : gcur :=
  mkCur (u_setx c) (u_x c) (u_y c) (u_fonts c) (u_l c) (u_size c) (u_style c) (u_count c) (u_font c) (u_imgs c) (u_cache c) (u_color c) (u_gray c) w (u_page c).
Definition u_set_page (c : gcur) (p : f64 * f64) : gcur :=
  mkCur (u_setx c) (u_x c) (u_y c) (u_fonts c) (u_l c) (u_size c) (u_style c) (u_count c) (u_font c) (u_imgs c) (u_cache c) (u_color c) (u_gray c) (u_line c) p.
Definition u_add_img (c : gcur) (id : bytes) (rect : f64 * f64) : gcur :=
  mkCur (u_setx c) (u_x c) (u_y c) (u_fonts c) (u_l c) (u_size c) (u_style c) (u_count c) (u_font c) (u_imgs c + 1)
    (u_cache c ++ [(id, u_imgs c, rect)]) (u_color c) (u_gray c) (u_line c) (u_page c).
Definition u_count_setx (c : gcur) (x : f64) : gcur :=
  mkCur (u_setx c + 1) x (u_y c) (u_fonts c) (u_l c) (u_size c) (u_style c) (u_count c) (u_font c) (u_imgs c) (u_cache c) (u_color c) (u_gray c) (u_line c) (u_page c).

(** ** Calls *)

(** gopdf.go:836-840 addObj *)
Definition addObj (g : gp) (k : gkind) : gp * Z := (g_set_objs g (g_objs g ++ [new_obj k]), Z.of_nat (List.length (g_objs g))).
Definition kind_at (g : gp) (i : Z) : res gkind := do o <- at_ (g_objs g) i; Ok (o_kind o).
Definition put_kind (g : gp) (i : Z) (k : gkind) : gp :=
  g_set_objs g (set_nth (Z.to_nat i) (fun o => mkGO (o_buf o) k) (g_objs g)).

(** 842-854 getContent: the state and the index of the content object with its
    caches *)
Definition getContent (g : gp) : res (gp * Z * bytes * list gcache) :=
  if g_content g <=? -1 then
    let (g1, i) := addObj g (KContent [] []) in Ok (g_set_content g1 i, i, [], [])
  else do k <- kind_at g (g_content g);
       match k with KContent s cs => Ok (g, g_content g, s, cs) | _ => Panic end.

(** getContent and one of the AppendStream functions but for text,
    content_obj.go:163-288; the caches take the height of the current page *)
Definition draw (g : gp) (f : f64 -> gcache) : res gp :=
  do (g1, i, s, cs) <- getContent g;
  Ok (put_kind g1 i (KContent s (cs ++ [f (snd (u_page (g_cur g)))]))).

(** How a call ends: the state and the error if there is one *)
Definition gends := res (gp * option err).
Definition gok (g : res gp) : gends := do g <- g; Ok (g, None).

(** 664-695 init, resetCurrXY, 314-342 Start; createProtection (701-709) drops the error of
    setProtection; [rnd] is the random password *)
Definition g_start (rnd : bytes) (cfg : gconfig) (g : gp) : res gp :=
  let ten := fofz 10 in
  let c := g_cur g in
  let c := mkCur (u_setx c) ten ten 0 0 (u_size c) (u_style c) (u_count c) (u_font c) 0 [] (u_color c) (u_gray c) (fofz 1) (u_page c) in
  let g := mkGp ten ten (g_objs g) cfg (-1) (-1) c (-1) (g_procset g) (g_buf g) (g_cap g) (g_prot g) (g_enc g) (-1) (g_info g) (g_fonts g) in
  let (g, _) := addObj g KCatalog in
  let (g, pages) := addObj g (KPages 0 []) in
  let (g, procset) := addObj g (KProcSet [] []) in
  do prot <- (if cfg_use cfg then
                match setProtection rnd (cfg_perm cfg) (cfg_user cfg) (cfg_owner cfg) with
                | Ok p => Ok (Some p)
                | Err _ => Ok (Some (mkProt [] [] 0 []))
                | Panic => Panic
                | Diverge => Diverge
                end
              else Ok (g_prot g));
  Ok (mkGp (g_left g) (g_top g) (g_objs g) (g_cfg g) pages (g_first g) (g_cur g) (g_content g) procset (g_buf g) (g_cap g) prot (g_enc g) (g_level g) (g_info g) (g_fonts g)).

(** 282-312 AddPage, AddPageWithOption *)
Definition g_add_page (opt : f64 * f64) (g : gp) : gp :=
  let size := if opt_empty opt then (cfg_w (g_cfg g), cfg_h (g_cfg g)) else opt in
  let opt := if opt_empty opt then (fofz 0, fofz 0) else opt in
  let g := g_set_cur g (u_set_page (g_cur g) size) in
  let (g, i) := addObj g (KPage [] (itoa (g_procset g + 1) ++ B" 0 R") opt) in
  let g := if g_first g =? -1 then g_set_first g i else g in
  let g := g_set_content g (-1) in
  g_set_cur g (u_set_xy (g_cur g) (g_left g) (g_top g)).

(** font_option.go:16-28 getConvertedStyle; U+0131 has the upper case I *)
Definition has_char (l : list Z) (s : bytes) : bool := existsb (fun c => existsb (Z.eqb c) l) s.
Definition converted_style (s : bytes) : Z :=
  (if has_char [66; 98] s then 2 else 0) + (if has_char [73; 105] s || contains [196; 177] s then 1 else 0)
  + (if has_char [85; 117] s then 4 else 0).
Definition no_underline (s : Z) : Z := Z.ldiff s uUnderline.

(** gopdf.go:344-380 SetFontWithStyle, SetFont: the first font object with the family and
    the style *)
Fixpoint find_font (os : list gobj) (fs : list gfont) (p : gfont -> bool) : option nat :=
  match os with
  | [] => None
  | o :: os =>
    match o_kind o with
    | KFont n => match nth_error fs n with Some f => if p f then Some n else find_font os fs p | None => find_font os fs p end
    | _ => find_font os fs p
    end
  end.
Definition g_set_font (family : bytes) (style size : Z) (g : gp) : gends :=
  match find_font (g_objs g) (g_fonts g) (fun f => beqb (gf_family f) family && (gf_style f =? no_underline style)) with
  | None => Ok (g, Some EOther)
  | Some n => match nth_error (g_fonts g) n with
              | Some f => Ok (g_set_cur g (u_set_font (g_cur g) size style (gf_count f) n), None)
              | None => Panic
              end
  end.

(** Font_ISubset.AddChars of the calls of text; without a font the nil pointer
    panics here or in createContent *)
Definition add_text_chars (g : gp) (text : bytes) : res (gp * nat * option err) :=
  match u_font (g_cur g) with
  | None => Panic
  | Some n =>
    match nth_error (g_fonts g) n with
    | None => Panic
    | Some f =>
      let (m, r) := add_chars (gf_ttf f) text (gf_map f) in
      let g := g_set_fonts g (set_nth n (fun f => gf_set_map f m) (g_fonts g)) in
      match r with
      | Ok _ => Ok (g, n, None)
      | Err e => Ok (g, n, Some e)
      | Panic => Panic
      | Diverge => Diverge
      end
    end
  end.

(** 448-497 Text, CellWithOption, Cell; content_obj.go:87-161 AppendStreamText,
    AppendStreamSubsetFont *)
Definition put_text (g : gp) (n : nat) (cell : bool) (rect : option (f64 * f64)) (align border float : Z) (text : bytes) : gends :=
  do (g1, i, s, cs) <- getContent g;
  let u := g_cur g in
  let c := mkGT rect (u_color u) (u_gray u) (u_count u + 1) (u_size u) (u_style u) (u_setx u) (u_x u) (u_y u) n
             (snd (u_page u)) cell align border float (u_line u) [] [] (fofz 0) (fofz 0) (fofz 0) in
  let '(cs', x, y, r) := append_text (g_fonts g) cs c text in
  let g2 := g_set_cur (put_kind g1 i (KContent s cs')) (u_set_xy u x y) in
  match r with
  | Ok _ => Ok (g2, None)
  | Err e => Ok (g2, Some e)
  | Panic => Panic
  | Diverge => Diverge
  end.
Definition text_call (cell : bool) (rect : option (f64 * f64)) (align border float : Z) (text : bytes) (g : gp) : gends :=
  do (g, n, e) <- add_text_chars g text;
  match e with Some e => Ok (g, Some e) | None => put_text g n cell rect align border float text end.
Definition do_text (text : bytes) (g : gp) : gends := text_call false None 0 0 0 text g.
Definition g_cell_option (rect : option (f64 * f64)) (text : bytes) (align border float : Z) (g : gp) : gends :=
  text_call true rect align border float text g.
Definition g_cell (rect : option (f64 * f64)) (text : bytes) (g : gp) : gends := text_call true rect (aLeft + aTop) 0 aRight text g.

(** 499-581 AddTTFFontByReaderWithOption (AddTTFFont and the others read the file
    first); [beyond] as in Subset.v *)
Definition g_add_font (family : bytes) (kerning : bool) (style : Z) (file : option bytes) (beyond : bytes) (g : gp) : gends :=
  match (match file with
         | Some d => do t <- parseTtf d; do k <- (if kerning then parseKern d (tables t) else Ok []); Ok (t, k)
         | None => Err EOther
         end) with
  | Ok (t, k) =>
    let n := List.length (g_fonts g) in
    let (g, uni) := addObj g (KUnicode n (g_prot g)) in
    let (g, dict) := addObj g (KDict n (g_prot g)) in
    let (g, desc) := addObj g (KDesc n dict) in
    let (g, cid) := addObj g (KCid n desc) in
    let (g, i) := addObj g (KFont n) in
    let font c := mkGF family t beyond [] c kerning style k None cid uni in
    if g_procset g =? -1 then Ok (g_set_fonts g (g_fonts g ++ [font 0]), None) else
    do ps <- kind_at g (g_procset g);
    match ps with
    | KProcSet rs xs =>
      if existsb (fun r => beqb (r_family r) family && (r_style r =? no_underline style)) rs
      then Ok (g_set_fonts g (g_fonts g ++ [font 0]), None)
      else
        let c := u_fonts (g_cur g) in
        let g := put_kind g (g_procset g) (KProcSet (rs ++ [mkRel family c i (no_underline style)]) xs) in
        Ok (g_set_fonts (g_set_cur g (u_set_fonts (g_cur g) (c + 1))) (g_fonts g ++ [font c]), None)
    | _ => Panic
    end
  | Err e => Ok (g, Some e)
  | Panic => Panic
  | Diverge => Diverge
  end.

(** 583-601 KernOverride *)
Definition g_kern_override (family : bytes) (k : option kernfn) (g : gp) : gends :=
  match find_font (g_objs g) (g_fonts g) (fun f => beqb (gf_family f) family) with
  | None => Ok (g, Some EOther)
  | Some n => Ok (g_set_fonts g (set_nth n (fun f => gf_set_over f k) (g_fonts g)), None)
  end.

(** 623-636 MeasureTextWidth: createContent is given no buffer, and its first
    statement writes to it, cache_content_text.go:254 *)
Definition g_measure (text : bytes) (g : gp) : gends :=
  do (g, n, e) <- add_text_chars g text;
  match e with Some e => Ok (g, Some e) | None => Panic end.

(** image_obj.go:152-183 getRect; Go's / truncates *)
Definition img_rect (w : gworld) (d : bytes) : res (f64 * f64) :=
  match gw_bounds w d with
  | None => Err EOther
  | Some (dx, dy) =>
    let a := Z.quot (Z.quot (- dx * 72) (-128)) 1 in
    let b := Z.quot (Z.quot (- dy * 72) (-128)) 1 in
    do a <- (if a =? 0 then if dy =? 0 then Panic else Ok (Z.quot (b * dx) dy) else Ok a);
    do b <- (if b =? 0 then if dx =? 0 then Panic else Ok (Z.quot (a * dy) dx) else Ok b);
    Ok (fofz a, fofz b)
  end.

(** gopdf.go:191-280 ImageByHolder, Image; [id] is the ID of the holder, [data] what
    it still has to read, [beyond] as in Png.v.  The rectangle is a value here, so
    that the caller does not change it after the call. *)
Definition img_put (id data : bytes) (x y : f64) (r : f64 * f64) (info : imgInfo) (g : gp) : gends :=
  let (g, i) := addObj g (KImage info 0 (g_prot g)) in
  do g <- (if g_procset g =? -1 then Ok g else
           do ps <- kind_at g (g_procset g);
           match ps with
           | KProcSet fs xs =>
             do g <- draw g (fun h => CImage (u_imgs (g_cur g)) x y h r);
             let g := put_kind g (g_procset g) (KProcSet fs (xs ++ [i])) in
             Ok (g_set_cur g (u_add_img (g_cur g) id r))
           | _ => Panic
           end);
  let g := match createSMask info with
           | None => g
           | Some m => let (g, j) := addObj g (KSMask m (g_prot g)) in put_kind g i (KImage (setSMaskObjID info j) 0 (g_prot g))
           end in
  if beqb (colspace info) (B"Indexed") then
    let (g, j) := addObj g (KRgb (pal info)) in
    do k <- kind_at g i;
    match k with KImage info _ p => Ok (put_kind g i (KImage info j p), None) | _ => Panic end
  else Ok (g, None).
Definition g_image (w : gworld) (beyond : bytes) (id data : bytes) (x y : f64) (rect : option (f64 * f64)) (g : gp) : gends :=
  match find (fun c => beqb id (fst (fst c))) (u_cache (g_cur g)) with
  | Some (_, k, _) =>
    if k =? -1 then Panic else
    do r <- (match rect with Some r => Ok r | None => do c <- at_ (u_cache (g_cur g)) k; Ok (snd c) end);
    gok (draw g (fun h => CImage k x y h r))
  | None =>
    match (match rect with Some r => Ok r | None => img_rect w data end) with
    | Err e => Ok (g, Some e)
    | Panic => Panic
    | Diverge => Diverge
    | Ok r =>
      match parseImg (gw_config w) (gw_inflate w) (gw_compress w) beyond data with
      | Err e => Ok (g, Some e)
      | Panic => Panic
      | Diverge => Diverge
      | Ok info => img_put id data x y r info g
      end
    end
  end.

(** 61-65 SetLineWidth, 93-189, 603-621, 638-647: the drawing calls and the
    positions; content_obj.go:298-306 fixRange10 *)
Definition fix_range (v : f64) : f64 := if flt v (fofz 0) then fofz 0 else if fgt v (fofz 1) then fofz 1 else v.
Definition g_line_width (w : f64) (g : gp) : gends := gok (draw (g_set_cur g (u_set_line (g_cur g) w)) (fun _ => CWidth w)).
Definition g_line_type (t : bytes) (g : gp) : gends := gok (draw g (fun _ => CType t)).
Definition do_line (x1 y1 x2 y2 : f64) (g : gp) : gends := gok (draw g (fun h => CLine h x1 y1 x2 y2)).
Definition g_rect_lower (x y w h : f64) (style : bytes) (g : gp) : gends := gok (draw g (fun ph => CRect ph x y w h style)).
Definition g_rect_upper (x y w h : f64) (style : bytes) (g : gp) : gends := g_rect_lower x (fadd y h) w h style g.
Definition g_oval (x1 y1 x2 y2 : f64) (g : gp) : gends := gok (draw g (fun h => COval h x1 y1 x2 y2)).
Definition g_gray (stroke : bool) (v : f64) (g : gp) : gends :=
  let g := if stroke then g else g_set_cur g (u_set_gray (g_cur g) v) in
  gok (draw g (fun _ => CGray stroke (fix_range v))).
Definition g_color (stroke : bool) (rgb : Z * Z * Z) (g : gp) : gends := gok (draw g (fun _ => CColor stroke rgb)).
(** strings.ToUpper as far as F and D are concerned *)
Definition upper (c : Z) : Z := if (97 <=? c) && (c <=? 122) then c - 32 else c.
Definition g_curve (x0 y0 x1 y1 x2 y2 x3 y3 : f64) (style : bytes) (g : gp) : gends :=
  gok (draw g (fun h => CCurve h x0 y0 x1 y1 x2 y2 x3 y3 (map upper (trim_space style)))).
Definition g_br (h : f64) (g : gp) : gp := g_set_cur g (u_set_xy (g_cur g) (g_left g) (fadd (u_y (g_cur g)) h)).
Definition g_set_x (x : f64) (g : gp) : gp := g_set_cur g (u_count_setx (g_cur g) x).
Definition g_set_y (y : f64) (g : gp) : gp := g_set_cur g (u_set_xy (g_cur g) (u_x (g_cur g)) y).
Definition g_text_color (rgb : Z * Z * Z) (g : gp) : gp := g_set_cur g (u_set_color (g_cur g) rgb).

(** gopdf.go:67-91 SetCompressLevel, SetNoCompression: a level above 9 is not set at all *)
Definition g_compress_level (l : Z) (g : gp) : gp :=
  if l <? -2 then g_set_level g (-1) else if 9 <? l then g else g_set_level g l.

(** ** Writing *)

(** image_obj_parse.go:15-61 buildImgProp with deviceRGBObjID *)
Definition img_prop (i : imgInfo) (rgb : Z) : bytes :=
  B"<</Type /XObject" ++ [10] ++ B"/Subtype /Image" ++ [10]
  ++ B"/Width " ++ itoa (iw i) ++ [10] ++ B"/Height " ++ itoa (ih i) ++ [10]
  ++ (if beqb (colspace i) (B"Indexed")
      then B"/ColorSpace [/Indexed /DeviceRGB " ++ itoa (Z.quot (blen (pal i)) 3 - 1) ++ B" " ++ itoa (rgb + 1) ++ B" 0 R]" ++ [10]
      else B"/ColorSpace /" ++ colspace i ++ [10]
           ++ (if beqb (colspace i) (B"DeviceCMYK") then B"/Decode [1 0 1 0 1 0 1 0]" ++ [10] else []))
  ++ B"/BitsPerComponent " ++ bitsPer i ++ [10]
  ++ (if beqb (trim_space (ifilter i)) [] then [] else B"/Filter /" ++ ifilter i ++ [10])
  ++ (if beqb (trim_space (parms i)) [] then [] else B"/DecodeParms <<" ++ parms i ++ B">>" ++ [10])
  ++ match trns i with
     | [] => []
     | t => B"/Mask [" ++ flat_map (fun c => itoa c ++ B" " ++ itoa c ++ B" ") t ++ B"]" ++ [10]
     end
  ++ match smask i with [] => [] | _ => B"/SMask " ++ itoa (smaskID i) ++ B" 0 R" ++ [10] end.

(** the bytes of a stream, encrypted if there is a protection (rc4Cip), and what
    is written after them then *)
Definition enc_stream (prot : option protection) (id : Z) (d after : bytes) : res bytes :=
  match prot with None => Ok d | Some p => do c <- rc4 (objectkey p id) d; Ok (c ++ after) end.

(** image_obj.go:43-69, smask_obj.go:36-62 *)
Definition img_build (i : imgInfo) (rgb : Z) (prot : option protection) (id : Z) : res bytes :=
  do s <- enc_stream prot id (idata i) [10];
  Ok (img_prop i rgb ++ B"/Length " ++ itoa (blen (idata i)) ++ [10] ++ B">>" ++ [10] ++ B"stream" ++ [10] ++ s ++ [10] ++ B"endstream" ++ [10]).

(** content_obj.go:27-77 build: what is appended to the buffer, and what the
    stream buffer holds afterwards *)
Definition content_build (w : gworld) (level : Z) (prot : option protection) (id : Z) (stream s : bytes) : res (bytes * bytes) :=
  let flate := negb (level =? 0) in
  let d := if flate then gw_deflate w level (stream ++ s) else stream ++ s in
  do e <- enc_stream prot id d [10];
  let e := match prot with None => e ++ (if flate then [10] else []) | Some _ => e end in
  Ok (B"<<" ++ [10] ++ (if flate then B"/Filter/FlateDecode" else []) ++ B"/Length " ++ itoa (blen d) ++ [10] ++ B">>" ++ [10]
      ++ B"stream" ++ [10] ++ e ++ B"endstream" ++ [10], if flate then [] else stream ++ s).

(** unicode_map.go:94-112 with a protection *)
Definition unicode_build (m : charmap) (prot : option protection) (id : Z) : res bytes :=
  do s <- enc_stream prot id (unicode_content m) [];
  Ok (B"<<" ++ [10] ++ B"/Length " ++ itoa (blen (unicode_content m)) ++ [10] ++ B">>" ++ [10] ++ B"stream" ++ [10] ++ s ++ B"endstream" ++ [10]).

(** pdf_dictionary_obj.go:45-78 with a protection *)
Definition dict_build (w : gworld) (f : gfont) (prot : option protection) (id : Z) : res bytes :=
  do p <- make_font (gf_ttf f) (gf_beyond f) (gf_map f);
  let z := gw_compress w p in
  do s <- enc_stream prot id z [];
  Ok (B"<</Length " ++ itoa (blen z) ++ [10] ++ B"/Filter /FlateDecode" ++ [10] ++ B"/Length1 " ++ itoa (blen p) ++ [10]
      ++ B">>" ++ [10] ++ B"stream" ++ [10] ++ s ++ [10] ++ B"endstream" ++ [10]).

(** catalog_obj.go:17-23, pages_obj.go:22-33, page_obj.go:25-49 *)
Definition catalog_build : bytes := B"<<" ++ [10] ++ B"  /Type /Catalog" ++ [10] ++ B"  /Pages 2 0 R" ++ [10] ++ B">>" ++ [10].
Definition media_box (w h : f64) : bytes := B"/MediaBox [ 0 0 " ++ fmt2 w ++ B" " ++ fmt2 h ++ B" ]" ++ [10].
Definition pages_build (w h : f64) (count : Z) (kids : bytes) : bytes :=
  B"<<" ++ [10] ++ B"  /Type /Pages" ++ [10] ++ B"  " ++ media_box w h ++ B"  /Count " ++ itoa count ++ [10]
  ++ B"  /Kids [ " ++ kids ++ B" ]" ++ [10] ++ B">>" ++ [10].
Definition page_build (contents resources : bytes) (opt : f64 * f64) : bytes :=
  B"<<" ++ [10] ++ B"  /Type /Page" ++ [10] ++ B"  /Parent 2 0 R" ++ [10] ++ B"  /Resources " ++ resources ++ [10]
  ++ B"  /Contents " ++ contents ++ [10]
  ++ (if opt_empty opt then [] else B" " ++ media_box (fst opt) (snd opt)) ++ B">>" ++ [10].

(** procset_obj.go:21-48; [l] is CountOfL *)
Fixpoint xobj_lines (xs : list Z) (l : Z) : bytes :=
  match xs with [] => [] | x :: xs => B"/I" ++ itoa (l + 1) ++ B" " ++ itoa (x + 1) ++ B" 0 R" ++ [10] ++ xobj_lines xs (l + 1) end.
Definition procset_build (fs : list relfont) (xs : list Z) (l : Z) : bytes :=
  B"<<" ++ [10] ++ B"/ProcSet [/PDF /Text /ImageB /ImageC /ImageI]" ++ [10] ++ B"/Font <<" ++ [10]
  ++ flat_map (fun r => B"      /F" ++ itoa (r_count r + 1) ++ B" " ++ itoa (r_obj r + 1) ++ B" 0 R" ++ [10]) fs
  ++ B">>" ++ [10] ++ B"/XObject <<" ++ [10] ++ xobj_lines xs l ++ B">>" ++ [10] ++ B">>" ++ [10].

(** The build functions: what is appended to the buffer, the new kind, and the
    new CountOfL.  createDeviceRGB does not call init, so that getRoot of the
    palette object is nil and its build panics. *)
Definition build1 (w : gworld) (g : gp) (l : Z) (id : Z) (k : gkind) : res (bytes * gkind * Z) :=
  let font n := match nth_error (g_fonts g) n with Some f => Ok f | None => Panic end in
  match k with
  | KCatalog => Ok (catalog_build, k, l)
  | KPages count kids => Ok (pages_build (cfg_w (g_cfg g)) (cfg_h (g_cfg g)) count kids, k, l)
  | KProcSet fs xs => Ok (procset_build fs xs l, k, l + Z.of_nat (List.length xs))
  | KPage c r o => Ok (page_build c r o, k, l)
  | KContent stream cs =>
    do s <- caches_stream (g_fonts g) cs;
    do (b, stream') <- content_build w (g_level g) (g_prot g) id stream s;
    Ok (b, KContent stream' cs, l)
  | KUnicode n p => do f <- font n; do b <- unicode_build (gf_map f) p id; Ok (b, k, l)
  | KDict n p => do f <- font n; do b <- dict_build w f p id; Ok (b, k, l)
  | KDesc n dict => do f <- font n; Ok (desc_obj (gf_ttf f) (gf_family f) (dict + 1), k, l)
  | KCid n desc => do f <- font n; do b <- cid_obj (gf_ttf f) (gf_map f) (gf_family f) (desc + 1); Ok (b, k, l)
  | KFont n => do f <- font n; Ok (font_obj (gf_family f) (gf_cid f + 1) (gf_unicode f + 1), k, l)
  | KImage i rgb p => do b <- img_build i rgb p id; Ok (b, k, l)
  | KSMask i p => do b <- img_build i 0 p id; Ok (b, k, l)
  | KRgb _ => Panic
  | KEncrypt p => Ok (enc_dict p, k, l)
  end.

(** gopdf.go:715-760 prepare *)
Definition g_ref (i : Z) : bytes := B" " ++ itoa (i + 1) ++ B" 0 R ".
Fixpoint prep_loop (todo : list gobj) (i pages cur : Z) (g : gp) : res gp :=
  match todo with
  | [] => Ok g
  | o :: todo =>
    match o_kind o with
    | KPage _ _ _ =>
      do k <- kind_at g pages;
      match k with
      | KPages count kids => prep_loop todo (i + 1) pages i (put_kind g pages (KPages (count + 1) (kids ++ g_ref i)))
      | _ => Panic
      end
    | KContent _ _ =>
      if cur =? -1 then prep_loop todo (i + 1) pages cur g
      else do k <- kind_at g cur;
           match k with
           | KPage c r opt => prep_loop todo (i + 1) pages cur (put_kind g cur (KPage (c ++ g_ref i) r opt))
           | _ => Panic
           end
    | KEncrypt _ => prep_loop todo (i + 1) pages cur (g_set_enc g (i + 1))
    | _ => prep_loop todo (i + 1) pages cur g
    end
  end.
Definition g_prepare (g : gp) : res gp :=
  do g <- (if cfg_use (g_cfg g) then
             match g_prot g with Some p => Ok (fst (addObj g (KEncrypt p))) | None => Panic end
           else Ok g);
  if g_pages g =? -1 then Ok g else
  do k <- kind_at g (g_pages g);
  match k with KPages _ _ => prep_loop (g_objs g) 0 (g_pages g) (-1) g | _ => Panic end.

(** 796-825 bindInfo, 856-871 encodeUtf8, infodate *)
Definition encode_utf8 (s : bytes) : bytes := flat_map hex4 (runes s).
Definition info_entry (key v : bytes) : bytes :=
  match v with [] => [] | _ => B"/" ++ key ++ B" <FEFF" ++ encode_utf8 v ++ B">" ++ [10] end.
Definition info_text (i : ginfo) : bytes :=
  B"/Info <<" ++ [10]
  ++ info_entry (B"Author") (i_author i) ++ info_entry (B"Title") (i_title i) ++ info_entry (B"Subject") (i_subject i)
  ++ info_entry (B"Creator") (i_creator i) ++ info_entry (B"Producer") (i_producer i)
  ++ match i_date i with None => [] | Some d => B"/CreationDate(D:" ++ d ++ B")>>" ++ [10] end
  ++ B" >>" ++ [10].

(** 762-794 xref *)
Definition g_xref (offs : list Z) (xoff : Z) (enc : option Z) (info : option ginfo) : bytes :=
  let n := Z.of_nat (List.length offs) in
  B"xref" ++ [10] ++ B"0 " ++ itoa (n + 1) ++ [10] ++ B"0000000000 65535 f " ++ [10]
  ++ flat_map (fun o => formatXrefline o ++ B" 00000 n " ++ [10]) offs
  ++ B"trailer" ++ [10] ++ B"<<" ++ [10] ++ B"/Size " ++ itoa (n + 1) ++ [10] ++ B"/Root 1 0 R" ++ [10]
  ++ match enc with Some e => B"/Encrypt " ++ itoa e ++ B" 0 R" ++ [10] ++ B"/ID [()()]" ++ [10] | None => [] end
  ++ match info with Some i => info_text i | None => [] end
  ++ B">>" ++ [10] ++ B"startxref" ++ [10] ++ itoa xoff ++ [10] ++ B"%%EOF" ++ [10].

(** 401-427 compilePdf: the objects with their buffers after their builds, and the
    file *)
Fixpoint build_loop (w : gworld) (g : gp) (todo : list gobj) (id l : Z) (buf : bytes) (offs : list Z) (done : list gobj)
  : res (list gobj * Z * bytes * list Z) :=
  match todo with
  | [] => Ok (done, l, buf, offs)
  | o :: todo =>
    do (b, k, l') <- build1 w g l id (o_kind o);
    let o' := mkGO (o_buf o ++ b) k in
    build_loop w g todo (id + 1) l' (buf ++ itoa id ++ B" 0 obj" ++ [10] ++ o_buf o' ++ B"endobj" ++ [10; 10])
      (offs ++ [blen buf]) (done ++ [o'])
  end.
Definition compile (w : gworld) (g : gp) : res gp :=
  do g <- g_prepare g;
  do (os, l, buf, offs) <- build_loop w g (g_objs g) 1 (u_l (g_cur g)) pdf_header [] [];
  let file := buf ++ g_xref offs (blen buf) (if cfg_use (g_cfg g) then Some (g_enc g) else None) (g_info g) in
  Ok (g_set_buf (g_set_cur (g_set_objs g os) (u_set_l (g_cur g) l)) file true).

(** 429-446 GetBytesPdfReturnErr, GetBytesPdf; an error (there is none but in the
    font program) ends the program in GetBytesPdf *)
Definition g_bytes (w : gworld) (g : gp) : res (gp * bytes) := do g <- compile w g; Ok (g, g_buf g).

(** 387-399 Read, Close: at most [n] bytes; (0, io.EOF) at the end, None, unless [n] is 0 *)
Definition g_read (w : gworld) (n : nat) (g : gp) : res (gp * option bytes) :=
  do g <- (match g_buf g with [] => if g_cap g then Ok g else compile w g | _ => Ok g end);
  match g_buf g with
  | [] => Ok (g, match n with O => Some [] | _ => None end)
  | b => Ok (g_set_buf g (skipn n b) true, Some (firstn n b))
  end.
Definition g_close (g : gp) : gp := g_set_buf g [] false.

(** ** All calls *)
Inductive gcall :=
| AddPage (opt : f64 * f64)
| SetFont (family : bytes) (style size : Z)
| SetFontString (family style : bytes) (size : Z)
| AddFont (family : bytes) (kerning : bool) (style : Z) (file : option bytes) (beyond : bytes)
| KernOverride (family : bytes) (k : option kernfn)
| Text (text : bytes)
| Cell (rect : option (f64 * f64)) (text : bytes)
| CellOpt (rect : option (f64 * f64)) (text : bytes) (align border float : Z)
| ImageBy (id data beyond : bytes) (x y : f64) (rect : option (f64 * f64))
| LineWidth (w : f64)
| LineType (t : bytes)
| Line (x1 y1 x2 y2 : f64)
| RectLower (x y w h : f64) (style : bytes)
| RectUpper (x y w h : f64) (style : bytes)
| Oval (x1 y1 x2 y2 : f64)
| Curve (x0 y0 x1 y1 x2 y2 x3 y3 : f64) (style : bytes)
| GrayFill (v : f64)
| GrayStroke (v : f64)
| StrokeColor (rgb : Z * Z * Z)
| FillColor (rgb : Z * Z * Z)
| TextColor (rgb : Z * Z * Z)
| Br (h : f64)
| SetX (x : f64)
| SetY (y : f64)
| LeftMargin (m : f64)
| TopMargin (m : f64)
| CompressLevel (l : Z)
| Info (i : ginfo)
| Measure (text : bytes).

Definition gstep (w : gworld) (g : gp) (c : gcall) : gends :=
  match c with
  | AddPage o => gok (Ok (g_add_page o g))
  | SetFont f st sz => g_set_font f st sz g
  | SetFontString f st sz => g_set_font f (converted_style st) sz g
  | AddFont f k st d b => g_add_font f k st d b g
  | KernOverride f k => g_kern_override f k g
  | Text t => do_text t g
  | Cell r t => g_cell r t g
  | CellOpt r t a b f => g_cell_option r t a b f g
  | ImageBy id d b x y r => g_image w b id d x y r g
  | LineWidth v => g_line_width v g
  | LineType t => g_line_type t g
  | Line x1 y1 x2 y2 => do_line x1 y1 x2 y2 g
  | RectLower x y a b s => g_rect_lower x y a b s g
  | RectUpper x y a b s => g_rect_upper x y a b s g
  | Oval x1 y1 x2 y2 => g_oval x1 y1 x2 y2 g
  | Curve x0 y0 x1 y1 x2 y2 x3 y3 s => g_curve x0 y0 x1 y1 x2 y2 x3 y3 s g
  | GrayFill v => g_gray false v g
  | GrayStroke v => g_gray true v g
  | StrokeColor c => g_color true c g
  | FillColor c => g_color false c g
  | TextColor c => gok (Ok (g_text_color c g))
  | Br h => gok (Ok (g_br h g))
  | SetX x => gok (Ok (g_set_x x g))
  | SetY y => gok (Ok (g_set_y y g))
  | LeftMargin m => gok (Ok (g_set_margins g m (g_top g)))
  | TopMargin m => gok (Ok (g_set_margins g (g_left g) m))
  | CompressLevel l => gok (Ok (g_compress_level l g))
  | Info i => gok (Ok (g_set_info g (Some i)))
  | Measure t => g_measure t g
  end.

(** A program: calls until one panics; errors are ignored by the caller or not, the
    state goes on. *)
Fixpoint grun (w : gworld) (g : gp) (l : list gcall) : res gp :=
  match l with [] => Ok g | c :: l => do (g, _) <- gstep w g c; grun w g l end.
