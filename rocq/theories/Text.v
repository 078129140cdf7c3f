(** Text contents: content_text.go, content_line_style.go, the text parts of
    minigopdf/cache_content_text.go, content_obj.go:291-326 and
    textbreak/basic_textbreak.go.

    CacheContent.Setup ignores the content type it is given and always takes
    ContentTypeCell (cache_content_text.go:378), and pdft always gives a
    rectangle, so the other branches of calX, calY and createContent are left
    out.  float64 operations are rounded one by one (no fused multiply-add, as
    on amd64). *)
From Coq Require Import String List ZArith Lia Bool.
From Coq.Floats Require Import SpecFloat.
From Verif Require Import Base Utf8 Float64 Ttf Subset.
Open Scope Z_scope.
Open Scope list_scope.

(** subset_font_obj.go:17-28 as far as text needs it.  The overrides are
    functions of the caller; the results of the rise function (float32) are
    exact as float64 values.  UseKerning is true exactly when there is a kerning
    override (34-41 SetFuncKernOverride). *)
Definition kernfn := Z -> Z -> Z -> Z -> Z -> Z.
Definition risefn := Z -> Z -> Z -> bytes -> Z -> f64.
Record sfont := mkSfont { sf_ttf : ttf; sf_map : charmap; sf_kern : option kernfn; sf_rise : option risefn }.

(** content_obj.go:308-326 convertTTFUnit2PDFUnit; the division by 1000*rest1 is
    that of a number by a thousand times itself and gives 0.  Go's / and %
    truncate. *)
Definition ttf_to_pdf (n upem : Z) : res Z :=
  if upem =? 0 then Panic
  else if n <? 0 then Ok (- (Z.quot (-1000 * n) upem))
  else Ok (Z.quot n upem * 1000 + Z.quot (Z.rem n upem * 1000) upem).

(** cache_content_text.go:311-330 kern.  The kerning table is never read (Ttf.v),
    so the value handed to the override is 0. *)
Definition kern_of (k : kernfn) (left r lg g : Z) : Z := k left r lg g 0.

(** createContent, 247-309: the loop over the characters.  [first] is i = 0.  The
    output is kept when an error ends the loop. *)
Fixpoint content_loop (f : sfont) (size : Z) (text : bytes) (rs : list Z) (first : bool) (left lg idx : Z) (out : bytes) (sum : Z) : bytes * res Z :=
  match rs with
  | [] => (out, Ok sum)
  | r :: rs =>
    match char_index (sf_map f) r with
    | Ok g =>
      let kv := match sf_kern f with
                | Some k => if first then Ok 0 else ttf_to_pdf (kern_of k left r lg g) (unitsPerEm (sf_ttf f))
                | None => Ok 0
                end in
      match kv with
      | Ok kv =>
        let out := if kv =? 0 then out else out ++ B">" ++ itoa (-1 * kv) ++ B"<" in
        let out := match sf_rise f with
                   | Some h => out ++ B">] TJ" ++ [10] ++ fmt2 (h left r size text idx) ++ B" Ts" ++ [10] ++ B"[<"
                   | None => out
                   end in
        let out := out ++ fhex4 g in
        match char_width (sf_ttf f) (sf_map f) r with
        | Ok w => content_loop f size text rs false r g (idx + 1) out (sum + w + kv)
        | Err e => (out, Err e)
        | Panic => (out, Panic)
        | Diverge => (out, Diverge)
        end
      | Err e => (out, Err e)
      | Panic => (out, Panic)
      | Diverge => (out, Diverge)
      end
    | Err e => (out, Err e)
    | Panic => (out, Panic)
    | Diverge => (out, Diverge)
    end
  end.
(** the text and the width in thousandths of the font size *)
Definition content (f : sfont) (size : Z) (text : bytes) : bytes * res Z :=
  let (out, s) := content_loop f size text (runes text) true 0 0 0 (B"[<") 0 in
  match s with Ok sum => (out ++ B">] TJ" ++ [10], Ok sum) | r => (out, r) end.

(** 306: float64(sumWidth) * (float64(fontSize) / 1000.0) *)
Definition scale_width (sum size : Z) : f64 := fmul (fofz sum) (fdiv (fofz size) (fofz 1000)).

(** content_text.go:18-33 ContentText with what Setup gets from it.  [ct_color]
    is fontColor (a pointer that may be nil), [ct_index] the font's index. *)
Record ctext := mkText {
  ct_text : bytes; ct_color : option (Z * Z * Z); ct_style : Z; ct_size : Z; ct_page : Z;
  ct_x : f64; ct_y : f64; ct_w : f64; ct_h : f64; ct_align : Z; ct_line : f64; ct_height : f64 }.

(** cell_option.go:3-14 *)
Definition hasbit (a b : Z) : bool := Z.land a b =? b.
Definition aBottom := 1. Definition aRight := 2. Definition aTop := 4. Definition aLeft := 8. Definition aCenter := 16. Definition aMiddle := 32.
Definition uUnderline := 4.

(** 64-75 convertTypoUnit, calTypoAscender, calTypoDescender *)
Definition typo_unit (v upem size : Z) : f64 := fdiv (fmul (fdiv (fmul (fofz v) (fofz 1000)) (fofz upem)) (fofz size)) (fofz 1000).
Definition typo_asc (t : ttf) (size : Z) : f64 := typo_unit (typoAscender t) (unitsPerEm t) size.
Definition typo_desc (t : ttf) (size : Z) : f64 := typo_unit (typoDescender t) (unitsPerEm t) size.

(** 77-112 calY, calX; [cw], [ch], [tw] are the widths and the height createContent
    stored (0 if it failed) *)
Definition cal_y (t : ttf) (c : ctext) (ch : f64) : f64 :=
  let y := fsub (ct_height c) (ct_y c) in
  if hasbit (ct_align c) aBottom then fsub (fsub y ch) (typo_desc t (ct_size c))
  else if hasbit (ct_align c) aMiddle then
    fsub (fsub y (fmul ch half)) (fmul (fadd (typo_desc t (ct_size c)) (typo_asc t (ct_size c))) half)
  else fsub y (typo_asc t (ct_size c)).
Definition cal_x (c : ctext) (cw tw : f64) : f64 :=
  if hasbit (ct_align c) aRight then fsub (fadd (ct_x c) cw) tw
  else if hasbit (ct_align c) aCenter then fsub (fadd (ct_x c) (fmul cw half)) (fmul tw half)
  else ct_x c.

(** 132-140: the colour; uint8 arithmetic *)
Definition color_unit : f64 := fconst 392156862745 100000000000000.
Definition color_text (rgb : Z * Z * Z) : bytes :=
  let '(r, g, b) := rgb in
  if (r + g + b) mod 256 =? 0 then []
  else fmt2 (fmul (fofz r) color_unit) ++ B" " ++ fmt2 (fmul (fofz g) color_unit) ++ B" " ++ fmt2 (fmul (fofz b) color_unit) ++ B" rg" ++ [10].
(** content_text.go:51-60 *)
Definition rgb_of (c : option (Z * Z * Z)) : Z * Z * Z :=
  match c with Some (r, g, b) => (r mod 256, g mod 256, b mod 256) | None => (1, 1, 1) end.

(** 162-213 drawBorder *)
Definition line_text (a b c d : f64) : bytes :=
  fmt2 a ++ B" " ++ fmt2 b ++ B" m " ++ fmt2 c ++ B" " ++ fmt2 d ++ B" l s" ++ [10].
Definition border_text (c : ctext) (cw ch : f64) : bytes :=
  let off := fmul (ct_line c) half in
  let top := fsub (ct_height c) (ct_y c) in
  let x := ct_x c in
  let xr := fadd x cw in
  line_text (fsub x off) top (fadd xr off) top
  ++ line_text x top x (fsub top ch)
  ++ line_text xr top xr (fsub top ch)
  ++ line_text (fsub x off) (fsub top ch) (fadd xr off) (fsub top ch).

(** 215-232 underline *)
Definition underline_text (t : ttf) (c : ctext) (cw : f64) : bytes :=
  let em := fofz (unitsPerEm t) in
  let size := fofz (ct_size c) in
  let arg3 := fsub (fsub (ct_height c) (fsub (ct_y c) (fmul (fdiv (fofz (underlinePosition t)) em) size))) (fmul size (fconst 7 10)) in
  let arg4 := fmul (fdiv (fofz (underlineThickness t)) em) size in
  fmt2 (ct_x c) ++ B" " ++ fmt2 arg3 ++ B" " ++ fmt2 (fsub (fadd (ct_x c) cw) (ct_x c)) ++ B" -" ++ fmt2 arg4 ++ B" re f" ++ [10].

(** content_text.go:42-88 toSteram, cache_content_text.go:114-160 toStream,
    390-393 ToStream, which drops createContent's error: the content then ends
    where it stopped, and widths and height stay 0. *)
Definition text_stream (f : sfont) (index : Z) (c : ctext) : res bytes :=
  let (body, s) := content f (ct_size c) (ct_text c) in
  let finish cw ch tw :=
    Ok (B"BT" ++ [10] ++ fmt2 (cal_x c cw tw) ++ B" " ++ fmt2 (cal_y (sf_ttf f) c ch) ++ B" TD" ++ [10]
        ++ B"/F" ++ itoa index ++ B" " ++ itoa (ct_size c) ++ B" Tf" ++ [10]
        ++ color_text (rgb_of (ct_color c)) ++ body ++ B"ET" ++ [10]
        ++ (if hasbit (ct_style c) uUnderline then underline_text (sf_ttf f) c cw else [])
        ++ (if fgt (ct_line c) (fofz 0) then border_text c cw ch else [])
        ++ [13; 10]) in
  match s with
  | Ok sum => finish (ct_w c) (ct_h c) (scale_width sum (ct_size c))
  | Err _ => finish (fofz 0) (fofz 0) (fofz 0)
  | Panic => Panic
  | Diverge => Diverge
  end.

(** content_line_style.go:14-26; lineType is only ever "dotted" or empty *)
Definition line_stream (dotted : bool) (width : f64) : bytes :=
  (if dotted then B"[2 3] 11 d" else B"[] 0 d") ++ [10] ++ fmt2 width ++ B" w" ++ [10].

(** content_img_base64.go:22-27 *)
Definition img_stream (w h x y height : f64) (ch : bytes) (idx : Z) : bytes :=
  B"q " ++ fmt2 w ++ B" 0 0 " ++ fmt2 h ++ B" " ++ fmt2 x ++ B" " ++ fmt2 (fsub height (fadd y h)) ++ B" cm /" ++ ch ++ itoa idx ++ B" Do Q" ++ [10].

(** cache_content_text.go:396-400 MeasureTextWidth: 0 with the error when
    createContent fails *)
Definition measure (f : sfont) (size : Z) (text : bytes) : res f64 :=
  do s <- snd (content f size text); Ok (scale_width s size).

(** textbreak/basic_textbreak.go:6-24 *)
Fixpoint break_loop (rs : list Z) (tmp : bytes) : list bytes :=
  match rs with
  | [] => match tmp with [] => [] | _ => [tmp] end
  | r :: rs => if r =? 32 then tmp :: string_of_rune r :: break_loop rs [] else break_loop rs (tmp ++ string_of_rune r)
  end.
Definition break_text (text : bytes) : list bytes := break_loop (runes text) [].

Example break_case : break_text (B"Hello World 123 ") = [B"Hello"; B" "; B"World"; B" "; B"123"; B" "] /\ break_text (B" a") = [[]; B" "; B"a"].
Proof. vm_compute. split; reflexivity. Qed.
