(** Reading PNG images: minigopdf/image_obj_parse.go; image objects:
    minigopdf/image_obj.go and smask_obj.go. *)
From Coq Require Import String List ZArith Lia Bool.
From Verif Require Import Base Output PdfData.
Open Scope Z_scope.
Open Scope list_scope.

(** img_info.go:3-17 imgInfo; formatName is not used after parsing,
    deviceRGBObjID is never set (it stays 0). *)
Record imgInfo := mkImg {
  iw : Z; ih : Z; colspace : bytes; bitsPer : bytes; ifilter : bytes; parms : bytes;
  trns : bytes; smask : bytes; smaskID : Z; pal : bytes; idata : bytes }.

(** readBytes, 428-435: bytes.Reader.Read at position [pos] of [d]; a short read
    leaves zeros, at the end of the data it is io.EOF, and make with a negative
    length panics.  Memory is unbounded in the model. *)
Definition readBytes (d : bytes) (pos n : Z) : res (bytes * Z) :=
  if n <? 0 then Panic
  else if blen d <=? pos then Err EOther
  else let got := firstn (Z.to_nat n) (skipn (Z.to_nat pos) d) in
       Ok (got ++ repeat 0 (Z.to_nat n - List.length got), pos + blen got).

(** f.Seek(n, 1): negative positions are errors. *)
Definition seek (pos n : Z) : res Z := if pos + n <? 0 then Err EOther else Ok (pos + n).

(** readUInt, 403-411 *)
Definition be_word (b : bytes) : Z := fold_left (fun v c => 256 * v + c) b 0.

(** readInt, 413-426 *)
Definition to_int (u : Z) : Z := if 32768 <=? u then u - 65536 else u.
Definition readInt (d : bytes) (pos : Z) : res (Z * Z) :=
  do (b, pos) <- readBytes d pos 4;
  Ok (to_int (be_word b), pos).

(** The state of the loop over the chunks, 219-221. *)
Record chunkSt := mkCh { cpal : bytes; ctrns : bytes; cdata : bytes }.

(** 251-260 *)
Definition readTrns (ct : Z) (t : bytes) (old : bytes) : res bytes :=
  if ct =? 0 then do a <- at_ t 1; Ok [a]
  else if ct =? 2 then do a <- at_ t 1; do b <- at_ t 3; do c <- at_ t 5; Ok [a; b; c]
  else match index [0] t with Some n => Ok [Z.of_nat n mod 256] | None => Ok old end.

(** 222-291; every round reads at least one byte, the fuel is the length of the
    data plus one. *)
Fixpoint chunks (fuel : nat) (d : bytes) (ct pos : Z) (st : chunkSt) : res chunkSt :=
  match fuel with
  | O => Diverge
  | S f =>
    do (n, pos) <- readInt d pos;
    do (typ, pos) <- readBytes d pos 4;
    if beqb typ (B"IEND") then Ok st
    else
      do (pos, st) <-
        (if beqb typ (B"PLTE") then
           do (b, pos) <- readBytes d pos n; do pos <- seek pos 4; Ok (pos, mkCh b (ctrns st) (cdata st))
         else if beqb typ (B"tRNS") then
           do (b, pos) <- readBytes d pos n; do t <- readTrns ct b (ctrns st); do pos <- seek pos 4;
           Ok (pos, mkCh (cpal st) t (cdata st))
         else if beqb typ (B"IDAT") then
           do (b, pos) <- readBytes d pos n; do pos <- seek pos 4; Ok (pos, mkCh (cpal st) (ctrns st) (cdata st ++ b))
         else do pos <- seek pos (n + 4); Ok (pos, st));
      if n <=? 0 then Ok st else chunks f d ct pos st
  end.

(** One line of a grey image with alpha, 339-346, and of an RGBA image, 360-366. *)
Fixpoint split2 (line : bytes) : res (bytes * bytes) :=
  match line with
  | [] => Ok ([], [])
  | g :: a :: r => do (c, al) <- split2 r; Ok (g :: c, a :: al)
  | _ => Panic
  end.
Fixpoint split4 (line : bytes) : res (bytes * bytes) :=
  match line with
  | [] => Ok ([], [])
  | r :: g :: b :: a :: l => do (c, al) <- split4 l; Ok (r :: g :: b :: c, a :: al)
  | _ => Panic
  end.

(** 334-348, 355-369; [beyond] is what the array behind the inflated bytes holds
    after them (slices are checked against the capacity). *)
Fixpoint rows (split : bytes -> res (bytes * bytes)) (h : nat) (len i : Z) (z beyond : bytes) : res (bytes * bytes) :=
  match h with
  | O => Ok ([], [])
  | S h' =>
    let pos := (1 + len) * i in
    do t <- at_ z pos;
    do line <- slice (z ++ beyond) (pos + 1) (pos + len + 1);
    do (c, a) <- split line;
    do (cs, als) <- rows split h' len (i + 1) z beyond;
    Ok (t :: c ++ cs, t :: a ++ als)
  end.

Definition pngMagicNumber : bytes := [137; 80; 78; 71; 13; 10; 26; 10].

(** paesePng, 133-386; [inflate] is zlib.NewReader and ReadAll, [compress] the
    function of lines 388-401 (it cannot fail: writes to a buffer at a valid
    level). *)
Definition paesePng (inflate : bytes -> res bytes) (compress : bytes -> bytes) (beyond : bytes) (d : bytes) : res imgInfo :=
  do (b, pos) <- readBytes d 0 8;
  if negb (beqb b pngMagicNumber) then Err EOther else
  do pos <- seek pos 4;
  do (b, pos) <- readBytes d pos 4;
  if negb (beqb b (B"IHDR")) then Err EOther else
  do (w, pos) <- readInt d pos;
  do (h, pos) <- readInt d pos;
  do (bpc, pos) <- readBytes d pos 1;
  do bpc <- at_ bpc 0;
  if 8 <? bpc then Err EOther else
  do (ct, pos) <- readBytes d pos 1;
  do ct <- at_ ct 0;
  do cs <- (if (ct =? 0) || (ct =? 4) then Ok (B"DeviceGray")
            else if (ct =? 2) || (ct =? 6) then Ok (B"DeviceRGB")
            else if ct =? 3 then Ok (B"Indexed") else Err EOther);
  do (cm, pos) <- readBytes d pos 1;
  do cm <- at_ cm 0;
  if negb (cm =? 0) then Err EOther else
  do (fm, pos) <- readBytes d pos 1;
  do fm <- at_ fm 0;
  if negb (fm =? 0) then Err EOther else
  do (il, pos) <- readBytes d pos 1;
  do il <- at_ il 0;
  if negb (il =? 0) then Err EOther else
  do pos <- seek pos 4;
  do st <- chunks (S (List.length d)) d ct pos (mkCh [] [] []);
  if beqb cs (B"Indexed") && beqb (trim_space (cpal st)) [] then Err EOther else
  let colors := if beqb cs (B"DeviceRGB") then 3 else 1 in
  let parms := B"/Predictor 15 /Colors  " ++ itoa colors ++ B" /BitsPerComponent " ++ itoa bpc ++ B" /Columns " ++ itoa w in
  let info smask data := mkImg w h cs (itoa bpc) (B"FlateDecode") parms (ctrns st) smask 0 (cpal st) data in
  if 4 <=? ct then
    do z <- inflate (cdata st);
    if ct =? 4 then
      do _ <- rows split2 (Z.to_nat h) (2 * w) 0 z beyond;
      Ok (info [] [])
    else
      do (color, alpha) <- rows split4 (Z.to_nat h) (4 * w) 0 z beyond;
      Ok (info (compress alpha) (compress color))
  else Ok (info [] (cdata st)).

(** What image.DecodeConfig of the standard library tells about an image,
    81-107: the format, and for JPEG the colour model. *)
Inductive imgFormat := FJpeg (cs : option bytes) (w h : Z) | FPng | FOther | FBad.

(** parseImg, 77-109, parseImgJpg, 111-128 *)
Definition parseImg (config : bytes -> imgFormat) (inflate : bytes -> res bytes) (compress : bytes -> bytes) (beyond : bytes)
    (d : bytes) : res imgInfo :=
  match config d with
  | FBad => Err EOther
  | FJpeg None _ _ => Err EOther
  | FJpeg (Some cs) w h => Ok (mkImg w h cs (B"8") (B"DCTDecode") [] [] [] 0 [] d)
  | FPng => paesePng inflate compress beyond d
  | FOther => Ok (mkImg 0 0 [] [] [] [] [] [] 0 [] [])
  end.

(** buildImgProp, 15-61 *)
Definition buildImgProp (i : imgInfo) : bytes :=
  B"<</Type /XObject" ++ [10] ++ B"/Subtype /Image" ++ [10]
  ++ B"/Width " ++ itoa (iw i) ++ [10] ++ B"/Height " ++ itoa (ih i) ++ [10]
  ++ (if beqb (colspace i) (B"Indexed")
      then B"/ColorSpace [/Indexed /DeviceRGB " ++ itoa (Z.quot (blen (pal i)) 3 - 1) ++ B" " ++ itoa (0 + 1) ++ B" 0 R]" ++ [10]
      else B"/ColorSpace /" ++ colspace i ++ [10]
           ++ (if beqb (colspace i) (B"DeviceCMYK") then B"/Decode [1 0 1 0 1 0 1 0]" ++ [10] else []))
  ++ B"/BitsPerComponent " ++ bitsPer i ++ [10]
  ++ (if beqb (trim_space (ifilter i)) [] then [] else B"/Filter /" ++ ifilter i ++ [10])
  ++ (if beqb (trim_space (parms i)) [] then [] else B"/DecodeParms <<" ++ parms i ++ B">>" ++ [10])
  ++ match trns i with
     | [] => []
     | t => B"/Mask [" ++ flat_map (fun c => itoa c ++ B" " ++ itoa c ++ B" ") t ++ B"]" ++ [10]
     end
  ++ match smask i with [] => [] | _ => B"/SMask " ++ itoa (smaskID i) ++ B" 0 R" ++ [10] end.

(** image_obj.go:43-69 build (pdft never gives an image object a protection),
    smask_obj.go:36-62 the same *)
Definition image_object (i : imgInfo) : bytes :=
  buildImgProp i ++ B"/Length " ++ itoa (blen (idata i)) ++ [10] ++ B">>" ++ [10] ++ B"stream" ++ [10]
  ++ idata i ++ [10] ++ B"endstream" ++ [10].

(** image_obj.go:79-98 CreateSMask: none without a soft mask *)
Definition createSMask (i : imgInfo) : option imgInfo :=
  match smask i with
  | [] => None
  | s => Some (mkImg (iw i) (ih i) (B"DeviceGray") (B"8") (ifilter i)
                (B"/Predictor 15 /Colors 1 /BitsPerComponent 8 /Columns " ++ itoa (iw i)) [] [] 0 [] s)
  end.

(** image_obj.go:30-33 SetSMaskObjID *)
Definition setSMaskObjID (i : imgInfo) (id : Z) : imgInfo :=
  mkImg (iw i) (ih i) (colspace i) (bitsPer i) (ifilter i) (parms i) (trns i) (smask i) id (pal i) (idata i).

(** pdft.go:391-414 InsertImg (348-370 and 439-459 the same), with
    pdf_image_data.go:41-80: the objects; the new table, and the bytes of the
    image object, which Save gives its number. *)
Definition insertImgObj (config : bytes -> imgFormat) (inflate : bytes -> res bytes) (compress : bytes -> bytes) (beyond : bytes)
    (p : pdf) (img : bytes) : res (pdf * bytes) :=
  do i <- parseImg config inflate compress beyond img;
  match createSMask i with
  | None => Ok (p, image_object i)
  | Some m => let '(id, p') := putNewObject p (image_object m) in Ok (p', image_object (setSMaskObjID i id))
  end.
