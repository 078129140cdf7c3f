(** Images: the properties C38, C39, C51, C52, C53. *)
From Coq Require Import String List ZArith Lia Bool.
From Verif Require Import Base Output PdfData PdfSyntax Png PngSpec PngProofs PngObject.
Open Scope Z_scope.
Open Scope list_scope.

(** ** C38: colour and alpha *)

(** For every RGBA image: the stream of the image object inflates to bytes that,
    unfiltered, are the colours of the image, and the stream of the mask object
    to bytes that are its alpha values. *)
Theorem C38_alpha_partial : forall config inflate compress beyond p w h crc cs rest z extra rws, Z.of_nat h < 32768 -> Z.of_nat w < 32768 ->
  List.length crc = 4%nat -> Forall (chunk_read 6) cs ->
  (forall x, compress x <> [] /\ inflate (compress x) = Ok x) ->
  inflate (image_data cs) = Ok (z ++ extra) -> image 4 w [] z rws -> List.length rws = h ->
  let f := png_file (header (Z.of_nat w) (Z.of_nat h) 8 6 crc) cs rest in config f = FPng ->
  exists id mask data d dm cbytes mbytes color alpha,
    insertImgObj config inflate compress beyond p f = Ok (mkPdf (root p) (objs p ++ [mkObj id mask]), data) /\
    (forall o, In o (objs p) -> oid o <> id) /\
    stream_object data d cbytes /\ png_dict (Z.of_nat w) (Z.of_nat h) 8 3 (PName (B"DeviceRGB")) d /\ lookup (B"SMask") d = Some (PRef id 0) /\
    stream_object mask dm mbytes /\ png_dict (Z.of_nat w) (Z.of_nat h) 8 1 (PName (B"DeviceGray")) dm /\
    inflate cbytes = Ok color /\ image 3 w [] color (map rgb rws) /\
    inflate mbytes = Ok alpha /\ image 1 w [] alpha (map alphas rws).
Proof. exact rgba_object. Qed.

(** Filtered bytes have exactly one meaning, and all of the right length have one. *)
Theorem C38_meaning_unique : forall bpp w above z r1 r2, (0 < bpp)%nat -> image bpp w above z r1 -> image bpp w above z r2 -> r1 = r2.
Proof. intros bpp w above z r1 r2 Hb H1 H2. exact (image_unique bpp w above z r1 Hb H1 r2 H2). Qed.
Theorem C38_meaning_exists : forall bpp w h z above, (0 < bpp)%nat -> List.length z = (h * (1 + bpp * w))%nat ->
  (forall i, (i < h)%nat -> 0 <= nth (i * (1 + bpp * w)) z 0 <= 4) -> exists rws, image bpp w above z rws /\ List.length rws = h.
Proof. exact image_exists. Qed.

(** Two rows, filters Up and Paeth. *)
Example C38_case :
  let z := [2; 10; 20; 30; 40; 50; 60; 70; 80; 4; 1; 2; 3; 4; 5; 6; 7; 8] in
  image 4 2 [] z [[10; 20; 30; 40; 50; 60; 70; 80]; [11; 22; 33; 44; 55; 66; 77; 88]] /\
  rows split4 2 8 0 z [] = Ok ([2; 10; 20; 30; 50; 60; 70; 4; 1; 2; 3; 5; 6; 7], [2; 40; 80; 4; 4; 8]) /\
  image 1 2 [] [2; 40; 80; 4; 4; 8] [[40; 80]; [44; 88]].
Proof.
  cbv zeta. split; [|split; [vm_compute; reflexivity|]].
  - apply (image_row 4 2 [] 2 [10; 20; 30; 40; 50; 60; 70; 80]); [lia|reflexivity| |].
    { split; [reflexivity|]. intros i Hi. do 8 (destruct i as [|i]; [vm_compute; reflexivity|]). cbn in Hi. lia. }
    apply (image_row 4 2 _ 4 [1; 2; 3; 4; 5; 6; 7; 8] []); [lia|reflexivity| |constructor].
    split; [reflexivity|]. intros i Hi. do 8 (destruct i as [|i]; [vm_compute; reflexivity|]). cbn in Hi. lia.
  - apply (image_row 1 2 [] 2 [40; 80]); [lia|reflexivity| |].
    { split; [reflexivity|]. intros i Hi. do 2 (destruct i as [|i]; [vm_compute; reflexivity|]). cbn in Hi. lia. }
    apply (image_row 1 2 _ 4 [4; 8] []); [lia|reflexivity| |constructor].
    split; [reflexivity|]. intros i Hi. do 2 (destruct i as [|i]; [vm_compute; reflexivity|]). cbn in Hi. lia.
Qed.

(** Grey images with alpha keep neither samples nor alpha. *)
Theorem C38_grey_alpha_lost : forall inflate compress beyond w h depth crc rest info, 0 <= w < 2 ^ 32 -> 0 <= h < 2 ^ 32 -> depth <= 8 ->
  List.length crc = 4%nat ->
  paesePng inflate compress beyond (head_bytes w h depth 4 crc ++ rest) = Ok info -> idata info = [] /\ smask info = [].
Proof. exact png_grey_alpha. Qed.
Theorem C38_grey_alpha_refuted : exists w h crc cs info, Forall (chunk_read 4) cs /\ image 2 1 [] (image_data cs) [[7; 255]] /\
  paesePng (fun z => Ok z) (fun z => z) [] (png_file (header w h 8 4 crc) cs []) = Ok info /\ idata info = [] /\ smask info = [].
Proof.
  exists 1, 1, [0; 0; 0; 0], [mkChunk (B"IDAT") [0; 7; 255] [0; 0; 0; 0]]. eexists.
  split; [repeat constructor; try (intros; discriminate); try (cbn; lia); discriminate|].
  split; [apply (image_row 2 1 [] 0 [7; 255] []); [lia|reflexivity| |constructor]|split; [vm_compute; reflexivity|split; reflexivity]].
  split; [reflexivity|]. intros i Hi. do 2 (destruct i as [|i]; [vm_compute; reflexivity|]). cbn in Hi. lia.
Qed.

(** ** C39: numbers in PNG files *)

(** Exactly the values below 32768 are read as themselves. *)
Theorem C39_sizes_partial : forall v rest, 0 <= v < 2 ^ 32 -> (readInt (be32 v ++ rest) 0 = Ok (v, 4) <-> v < 32768).
Proof.
  intros v rest H. rewrite (int_app _ [] v rest 0) by (auto; lia). unfold to_int.
  change (blen ([] ++ be32 v)) with 4. destruct (Z.leb_spec 32768 v); split; intros X; try lia; auto. inversion X; lia.
Qed.
Theorem C39_sizes_refuted : exists v, 0 <= v < 2 ^ 32 /\ readInt (be32 v) 0 <> Ok (v, 4).
Proof. exists 40000. split; [lia|]. vm_compute. discriminate. Qed.
Example C39_case : readInt (be32 32767) 0 = Ok (32767, 4) /\ readInt (be32 32768) 0 = Ok (-32768, 4) /\ readInt (be32 100000) 0 = Ok (34464, 4).
Proof. vm_compute. auto. Qed.

(** ** C51: all the image data *)

(** Without alpha: the stream of the object is the image data of the file, and
    the dictionary describes it. *)
Theorem C51_data_partial : forall config inflate compress beyond p w h depth ct crc cs rest, 0 <= w < 32768 -> 0 <= h < 32768 -> depth <= 8 ->
  ct = 0 \/ ct = 2 \/ ct = 3 -> (ct = 3 -> trim_space (palette cs) <> []) ->
  List.length crc = 4%nat -> Forall (chunk_read ct) cs ->
  let f := png_file (header w h depth ct crc) cs rest in config f = FPng ->
  exists data d, insertImgObj config inflate compress beyond p f = Ok (p, data) /\ stream_object data d (image_data cs) /\
    png_dict w h depth (if ct =? 2 then 3 else 1)
      (if ct =? 0 then PName (B"DeviceGray") else if ct =? 2 then PName (B"DeviceRGB")
       else PArr [PName (B"Indexed"); PName (B"DeviceRGB"); PInt (Z.quot (blen (palette cs)) 3 - 1); PRef 1 0]) d.
Proof. exact opaque_object. Qed.

(** A chunk of image data of 32768 to 65535 bytes (Go's own encoder writes chunks
    of 32768) makes the call panic, whatever comes before it. *)
Theorem C51_long_chunk_panics : forall inflate compress beyond w h depth ct crc cs c rest, 0 <= w < 2 ^ 32 -> 0 <= h < 2 ^ 32 -> depth <= 8 -> known ct ->
  List.length crc = 4%nat -> Forall (chunk_read ct) cs ->
  chunk_ok c -> ctype c = B"IDAT" -> 32768 <= blen (cbody c) < 65536 ->
  paesePng inflate compress beyond (png_file (header w h depth ct crc) (cs ++ [c]) rest) = Panic.
Proof. exact png_long_chunk. Qed.

Theorem C51_long_chunk_refuted : exists w h crc cs, (w = 1 /\ h = 1) /\ List.length crc = 4%nat /\ Forall chunk_ok cs /\
  paesePng (fun z => Ok z) (fun z => z) [] (png_file (header w h 8 2 crc) cs []) = Panic.
Proof.
  assert (X : exists b : bytes, 32768 <= blen b < 65536).
  { exists (repeat 0 (Z.to_nat 32768)). unfold blen. rewrite repeat_length, Z2Nat.id by lia. lia. }
  destruct X as (b & Hb). exists 1, 1, [0; 0; 0; 0], [mkChunk (B"IDAT") b [0; 0; 0; 0]].
  split; [auto|]. split; [reflexivity|]. split; [constructor; [split; reflexivity|constructor]|].
  apply (C51_long_chunk_panics _ _ _ 1 1 8 2 _ []); try lia; [unfold known; lia|reflexivity|constructor|split; reflexivity|reflexivity|exact Hb].
Qed.

(** An empty chunk (of a type that is skipped) ends the reading without an error:
    what follows is lost. *)
Theorem C51_empty_chunk_ends : forall inflate compress beyond w h depth ct crc cs c cs2 rest, 0 <= w < 32768 -> 0 <= h < 32768 -> depth <= 8 ->
  ct = 0 \/ ct = 2 -> List.length crc = 4%nat -> Forall (chunk_read ct) cs ->
  chunk_ok c -> cbody c = [] -> ~ In (ctype c) [B"IEND"; B"PLTE"; B"tRNS"; B"IDAT"] ->
  exists info, paesePng inflate compress beyond (png_file (header w h depth ct crc) (cs ++ c :: cs2) rest) = Ok info /\ idata info = image_data cs.
Proof. exact png_empty_chunk. Qed.

Definition idat (b : bytes) : chunk := mkChunk (B"IDAT") b [1; 2; 3; 4].
Example C51_case : exists data d,
  insertImgObj (fun _ => FPng) (fun z => Ok z) (fun z => z) [] (mkPdf 1 []) (png_file (header 2 3 8 2 [0; 0; 0; 0]) [idat [5; 6]; idat [7]] []) = Ok (mkPdf 1 [], data) /\
  stream_object data d [5; 6; 7] /\ lookup (B"Width") d = Some (PInt 2) /\ lookup (B"Height") d = Some (PInt 3).
Proof.
  destruct (C51_data_partial (fun _ => FPng) (fun z => Ok z) (fun z => z) [] (mkPdf 1 []) 2 3 8 2 [0; 0; 0; 0] [idat [5; 6]; idat [7]] [])
    as (data & d & E & S & D); try lia; auto.
  { repeat constructor; try (intros; discriminate); try (cbn; lia); try discriminate. }
  exists data, d. split; [exact E|]. split; [exact S|]. unfold png_dict in D. tauto.
Qed.
Theorem C51_empty_chunk_refuted : exists w h crc cs info, Forall chunk_ok cs /\
  paesePng (fun z => Ok z) (fun z => z) [] (png_file (header w h 8 2 crc) cs []) = Ok info /\ idata info = [5] /\ image_data cs = [5; 6].
Proof.
  exists 1, 1, [0; 0; 0; 0], [idat [5]; mkChunk (B"tEXt") [] [0; 0; 0; 0]; idat [6]]. eexists.
  split; [repeat constructor|]. split; [vm_compute; reflexivity|]. split; reflexivity.
Qed.

(** Reading any bytes as a PNG comes to an end. *)
Theorem C51_terminates : forall inflate compress beyond d, (forall z, inflate z <> Diverge) -> paesePng inflate compress beyond d <> Diverge.
Proof. exact png_total. Qed.

(** ** C52: image objects *)

(** Whatever the parsers produce, the object is a PDF stream with exactly these
    entries, and the length is that of the data. *)
Theorem C52_object : forall i b c, made i b c -> stream_object (image_object i) (img_dict i b c) (idata i).
Proof. exact image_syntax. Qed.
Theorem C52_jpeg : forall config inflate compress beyond p img cs w h, In cs [B"DeviceGray"; B"DeviceRGB"; B"DeviceCMYK"] ->
  config img = FJpeg (Some cs) w h ->
  exists data d, insertImgObj config inflate compress beyond p img = Ok (p, data) /\ stream_object data d img /\
    lookup (B"Type") d = Some (PName (B"XObject")) /\ lookup (B"Subtype") d = Some (PName (B"Image")) /\
    lookup (B"Width") d = Some (PInt w) /\ lookup (B"Height") d = Some (PInt h) /\ lookup (B"ColorSpace") d = Some (PName cs) /\
    lookup (B"BitsPerComponent") d = Some (PInt 8) /\ lookup (B"Filter") d = Some (PName (B"DCTDecode")) /\
    lookup (B"Decode") d = (if beqb cs (B"DeviceCMYK") then Some (PArr (map PInt [1; 0; 1; 0; 1; 0; 1; 0])) else None).
Proof. exact jpeg_object. Qed.
Example C52_case : stream_object (image_object (mkImg 2 3 (B"DeviceRGB") (B"8") (B"DCTDecode") [] [1; 2; 3] [9] 7 [] (B"endstream >>")))
  [(B"Type", PName (B"XObject")); (B"Subtype", PName (B"Image")); (B"Width", PInt 2); (B"Height", PInt 3); (B"ColorSpace", PName (B"DeviceRGB"));
   (B"BitsPerComponent", PInt 8); (B"Filter", PName (B"DCTDecode")); (B"Mask", PArr [PInt 1; PInt 1; PInt 2; PInt 2; PInt 3; PInt 3]);
   (B"SMask", PRef 7 0); (B"Length", PInt 12)] (B"endstream >>").
Proof.
  apply (C52_object (mkImg 2 3 (B"DeviceRGB") (B"8") (B"DCTDecode") [] [1; 2; 3] [9] 7 [] (B"endstream >>")) 8 None). split; [cbn; auto|]. split; [reflexivity|]. split; reflexivity. Qed.

(** ** C53: palettes *)

(** The object does not depend on the colours of the palette, and its table is
    always looked for in object 1. *)
Theorem C53_palette_lost : forall w h cs b fl pa tr sm id p1 p2 data, blen p1 = blen p2 ->
  image_object (mkImg w h cs b fl pa tr sm id p1 data) = image_object (mkImg w h cs b fl pa tr sm id p2 data).
Proof. exact palette_lost. Qed.
Definition indexed (q : bytes) : bytes := png_file (header 1 1 8 3 [0; 0; 0; 0]) [mkChunk (B"PLTE") q [0; 0; 0; 0]; idat [0; 0]] [].
Theorem C53_palette_refuted : exists q1 q2 d, q1 <> q2 /\
  let insert := insertImgObj (fun _ => FPng) (fun z => Ok z) (fun z => z) [] (mkPdf 9 []) in
  insert (indexed q1) = insert (indexed q2) /\
  (exists data, insert (indexed q1) = Ok (mkPdf 9 [], data) /\ stream_object data d [0; 0]) /\
  lookup (B"ColorSpace") d = Some (PArr [PName (B"Indexed"); PName (B"DeviceRGB"); PInt 0; PRef 1 0]).
Proof.
  set (i := mkImg 1 1 (B"Indexed") (B"8") (B"FlateDecode") (B"/Predictor 15 /Colors  1 /BitsPerComponent 8 /Columns 1") [] [] 0 [255; 0; 0] [0; 0]).
  exists [255; 0; 0], [0; 0; 255], (img_dict i 8 (Some 1)). split; [discriminate|]. cbv zeta. split; [vm_compute; reflexivity|]. split.
  - exists (image_object i). split; [vm_compute; reflexivity|]. apply (C52_object i 8 (Some 1)).
    apply parms_made; [vm_compute; reflexivity|vm_compute; reflexivity|cbn; auto|vm_compute; reflexivity].
  - vm_compute. reflexivity.
Qed.

Print Assumptions C38_alpha_partial.
Print Assumptions C38_meaning_unique.
Print Assumptions C38_meaning_exists.
Print Assumptions C38_grey_alpha_lost.
Print Assumptions C38_grey_alpha_refuted.
Print Assumptions C39_sizes_partial.
Print Assumptions C39_sizes_refuted.
Print Assumptions C51_data_partial.
Print Assumptions C51_long_chunk_panics.
Print Assumptions C51_long_chunk_refuted.
Print Assumptions C51_empty_chunk_ends.
Print Assumptions C51_empty_chunk_refuted.
Print Assumptions C51_terminates.
Print Assumptions C52_object.
Print Assumptions C52_jpeg.
Print Assumptions C53_palette_lost.
Print Assumptions C53_palette_refuted.
