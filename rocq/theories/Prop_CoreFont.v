(** A font made by the font maker, as objects of a document (C82). *)
From Coq Require Import String List ZArith Lia Bool.
From Coq.Floats Require Import SpecFloat.
From Verif Require Import Base PdfSyntax Md5Rc4 Crypto TtfSpec FontMaker FontMakerSpec FontMakerCases CoreFont CoreFontSpec CoreFontFinal.
Open Scope Z_scope.
Open Scope list_scope.

(** [made_font]: the font maker was run on the font file [d] and the maps [es] and
    [cp], the run ended well, and the methods of the font [f] are those of the type
    in the file it wrote. *)

(** The font dictionary has the name of the font, without zeros (C77), and refers
    to the widths, the descriptor and the encoding. *)
Theorem C82_font_partial : forall read write deflate fp mp enc out base d es cp f n family w ds e, made_font read write deflate fp mp enc out base d es cp f ->
  postscript_name d n -> Forall (fun c => regular c = true) n ->
  reads (core_font_obj family (Some f) (Some (w, ds, e))) (PDict (simple_font (filter (fun c => negb (c =? 48)) n) w ds e)) [10].
Proof. exact made_name. Qed.
Print Assumptions C82_font_partial.

(** Widths: an array of 224 numbers, for codes 32 to 255 the width of the glyph of
    the character that the map gives the code. *)
Theorem C82_widths : forall read write deflate fp mp enc out base d es cp f, made_font read write deflate fp mp enc out base d es cp f ->
  exists ws, reads (B"[" ++ cw2str (if_cw f) ++ B"]") (PArr (map PInt ws)) [] /\ List.length ws = 224%nat /\
    forall c, 32 <= c < 256 -> exists w, nth_error ws (Z.to_nat (c - 32)) = Some w /\ code_width d es c w.
Proof. exact made_widths. Qed.
Print Assumptions C82_widths.

(** Encoding: with the differences the codes have the names of the map. *)
Theorem C82_encoding_partial : forall read write deflate fp mp enc out base d es cp f, made_font read write deflate fp mp enc out base d es cp f ->
  (code_name es 0 = code_name cp 0 -> code_name es 1 = code_name cp 1) ->
  exists o l ds, core_encoding_obj (Some f) = Ok o /\
    reads o (PDict [(B"Type", PName (B"Encoding")); (B"BaseEncoding", PName (B"WinAnsiEncoding")); (B"Differences", PArr l)]) [10] /\
    differences l None = Some ds /\ forall c, 0 <= c < 256 -> encoded (code_name cp) ds c = code_name es c.
Proof. exact made_encoding. Qed.
Print Assumptions C82_encoding_partial.

(** Descriptor: numbers of the font in thousandths of its em. *)
Theorem C82_descriptor_partial : forall read write deflate fp mp enc out base d es cp f n ff, made_font read write deflate fp mp enc out base d es cp f ->
  postscript_name d n -> Forall (fun c => regular c = true) n ->
  exists o asc desc cap flags x0 y0 x1 y1 italic stem missing, core_descriptor_obj (Some f) (itoa ff ++ B" 0 R") = Ok o /\
    reads o (PDict [(B"Type", PName (B"FontDescriptor")); (B"FontName", PName (filter (fun c => negb (c =? 48)) n)); (B"Ascent", PInt asc); (B"Descent", PInt desc); (B"CapHeight", PInt cap); (B"Flags", PInt flags);
      (B"FontBBox", PArr [PInt x0; PInt y0; PInt x1; PInt y1]); (B"ItalicAngle", PInt italic); (B"StemV", PInt stem); (B"MissingWidth", PInt missing); (B"FontFile2", PRef ff 0)]) [10] /\
    (forall v, os2_s16 d 68 v -> scaled d v asc) /\ (forall v, os2_s16 d 70 v -> scaled d v desc) /\ (forall v, cap_height d v -> scaled d v cap) /\
    (forall v, head_s16 d 36 v -> scaled d v x0) /\ (forall v, head_s16 d 38 v -> scaled d v y0) /\ (forall v, head_s16 d 40 v -> scaled d v x1) /\ (forall v, head_s16 d 42 v -> scaled d v y1) /\
    (forall v, post_s16 d 4 v -> italic = v) /\ (forall v, advance d 0 v -> scaled d v missing) /\
    (forall v, os2_u16 d 62 v -> stem = if Z.testbit v 5 then 120 else 70) /\
    (forall p a, post_u32 d 12 p -> post_s16 d 4 a -> flags = (if p =? 0 then 0 else 1) + 32 + (if a =? 0 then 0 else 64)).
Proof. exact made_descriptor. Qed.
Print Assumptions C82_descriptor_partial.

(** Font file: the stream is the compressed font, enciphered in a protected
    document, and /Length is its length. *)
Theorem C82_file : forall read write deflate fp mp enc out base d es cp f pr id o, made_font read write deflate fp mp enc out base d es cp f ->
  exists z g, o_files (make_font read write deflate fp mp enc out) = [(out ++ B"/" ++ no_spaces base ++ B".z", z); g] /\ z = deflate d /\
    (core_file_obj (Some z) pr id (Some f) = Ok o -> exists raw, stream_text o [(B"Length", PInt (blen z)); (B"Filter", PName (B"FlateDecode")); (B"Length1", PInt (if_size f))] raw /\
       match pr with None => raw = z | Some pr => rc4 (objectkey pr id) raw = Ok z end).
Proof. exact made_file. Qed.
Print Assumptions C82_file.

(** A font that was made, its encoding object and some of its widths. *)
Example C82_case : case_made_font case_ifont /\
  core_encoding_obj (Some case_ifont) = Ok (B"<</Type /Encoding /BaseEncoding /WinAnsiEncoding /Differences [66 /C /f /.notdef]>>" ++ [10]) /\
  map (fun c => nth_error (map (fun i => if_cw case_ifont (32 + Z.of_nat i)) (seq 0 224)) (Z.to_nat (c - 32))) [32; 65; 66] = [Some 250; Some 300; Some 450].
Proof. exact case_objects. Qed.

(** Refuted: /Length1 is not the length of the font. *)
Theorem C82_length1_refuted : exists f o d raw n, case_made_font f /\ core_file_obj (Some (short_z case_font)) None 5 (Some f) = Ok o /\ stream_text o d raw /\ raw = short_z case_font /\
  lookup (B"Length1") d = Some (PInt n) /\ n <> blen case_font.
Proof. exact length1_wrong. Qed.
Print Assumptions C82_length1_refuted.
