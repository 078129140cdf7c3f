(** The font maker: the properties C74 to C79. *)
From Coq Require Import String List ZArith Lia Bool.
From Coq.Floats Require Import SpecFloat.
From Verif Require Import Base Float64 Ttf TtfSpec Subset PdfSyntax FontMaker FontMakerSpec FontMakerMake FontMakerRun FontMakerCases FontMakerFinal.
Open Scope Z_scope.
Open Scope list_scope.

(** ** C77: the files *)

(** A run that ends well has written two files: the compressed font, and a
    program of Go whose type has the name of the file and whose methods say what
    the font and the map files say ([describes] in FontMakerSpec.v). *)
Theorem C77_definition_file_partial : forall read write deflate fp mp enc out base d es cp, task read fp mp enc base d es cp -> go_task enc base d ->
  o_res (make_font read write deflate fp mp enc out) = Ok tt ->
  exists text l, o_files (make_font read write deflate fp mp enc out) = [(out ++ B"/" ++ no_spaces base ++ B".z", deflate d); (out ++ B"/" ++ no_spaces base ++ B".font.go", text)] /\
    go_file text = Some l /\ describes d es cp enc l (capital (no_spaces base)).
Proof. exact run_describes. Qed.
Print Assumptions C77_definition_file_partial.

Example C77_case : exists text l, o_files (case_run case_path case_font) = [(B"out/my_font.z", short_z case_font); (B"out/my_font.font.go", text)] /\
  go_file text = Some l /\ describes case_font case_es case_cp (B"x") l (B"My_font").
Proof. exact case_made. Qed.
Example C77_case_task : task (case_read case_path case_font) case_path (B"m") (B"x") (B"my font") case_font case_es case_cp /\ go_task (B"x") (B"my font") case_font.
Proof. exact case_task. Qed.

(** Refuted: the original size is that of another font, and names lose zeros. *)
Theorem C77_size_refuted : exists l n, go_file (run_text case_path case_font) = Some l /\ int_result l (B"My_font") (B"GetOriginalsize") = Some n /\ n <> blen case_font.
Proof. exact size_refuted. Qed.
Print Assumptions C77_size_refuted.
Theorem C77_name_refuted : exists l, go_file (run_text case_path case_font) = Some l /\ postscript_name case_font (B"Font2000") /\ str_result l (B"My_font") (B"GetName") = Some (B"Font2").
Proof. exact name_refuted. Qed.
Print Assumptions C77_name_refuted.
(** Refuted: a quote in the name of the font, or a hyphen in the name of its
    file, makes a file that is no program: in the first a line has no tokens, in
    the second there are no types and no methods. *)
Theorem C77_quote_refuted : exists d n, postscript_name d n /\ o_res (case_run (B"f.ttf") d) = Ok tt /\ go_file (run_text (B"f.ttf") d) = None.
Proof. exact quote_refuted. Qed.
Print Assumptions C77_quote_refuted.
Theorem C77_hyphen_refuted : exists l, o_res (case_run (B"my-font.ttf") case_font) = Ok tt /\ go_file (run_text (B"my-font.ttf") case_font) = Some l /\ forall ty m, ~ In (SType ty) l /\ ~ In (SFunc ty m) l.
Proof. exact hyphen_wrong. Qed.
Print Assumptions C77_hyphen_refuted.

(** ** C74: the width of every code is that of the glyph of its character *)
Theorem C74_widths : forall read write deflate fp mp enc out base d es cp, task read fp mp enc base d es cp -> go_task enc base d ->
  o_res (make_font read write deflate fp mp enc out) = Ok tt ->
  exists z text l, o_files (make_font read write deflate fp mp enc out) = [z; (out ++ B"/" ++ no_spaces base ++ B".font.go", text)] /\ go_file text = Some l /\
    forall c, 0 <= c < 256 -> exists w, width_result l (capital (no_spaces base)) c = Some w /\ code_width d es c w.
Proof. exact run_widths. Qed.
Print Assumptions C74_widths.
Example C74_case : exists l, go_file (run_text case_path case_font) = Some l /\ map (width_result l (B"My_font")) [64; 65; 66; 67; 68] = [Some 250; Some 300; Some 450; Some 250; Some 250].
Proof. exact widths_case. Qed.

(** ** C75: the descriptor *)
Theorem C75_descriptor : forall read write deflate fp mp enc out base d es cp, task read fp mp enc base d es cp -> go_task enc base d ->
  o_res (make_font read write deflate fp mp enc out) = Ok tt ->
  exists z text l, o_files (make_font read write deflate fp mp enc out) = [z; (out ++ B"/" ++ no_spaces base ++ B".font.go", text)] /\ go_file text = Some l /\
    exists asc desc cap flags x0 y0 x1 y1 italic stem missing,
    item_list l (capital (no_spaces base)) = [Some (B"Ascent", itoa asc); Some (B"Descent", itoa desc); Some (B"CapHeight", itoa cap); Some (B"Flags", itoa flags);
      Some (B"FontBBox", B"[" ++ itoa x0 ++ B" " ++ itoa y0 ++ B" " ++ itoa x1 ++ B" " ++ itoa y1 ++ B"]");
      Some (B"ItalicAngle", itoa italic); Some (B"StemV", itoa stem); Some (B"MissingWidth", itoa missing)] /\
    (forall v, os2_s16 d 68 v -> scaled d v asc) /\ (forall v, os2_s16 d 70 v -> scaled d v desc) /\ (forall v, cap_height d v -> scaled d v cap) /\
    (forall v, head_s16 d 36 v -> scaled d v x0) /\ (forall v, head_s16 d 38 v -> scaled d v y0) /\ (forall v, head_s16 d 40 v -> scaled d v x1) /\ (forall v, head_s16 d 42 v -> scaled d v y1) /\
    (forall v, post_s16 d 4 v -> italic = v) /\ (forall v, advance d 0 v -> scaled d v missing) /\
    (forall v, os2_u16 d 62 v -> stem = if Z.testbit v 5 then 120 else 70) /\
    (forall f a, post_u32 d 12 f -> post_s16 d 4 a -> flags = (if f =? 0 then 0 else 1) + 32 + (if a =? 0 then 0 else 64)).
Proof. exact run_descriptor. Qed.
Print Assumptions C75_descriptor.
Example C75_case : exists l, go_file (run_text case_path case_font) = Some l /\ item_list l (B"My_font") =
  [Some (B"Ascent", B"800"); Some (B"Descent", B"-200"); Some (B"CapHeight", B"701"); Some (B"Flags", B"96"); Some (B"FontBBox", B"[0 -18 250 350]");
   Some (B"ItalicAngle", B"-10"); Some (B"StemV", B"120"); Some (B"MissingWidth", B"250")].
Proof. exact items_case. Qed.

(** ** C76: the differences make the encoding of the map file *)
(** ... unless the first code that differs is code 1. *)
Theorem C76_differences_partial : forall read write deflate fp mp enc out base d es cp, task read fp mp enc base d es cp -> go_task enc base d ->
  o_res (make_font read write deflate fp mp enc out) = Ok tt -> (code_name es 0 = code_name cp 0 -> code_name es 1 = code_name cp 1) ->
  exists z text l t, o_files (make_font read write deflate fp mp enc out) = [z; (out ++ B"/" ++ no_spaces base ++ B".font.go", text)] /\ go_file text = Some l /\
    str_result l (capital (no_spaces base)) (B"GetDiff") = Some t /\ makes t (code_name cp) (code_name es).
Proof. exact run_differences. Qed.
Print Assumptions C76_differences_partial.
Example C76_case : exists l, go_file (run_text case_path case_font) = Some l /\ str_result l (B"My_font") (B"GetDiff") = Some (B"66 /C /f /.notdef").
Proof. exact differences_case. Qed.
Theorem C76_differences_refuted : exists l t, map_file one_map [(1, 65, B"A")] /\ o_res one_run = Ok tt /\ go_file one_text = Some l /\ str_result l (B"F") (B"GetDiff") = Some t /\
  forall base enc, ~ makes t base enc.
Proof. exact one_wrong. Qed.
Print Assumptions C76_differences_refuted.

(** ** C78: map files are read *)
Theorem C78_map_partial : forall s es, map_file s es -> exists m, load_map s = Ok m /\ List.length m = 256%nat /\
  forall c, 0 <= c < 256 -> option_map (fun f => (fm_uv f, fm_name f)) (nth_error m (Z.to_nat c)) = Some (code_entry es c).
Proof. exact map_read. Qed.
Print Assumptions C78_map_partial.
Example C78_case : map_file case_map case_es /\ map (code_entry case_es) [64; 65; 66] = [(-1, B".notdef"); (65, B"A"); (67, B"C")].
Proof. exact map_case. Qed.
(** An empty line stops the program. *)
Theorem C78_blank_line_refuted : exists s es, map_file s es /\ load_map (s ++ [10]) = Panic.
Proof. exact blank_refuted. Qed.
Print Assumptions C78_blank_line_refuted.

(** So does a code beyond 255. *)
Theorem C78_code_refuted : exists h c, hexadecimal h c /\ 256 <= c /\ load_map (B"!" ++ h ++ B" U+0041 A" ++ [10]) = Panic.
Proof. exact code_refuted. Qed.
Print Assumptions C78_code_refuted.

(** ** C79: when it works, and what it leaves *)
(** A font that the parser accepts, with a licence that lets it be embedded and
    glyphs for the characters of the map file, is made. *)
Theorem C79_works : forall read write deflate fp mp enc out base d t es cp n v, task read fp mp enc base d es cp -> ttf_named fp -> base <> [] -> (forall p b, write p b = true) ->
  parseTtf d = Ok t -> num_glyphs d n -> 0 < n -> os2_u16 d 8 v -> v <> 2 -> Z.testbit v 9 = false ->
  (forall c uv x, 0 <= c < 256 -> code_entry es c = (uv, x) -> x <> B".notdef" -> uv <> 65535 /\ exists g, bmp_glyph d uv g /\ 0 <= g < n) ->
  o_res (make_font read write deflate fp mp enc out) = Ok tt.
Proof. exact run_works. Qed.
Print Assumptions C79_works.
Example C79_works_case : o_res (case_run case_path case_font) = Ok tt.
Proof. exact case_works. Qed.

(** The definition file is the last one, and is written exactly if the run ends
    well. *)
Theorem C79_last_file : forall read write deflate fp mp enc out, let o := make_font read write deflate fp mp enc out in
  (o_res o = Ok tt /\ exists z g, o_files o = [z; g]) \/ (o_res o <> Ok tt /\ (o_files o = [] \/ exists z, o_files o = [z])).
Proof. exact go_file_last. Qed.
Print Assumptions C79_last_file.

(** No file is said to be written that could not be. *)
Theorem C79_files_written : forall read write deflate fp mp enc out, Forall (fun f => write (fst f) (snd f) = true) (o_files (make_font read write deflate fp mp enc out)).
Proof. exact files_written. Qed.
Print Assumptions C79_files_written.
Example C79_files_written_case : let o := make_font (case_read case_path case_font) (fun p _ => negb (beqb p (B"out/my_font.font.go"))) short_z case_path (B"m") (B"x") (B"out") in
  o_files o = [(B"out/my_font.z", short_z case_font)] /\ exists e, o_res o = Err e.
Proof. exact unwritten_case. Qed.

(** No file is written if a file cannot be read, the font file is no .ttf file,
    or its licence is 2 or permits bitmaps only. *)
Theorem C79_refused_partial : forall read write deflate fp mp enc out,
  read fp = None \/ ~ ttf_named fp \/ read (mp ++ B"/" ++ enc ++ B".map") = None \/
    (exists d v, read fp = Some d /\ Forall (fun c => 0 <= c <= 255) d /\ os2_u16 d 8 v /\ (v = 2 \/ Z.testbit v 9 = true)) ->
  o_files (make_font read write deflate fp mp enc out) = [] /\ o_res (make_font read write deflate fp mp enc out) <> Ok tt.
Proof. exact refused. Qed.
Print Assumptions C79_refused_partial.
Example C79_refused_case : os2_u16 barred_font 8 2 /\ (exists e, o_res (case_run (B"f.ttf") barred_font) = Err e) /\ o_files (case_run (B"f.ttf") barred_font) = [] /\
  ~ ttf_named (B"f.otf") /\ exists e, o_res (case_run (B"f.otf") case_font) = Err e.
Proof. exact refusal_case. Qed.
(** Refuted: a licence for restricted use with another bit set is not seen; and
    without cp1252.map, or with a font file that is named .ttf, there is one file
    without the other. *)
Theorem C79_licence_refuted : exists d, restricted d /\ o_res (case_run (B"f.ttf") d) = Ok tt.
Proof. exact licence_refuted. Qed.
Print Assumptions C79_licence_refuted.
Theorem C79_no_map_refuted : exists e, let o := make_font no_ref_read all_written short_z (B"f.ttf") (B"m") (B"x") (B"out") in
  o_res o = Err e /\ o_files o = [(B"out/f.z", short_z case_font)].
Proof. exact left_wrong. Qed.
Print Assumptions C79_no_map_refuted.
Theorem C79_no_name_refuted : let o := case_run (B".ttf") case_font in o_res o = Panic /\ o_files o = [(B"out/.z", short_z case_font)].
Proof. exact nameless_wrong. Qed.
Print Assumptions C79_no_name_refuted.
