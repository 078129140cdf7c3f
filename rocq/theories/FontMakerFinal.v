(** The theorems about the font maker, as they are stated. *)
From Coq Require Import String List ZArith Lia Bool.
From Coq.Floats Require Import SpecFloat.
From Verif Require Import Base BaseProofs Float64 Ttf TtfSpec TtfProofs Subset PdfSyntax FontMaker FontMakerSpec FontMakerMap FontMakerMake FontMakerRun FontMakerCases.
Open Scope Z_scope.
Open Scope list_scope.

Theorem run_describes : forall read write deflate fp mp enc out base d es cp, task read fp mp enc base d es cp -> go_task enc base d ->
  o_res (make_font read write deflate fp mp enc out) = Ok tt ->
  exists text l, o_files (make_font read write deflate fp mp enc out) = [(out ++ B"/" ++ no_spaces base ++ B".z", deflate d); (out ++ B"/" ++ no_spaces base ++ B".font.go", text)] /\
    go_file text = Some l /\ describes d es cp enc l (capital (no_spaces base)).
Proof.
  intros read write deflate fp mp enc out base d es cp [P F (s & R1 & M1) (s' & R2 & M2) Hb Hl Ap] ((n & Hn & Qn) & Qe & Id & u & Hu & Pu) W.
  eapply make_font_ok; eassumption.
Qed.
Theorem run_widths : forall read write deflate fp mp enc out base d es cp, task read fp mp enc base d es cp -> go_task enc base d ->
  o_res (make_font read write deflate fp mp enc out) = Ok tt ->
  exists z text l, o_files (make_font read write deflate fp mp enc out) = [z; (out ++ B"/" ++ no_spaces base ++ B".font.go", text)] /\ go_file text = Some l /\
    forall c, 0 <= c < 256 -> exists w, width_result l (capital (no_spaces base)) c = Some w /\ code_width d es c w.
Proof.
  intros read write deflate fp mp enc out base d es cp T G W. destruct (run_describes read write deflate fp mp enc out base d es cp T G W) as (text & l & F & Go & D).
  eexists. exists text, l. split; [exact F|]. split; [exact Go|]. exact (df_widths _ _ _ _ _ _ D).
Qed.
Theorem run_descriptor : forall read write deflate fp mp enc out base d es cp, task read fp mp enc base d es cp -> go_task enc base d ->
  o_res (make_font read write deflate fp mp enc out) = Ok tt ->
  exists z text l, o_files (make_font read write deflate fp mp enc out) = [z; (out ++ B"/" ++ no_spaces base ++ B".font.go", text)] /\ go_file text = Some l /\
    exists asc desc cap flags x0 y0 x1 y1 italic stem missing,
    item_list l (capital (no_spaces base)) = [Some (B"Ascent", itoa asc); Some (B"Descent", itoa desc); Some (B"CapHeight", itoa cap); Some (B"Flags", itoa flags);
      Some (B"FontBBox", B"[" ++ itoa x0 ++ B" " ++ itoa y0 ++ B" " ++ itoa x1 ++ B" " ++ itoa y1 ++ B"]");
      Some (B"ItalicAngle", itoa italic); Some (B"StemV", itoa stem); Some (B"MissingWidth", itoa missing)] /\
    (forall v, os2_s16 d 68 v -> scaled d v asc) /\ (forall v, os2_s16 d 70 v -> scaled d v desc) /\ (forall v, cap_height d v -> scaled d v cap) /\
    (forall v, head_s16 d 36 v -> scaled d v x0) /\ (forall v, head_s16 d 38 v -> scaled d v y0) /\ (forall v, head_s16 d 40 v -> scaled d v x1) /\ (forall v, head_s16 d 42 v -> scaled d v y1) /\
    (forall v, post_s16 d 4 v -> italic = v) /\ (forall v, advance d 0 v -> scaled d v missing) /\
    (forall v, os2_u16 d 62 v -> stem = if Z.testbit v 5 then 120 else 70) /\
    (forall f a, post_u32 d 12 f -> post_s16 d 4 a -> flags = (if f =? 0 then 0 else 1) + 32 + (if a =? 0 then 0 else 64)).
Proof.
  intros read write deflate fp mp enc out base d es cp T G W. destruct (run_describes read write deflate fp mp enc out base d es cp T G W) as (text & l & F & Go & D).
  eexists. exists text, l. split; [exact F|]. split; [exact Go|]. exact (df_items _ _ _ _ _ _ D).
Qed.
Theorem run_differences : forall read write deflate fp mp enc out base d es cp, task read fp mp enc base d es cp -> go_task enc base d ->
  o_res (make_font read write deflate fp mp enc out) = Ok tt -> (code_name es 0 = code_name cp 0 -> code_name es 1 = code_name cp 1) ->
  exists z text l t, o_files (make_font read write deflate fp mp enc out) = [z; (out ++ B"/" ++ no_spaces base ++ B".font.go", text)] /\ go_file text = Some l /\
    str_result l (capital (no_spaces base)) (B"GetDiff") = Some t /\ makes t (code_name cp) (code_name es).
Proof.
  intros read write deflate fp mp enc out base d es cp T G W C. destruct (run_describes read write deflate fp mp enc out base d es cp T G W) as (text & l & F & Go & D).
  destruct (df_diff _ _ _ _ _ _ D C) as (t & S & M). eexists. exists text, l, t. split; [exact F|]. split; [exact Go|]. split; assumption.
Qed.
Theorem run_works : forall read write deflate fp mp enc out base d t es cp n v, task read fp mp enc base d es cp -> ttf_named fp -> base <> [] -> (forall p b, write p b = true) ->
  parseTtf d = Ok t -> num_glyphs d n -> 0 < n -> os2_u16 d 8 v -> v <> 2 -> Z.testbit v 9 = false ->
  (forall c uv x, 0 <= c < 256 -> code_entry es c = (uv, x) -> x <> B".notdef" -> uv <> 65535 /\ exists g, bmp_glyph d uv g /\ 0 <= g < n) ->
  o_res (make_font read write deflate fp mp enc out) = Ok tt.
Proof.
  intros read write deflate fp mp enc out base d t es cp n v [P F (s & R1 & M1) (s' & R2 & M2) Hb Hl Ap] N Nb W Pt Ng Pn Ov V2 V9 Gl. eapply make_font_works; eassumption.
Qed.
Theorem map_read : forall s es, map_file s es -> exists m, load_map s = Ok m /\ List.length m = 256%nat /\
  forall c, 0 <= c < 256 -> option_map (fun f => (fm_uv f, fm_name f)) (nth_error m (Z.to_nat c)) = Some (code_entry es c).
Proof.
  intros s es H. destruct (load_map_ok s es H) as (m & E & L & N). exists m. split; [exact E|]. split; [exact L|]. intros c C. rewrite (N c C). cbn [option_map fm fm_uv fm_name]. destruct (code_entry es c); reflexivity.
Qed.

(** ** Cases *)
Lemma case_task : task (case_read case_path case_font) case_path (B"m") (B"x") (B"my font") case_font case_es case_cp /\ go_task (B"x") (B"my font") case_font.
Proof.
  destruct case_named as (N1 & N2). destruct case_reads as (R1 & R2 & R3). split.
  - constructor; [exact N1|exact R1|exists case_map; split; [exact R2|exact case_map_ok]|exists case_ref; split; [exact R3|exact case_ref_ok]|exact case_bytes|exact case_len|exact case_apart].
  - split; [exists (B"Font2000"); split; [exact case_psname|reflexivity]|]. split; [reflexivity|]. split; [exists 77, (B"y_font"); split; [reflexivity|]; split; reflexivity|]. exists 2000. split; [exact case_units|lia].
Qed.
Lemma widths_case : exists l, go_file (run_text case_path case_font) = Some l /\ map (width_result l (B"My_font")) [64; 65; 66; 67; 68] = [Some 250; Some 300; Some 450; Some 250; Some 250].
Proof. destruct case_values as (G & _ & W & _). eexists. split; [exact G|exact W]. Qed.
Lemma items_case : exists l, go_file (run_text case_path case_font) = Some l /\ item_list l (B"My_font") =
  [Some (B"Ascent", B"800"); Some (B"Descent", B"-200"); Some (B"CapHeight", B"701"); Some (B"Flags", B"96"); Some (B"FontBBox", B"[0 -18 250 350]");
   Some (B"ItalicAngle", B"-10"); Some (B"StemV", B"120"); Some (B"MissingWidth", B"250")].
Proof. destruct case_values as (G & I & _). eexists. split; [exact G|exact I]. Qed.
Lemma differences_case : exists l, go_file (run_text case_path case_font) = Some l /\ str_result l (B"My_font") (B"GetDiff") = Some (B"66 /C /f /.notdef").
Proof. destruct case_values as (G & _ & _ & D & _). eexists. split; [exact G|exact D]. Qed.
Lemma size_refuted : exists l n, go_file (run_text case_path case_font) = Some l /\ int_result l (B"My_font") (B"GetOriginalsize") = Some n /\ n <> blen case_font.
Proof. destruct size_wrong as (l & G & S & B1 & _). exists l, 98764. split; [exact G|]. split; [exact S|]. rewrite B1. lia. Qed.
Lemma name_refuted : exists l, go_file (run_text case_path case_font) = Some l /\ postscript_name case_font (B"Font2000") /\ str_result l (B"My_font") (B"GetName") = Some (B"Font2").
Proof. destruct size_wrong as (l & G & _ & _ & N & S). exists l. split; [exact G|]. split; [exact N|exact S]. Qed.
Lemma quote_refuted : exists d n, postscript_name d n /\ o_res (case_run (B"f.ttf") d) = Ok tt /\ go_file (run_text (B"f.ttf") d) = None.
Proof. exists quoted_font, (B"a""b"). exact quote_wrong. Qed.
Lemma licence_refuted : exists d, restricted d /\ o_res (case_run (B"f.ttf") d) = Ok tt.
Proof. exists locked_font. exact licence_wrong. Qed.
Lemma map_case : map_file case_map case_es /\ map (code_entry case_es) [64; 65; 66] = [(-1, B".notdef"); (65, B"A"); (67, B"C")].
Proof. split; [exact case_map_ok|reflexivity]. Qed.
Lemma code_refuted : exists h c, hexadecimal h c /\ 256 <= c /\ load_map (B"!" ++ h ++ B" U+0041 A" ++ [10]) = Panic.
Proof.
  exists (B"100"), 256. split; [|split; [lia|vm_compute; reflexivity]].
  apply (hex_more (B"10") 16 48 0); [apply (hex_more (B"1") 1 48 0); [apply hex_one|]|]; unfold nibble; cbn; lia.
Qed.
Lemma unwritten_case : let o := make_font (case_read case_path case_font) (fun p _ => negb (beqb p (B"out/my_font.font.go"))) short_z case_path (B"m") (B"x") (B"out") in
  o_files o = [(B"out/my_font.z", short_z case_font)] /\ exists e, o_res o = Err e.
Proof. split; [vm_compute; reflexivity|]. eexists. vm_compute. reflexivity. Qed.
Lemma blank_refuted : exists s es, map_file s es /\ load_map (s ++ [10]) = Panic.
Proof. exists case_map, case_es. split; [exact case_map_ok|]. vm_compute. reflexivity. Qed.
