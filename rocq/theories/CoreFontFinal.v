(** From the font maker to the objects of the font (C82). *)
From Coq Require Import String List ZArith Lia Bool.
From Coq.Floats Require Import SpecFloat.
From Verif Require Import Base BaseProofs PdfSyntax PdfSyntaxProofs Md5Rc4 Crypto TtfSpec FontObjects FontMaker FontMakerSpec FontMakerMake FontMakerRun FontMakerCases FontMakerFinal CoreFont CoreFontSpec CoreFontProofs.
Open Scope Z_scope.
Open Scope list_scope.

(** A run of the font maker that ended well, and a font that is the type it wrote. *)
Definition made_font (read : bytes -> option bytes) (write : bytes -> bytes -> bool) (deflate : bytes -> bytes) (fp mp enc out base d : bytes) (es cp : list (Z * Z * bytes)) (f : ifont) : Prop :=
  task read fp mp enc base d es cp /\ go_task enc base d /\ o_res (make_font read write deflate fp mp enc out) = Ok tt /\
  exists z text l, o_files (make_font read write deflate fp mp enc out) = [z; (out ++ B"/" ++ no_spaces base ++ B".font.go", text)] /\ go_file text = Some l /\ font_of l (capital (no_spaces base)) f.

Lemma made_describes : forall read write deflate fp mp enc out base d es cp f, made_font read write deflate fp mp enc out base d es cp f ->
  exists l, font_of l (capital (no_spaces base)) f /\ describes d es cp enc l (capital (no_spaces base)) /\
  exists g, o_files (make_font read write deflate fp mp enc out) = [(out ++ B"/" ++ no_spaces base ++ B".z", deflate d); g].
Proof.
  intros read write deflate fp mp enc out base d es cp f (T & G & R & z & text & l & Fs & Gf & Fo). destruct (run_describes _ _ _ _ _ _ _ _ _ _ _ T G R) as (text' & l' & Fs' & Gf' & D).
  rewrite Fs in Fs'. assert (text = text') by congruence. subst text'. assert (l = l') by congruence. subst l'. exists l. split; [exact Fo|]. split; [exact D|]. rewrite Fs.
  assert (z = (out ++ B"/" ++ no_spaces base ++ B".z", deflate d)) by congruence. subst z. eexists. reflexivity.
Qed.

Theorem made_name : forall read write deflate fp mp enc out base d es cp f n family w ds e, made_font read write deflate fp mp enc out base d es cp f ->
  postscript_name d n -> Forall (fun c => regular c = true) n ->
  reads (core_font_obj family (Some f) (Some (w, ds, e))) (PDict (simple_font (filter (fun c => negb (c =? 48)) n) w ds e)) [10].
Proof.
  intros read write deflate fp mp enc out base d es cp f n family w ds e M Pn Rn. destruct (made_describes _ _ _ _ _ _ _ _ _ _ _ _ M) as (l & Fo & D & _).
  pose proof (df_name _ _ _ _ _ _ D n Pn) as E. rewrite (fo_name _ _ _ Fo) in E. assert (En : if_name f = filter (fun c => negb (c =? 48)) n) by congruence. rewrite <- En.
  apply (font_read family (Some f) w ds e). rewrite En. apply Forall_forall. intros c Hc. apply filter_In in Hc as (Hc & _). rewrite Forall_forall in Rn. exact (Rn c Hc).
Qed.

Theorem made_widths : forall read write deflate fp mp enc out base d es cp f, made_font read write deflate fp mp enc out base d es cp f ->
  exists ws, reads (B"[" ++ cw2str (if_cw f) ++ B"]") (PArr (map PInt ws)) [] /\ List.length ws = 224%nat /\
    forall c, 32 <= c < 256 -> exists w, nth_error ws (Z.to_nat (c - 32)) = Some w /\ code_width d es c w.
Proof.
  intros read write deflate fp mp enc out base d es cp f M. destruct (made_describes _ _ _ _ _ _ _ _ _ _ _ _ M) as (l & Fo & D & _).
  exists (map (fun i => if_cw f (32 + Z.of_nat i)) (seq 0 224)). split; [|split].
  - rewrite map_map. rewrite <- (app_nil_r (B"]")). apply widths_read.
  - rewrite map_length. apply seq_length.
  - intros c Hc. assert (Hc0 : 0 <= c < 256) by lia. destruct (df_widths _ _ _ _ _ _ D c Hc0) as (w & Ew & Cw). pose proof (fo_width _ _ _ Fo c Hc0) as X. rewrite Ew in X. assert (w = if_cw f c) by congruence. subst w.
    exists (if_cw f c). split; [|exact Cw]. rewrite nth_error_map. assert (N : nth_error (seq 0 224) (Z.to_nat (c - 32)) = Some (Z.to_nat (c - 32))).
    { rewrite (nth_error_nth' _ 0%nat) by (rewrite seq_length; lia). rewrite seq_nth by lia. reflexivity. }
    rewrite N. cbn [option_map]. f_equal. f_equal. lia.
Qed.

Theorem made_encoding : forall read write deflate fp mp enc out base d es cp f, made_font read write deflate fp mp enc out base d es cp f ->
  (code_name es 0 = code_name cp 0 -> code_name es 1 = code_name cp 1) ->
  exists o l ds, core_encoding_obj (Some f) = Ok o /\
    reads o (PDict [(B"Type", PName (B"Encoding")); (B"BaseEncoding", PName (B"WinAnsiEncoding")); (B"Differences", PArr l)]) [10] /\
    differences l None = Some ds /\ forall c, 0 <= c < 256 -> encoded (code_name cp) ds c = code_name es c.
Proof.
  intros read write deflate fp mp enc out base d es cp f M H1. destruct (made_describes _ _ _ _ _ _ _ _ _ _ _ _ M) as (l & Fo & D & _).
  destruct (df_diff _ _ _ _ _ _ D H1) as (t & Et & Mk). rewrite (fo_diff _ _ _ Fo) in Et. assert (t = if_diff f) by congruence. subst t. apply encoding_read. exact Mk.
Qed.

Theorem made_descriptor : forall read write deflate fp mp enc out base d es cp f n ff, made_font read write deflate fp mp enc out base d es cp f ->
  postscript_name d n -> Forall (fun c => regular c = true) n ->
  exists o asc desc cap flags x0 y0 x1 y1 italic stem missing, core_descriptor_obj (Some f) (itoa ff ++ B" 0 R") = Ok o /\
    reads o (PDict [(B"Type", PName (B"FontDescriptor")); (B"FontName", PName (filter (fun c => negb (c =? 48)) n)); (B"Ascent", PInt asc); (B"Descent", PInt desc); (B"CapHeight", PInt cap); (B"Flags", PInt flags);
      (B"FontBBox", PArr [PInt x0; PInt y0; PInt x1; PInt y1]); (B"ItalicAngle", PInt italic); (B"StemV", PInt stem); (B"MissingWidth", PInt missing); (B"FontFile2", PRef ff 0)]) [10] /\
    (forall v, os2_s16 d 68 v -> scaled d v asc) /\ (forall v, os2_s16 d 70 v -> scaled d v desc) /\ (forall v, cap_height d v -> scaled d v cap) /\
    (forall v, head_s16 d 36 v -> scaled d v x0) /\ (forall v, head_s16 d 38 v -> scaled d v y0) /\ (forall v, head_s16 d 40 v -> scaled d v x1) /\ (forall v, head_s16 d 42 v -> scaled d v y1) /\
    (forall v, post_s16 d 4 v -> italic = v) /\ (forall v, advance d 0 v -> scaled d v missing) /\
    (forall v, os2_u16 d 62 v -> stem = if Z.testbit v 5 then 120 else 70) /\
    (forall p a, post_u32 d 12 p -> post_s16 d 4 a -> flags = (if p =? 0 then 0 else 1) + 32 + (if a =? 0 then 0 else 64)).
Proof.
  intros read write deflate fp mp enc out base d es cp f n ff M Pn Rn. destruct (made_describes _ _ _ _ _ _ _ _ _ _ _ _ M) as (l & Fo & D & _).
  pose proof (df_name _ _ _ _ _ _ D n Pn) as E. rewrite (fo_name _ _ _ Fo) in E. assert (En : if_name f = filter (fun c => negb (c =? 48)) n) by congruence.
  assert (Rf : reg_word (if_name f)). { rewrite En. apply Forall_forall. intros c Hc. apply filter_In in Hc as (Hc & _). rewrite Forall_forall in Rn. exact (Rn c Hc). }
  destruct (df_items _ _ _ _ _ _ D) as (asc & desc & cap & flags & x0 & y0 & x1 & y1 & italic & stem & missing & Il & Rest).
  pose proof (fo_desc _ _ _ Fo) as Ed. rewrite Il in Ed.
  assert (Di : if_desc f = [(B"Ascent", itoa asc); (B"Descent", itoa desc); (B"CapHeight", itoa cap); (B"Flags", itoa flags);
      (B"FontBBox", B"[" ++ itoa x0 ++ B" " ++ itoa y0 ++ B" " ++ itoa x1 ++ B" " ++ itoa y1 ++ B"]");
      (B"ItalicAngle", itoa italic); (B"StemV", itoa stem); (B"MissingWidth", itoa missing)]).
  { assert (Inj : forall (a c : list (bytes * bytes)), map Some a = map Some c -> a = c).
    { induction a as [|x a IH]; intros [|y c] H; cbn [map] in H; try discriminate; [reflexivity|]. assert (x = y) by congruence. assert (map Some a = map Some c) by congruence. f_equal; auto. }
    apply Inj. exact Ed. }
  destruct (descriptor_read f ff [PInt asc; PInt desc; PInt cap; PInt flags; PArr [PInt x0; PInt y0; PInt x1; PInt y1]; PInt italic; PInt stem; PInt missing] Rf) as (o & Ho & Hr).
  { rewrite Di. repeat (apply Forall2_cons; [split; [cbn [fst]; regw|cbn [snd]; first [apply item_int|apply item_box]]|]). apply Forall2_nil. }
  exists o, asc, desc, cap, flags, x0, y0, x1, y1, italic, stem, missing. split; [exact Ho|]. split; [|exact Rest]. rewrite Di, En in Hr. exact Hr.
Qed.

Theorem made_file : forall read write deflate fp mp enc out base d es cp f pr id o, made_font read write deflate fp mp enc out base d es cp f ->
  exists z g, o_files (make_font read write deflate fp mp enc out) = [(out ++ B"/" ++ no_spaces base ++ B".z", z); g] /\ z = deflate d /\
    (core_file_obj (Some z) pr id (Some f) = Ok o -> exists raw, stream_text o [(B"Length", PInt (blen z)); (B"Filter", PName (B"FlateDecode")); (B"Length1", PInt (if_size f))] raw /\
       match pr with None => raw = z | Some pr => rc4 (objectkey pr id) raw = Ok z end).
Proof.
  intros read write deflate fp mp enc out base d es cp f pr id o M. destruct (made_describes _ _ _ _ _ _ _ _ _ _ _ _ M) as (l & Fo & D & g & Fs). exists (deflate d), g. split; [exact Fs|]. split; [reflexivity|].
  apply file_read.
Qed.

(** ** A font that was made *)
Definition or_zero (o : option Z) : Z := match o with Some w => w | None => 0 end.
Definition case_ifont : ifont := mkIFont (B"Font2")
  [(B"Ascent", B"800"); (B"Descent", B"-200"); (B"CapHeight", B"701"); (B"Flags", B"96"); (B"FontBBox", B"[0 -18 250 350]"); (B"ItalicAngle", B"-10"); (B"StemV", B"120"); (B"MissingWidth", B"250")]
  (fun c => or_zero (width_result (run_stmts case_path case_font) (B"My_font") c)) (B"66 /C /f /.notdef") 98764.
Definition case_made_font (f : ifont) : Prop := made_font (case_read case_path case_font) all_written short_z case_path (B"m") (B"x") (B"out") (B"my font") case_font case_es case_cp f.
Lemma case_ifont_made : case_made_font case_ifont.
Proof.
  destruct case_task as (T & G). split; [exact T|]. split; [exact G|]. split; [exact case_works|].
  destruct case_made as (text & l & Fs & Gf & D). exists (B"out/my_font.z", short_z case_font), text, l. split; [exact Fs|]. split; [exact Gf|].
  assert (Et : run_text case_path case_font = text) by (unfold run_text; rewrite Fs; reflexivity).
  assert (El : run_stmts case_path case_font = l) by (unfold run_stmts; rewrite Et, Gf; reflexivity).
  destruct case_values as (_ & Il & _ & Di & _). destruct size_wrong as (l' & Gf' & Sz & _ & _ & Nm). rewrite Et, Gf in Gf'. assert (l' = l) by congruence. subst l'.
  rewrite El in Il, Di. constructor.
  - exact Nm.
  - exact Di.
  - exact Sz.
  - intros c Hc. unfold case_ifont. cbn [if_cw]. rewrite El. destruct (df_widths _ _ _ _ _ _ D c Hc) as (w & Ew & _). change (capital (no_spaces (B"my font"))) with (B"My_font"). rewrite Ew. reflexivity.
  - symmetry. exact Il.
Qed.
Lemma case_objects : case_made_font case_ifont /\
  core_encoding_obj (Some case_ifont) = Ok (B"<</Type /Encoding /BaseEncoding /WinAnsiEncoding /Differences [66 /C /f /.notdef]>>" ++ [10]) /\
  map (fun c => nth_error (map (fun i => if_cw case_ifont (32 + Z.of_nat i)) (seq 0 224)) (Z.to_nat (c - 32))) [32; 65; 66] = [Some 250; Some 300; Some 450].
Proof. split; [exact case_ifont_made|]. split; vm_compute; reflexivity. Qed.

(** /Length1 is to be the length of the font (ISO 32000-1, table 127). *)
Lemma length1_wrong : exists f o d raw n, case_made_font f /\ core_file_obj (Some (short_z case_font)) None 5 (Some f) = Ok o /\ stream_text o d raw /\ raw = short_z case_font /\
  lookup (B"Length1") d = Some (PInt n) /\ n <> blen case_font.
Proof.
  pose proof case_ifont_made as M. destruct (core_file_obj (Some (short_z case_font)) None 5 (Some case_ifont)) as [o| | |] eqn:E; try discriminate E.
  destruct (file_read _ _ _ _ _ E) as (raw & St & Rw). exists case_ifont, o. eexists. exists raw, 98764. split; [exact M|]. split; [exact E|]. split; [exact St|]. split; [exact Rw|]. split; [reflexivity|].
  destruct size_wrong as (_ & _ & _ & L & _). rewrite L. lia.
Qed.
