(** Concrete runs of the font maker. *)
From Coq Require Import String List ZArith Lia Bool.
From Coq.Floats Require Import SpecFloat.
From Verif Require Import Base BaseProofs Float64 Ttf TtfSpec TtfProofs TtfTables Subset PdfSyntax PdfSyntaxProofs TestFont
  FontClosure FontMaker FontMakerSpec FontMakerMap FontMakerMake FontMakerRun.
Open Scope Z_scope.
Open Scope list_scope.

(** A font of 2000 units with a PostScript name, a licence, a selection and an
    italic angle. *)
Definition c_name (n : bytes) : bytes := w2 0 ++ w2 1 ++ w2 18 ++ zs 6 ++ w2 6 ++ w2 (blen n) ++ w2 0 ++ n.
Definition c_os2 (fs sel : Z) : bytes := w2 2 ++ zs 6 ++ w2 fs ++ zs 52 ++ w2 sel ++ zs 4 ++ w2 1600 ++ w2 65137 ++ zs 16 ++ w2 1401 ++ zs 6.
Definition c_post (angle : Z) : bytes := zs 4 ++ w2 angle ++ zs 2 ++ w2 65386 ++ w2 101 ++ w4 0 ++ zs 16.
Definition c_font (n : bytes) (fs sel angle : Z) : bytes :=
  font_file [(B"OS/2", c_os2 fs sel); (B"cmap", t_cmap); (B"glyf", t_glyf); (B"head", t_head 2000); (B"hhea", t_hhea 5); (B"hmtx", t_hmtx);
   (B"loca", t_loca); (B"name", c_name n); (B"post", c_post angle); (B"maxp", t_maxp 5)].
Definition case_map : bytes := B"!41 U+0041 A" ++ [10] ++ B"!42 U+0043 C" ++ [13; 10] ++ B"!43 U+0066 f" ++ [10].
Definition case_es : list (Z * Z * bytes) := [(65, 65, B"A"); (66, 67, B"C"); (67, 102, B"f")].
Definition case_ref : bytes := B"!41 U+0041 A" ++ [10] ++ B"!44 U+0044 D" ++ [10].
Definition case_cp : list (Z * Z * bytes) := [(65, 65, B"A"); (68, 68, B"D")].
Definition case_read (path font : bytes) (p : bytes) : option bytes :=
  if beqb p path then Some font else if beqb p (B"m/x.map") then Some case_map else if beqb p (B"m/cp1252.map") then Some case_ref else None.
Definition all_written (p b : bytes) : bool := true.
Definition short_z (d : bytes) : bytes := firstn 3 d.
Definition case_run (path font : bytes) : outcome := make_font (case_read path font) all_written short_z path (B"m") (B"x") (B"out").
Definition case_font : bytes := Eval vm_compute in c_font (B"Font2000") 8 32 65526.
Definition case_text : bytes := match o_files (case_run (B"f/my font.TTF") case_font) with [_; (_, t)] => t | _ => [] end.
Definition case_stmts : list stmt := match go_file case_text with Some l => l | None => [] end.


(** ** Deciding what the specification says *)
Fixpoint seg_from (d : bytes) (s c : Z) (k : nat) (i : Z) : option Z :=
  match k with O => None | S k => match end_code d s i with Some e => if c <=? e then Some i else seg_from d s c k (i + 1) | None => None end end.
Lemma seg_from_ok : forall d s c n k i r, seg_from d s c k i = Some r -> 0 <= i -> i + Z.of_nat k = n -> (forall j e, 0 <= j < i -> end_code d s j = Some e -> e < c) -> segment d s n c r.
Proof.
  intros d s c n. induction k as [|k IH]; intros i r H Hi En Lo; cbn [seg_from] in H; [discriminate|]. destruct (end_code d s i) as [e|] eqn:E; [|discriminate]. destruct (Z.leb_spec c e).
  - assert (r = i) by congruence. subst r. split; [lia|]. split; [eauto|exact Lo].
  - apply (IH (i + 1) r H); [lia|lia|]. intros j e' Hj Ej. destruct (Z.eq_dec j i) as [->|]; [congruence|apply (Lo j e'); [lia|exact Ej]].
Qed.
Definition bmp_of (d : bytes) (c : Z) : option Z :=
  match locate d (B"cmap") with
  | Some (o, _) => match locate_sub d o 3 1 with
    | Some off => let s := o + off in match u16 d (s + 6) with
      | Some sx => let n := sx / 2 in match seg_from d s c (Z.to_nat n) 0 with
        | Some i => match start_code d s n i, id_delta d s n i, id_range d s n i with
          | Some st, Some de, Some ro => if c <? st then Some 0 else if ro =? 0 then Some ((c + de) mod 65536)
              else match u16 d (range_pos s n i + ro + 2 * (c - st)) with Some x => Some (if x =? 0 then 0 else (x + de) mod 65536) | None => None end
          | _, _, _ => None end
        | None => None end
      | None => None end
    | None => None end
  | None => None end.
Lemma bmp_of_ok : forall d c g, bmp_of d c = Some g -> bmp_glyph d c g.
Proof.
  intros d c g H. unfold bmp_of in H. destruct (locate d (B"cmap")) as [[o l]|] eqn:E1; [|discriminate]. apply locate_ok in E1. destruct (locate_sub d o 3 1) as [off|] eqn:E2; [|discriminate]. apply locate_sub_ok in E2.
  cbv zeta in H. destruct (u16 d (o + off + 6)) as [sx|] eqn:E3; [|discriminate]. destruct (seg_from d (o + off) c (Z.to_nat (sx / 2)) 0) as [i|] eqn:E4; [|discriminate].
  assert (Ps : 0 <= sx / 2). { destruct (Z.leb_spec 0 (sx / 2)); [assumption|]. replace (Z.to_nat (sx / 2)) with 0%nat in E4 by lia. discriminate. }
  apply (seg_from_ok d (o + off) c (sx / 2)) in E4; [|lia|lia|intros; lia].
  destruct (start_code d (o + off) (sx / 2) i) as [st|] eqn:E5; [|discriminate]. destruct (id_delta d (o + off) (sx / 2) i) as [de|] eqn:E6; [|discriminate]. destruct (id_range d (o + off) (sx / 2) i) as [ro|] eqn:E7; [|discriminate].
  exists o, l, off, sx. split; [exact E1|]. split; [exact E2|]. split; [exact E3|]. left. exists sx, (sx / 2), i, st, de, ro. split; [exact E3|]. split; [reflexivity|]. split; [exact E4|]. split; [exact E5|]. split; [exact E6|]. split; [exact E7|].
  destruct (c <? st); [congruence|]. destruct (ro =? 0); [congruence|]. destruct (u16 d (range_pos (o + off) (sx / 2) i + ro + 2 * (c - st))) as [x|]; [|discriminate]. exists x. split; [reflexivity|]. congruence.
Qed.
Definition apart_b (d : bytes) : bool :=
  match locate d (B"cmap") with
  | Some (o, _) => match locate_sub d o 3 1 with
    | Some off => match u16 d (o + off + 6) with
      | Some sx => forallb (fun j => forallb (fun i => match end_code d (o + off) i, start_code d (o + off) (sx / 2) j with Some e, Some s => e <? s | _, _ => true end) (upto j)) (upto (sx / 2))
      | None => false end
    | None => false end
  | None => false end.
Lemma apart_ok : forall d, apart_b d = true -> segments_apart d.
Proof.
  intros d H cmap len off sx i j e s Ht Hs Hx Hi Hj He Hst. unfold apart_b in H. destruct (locate d (B"cmap")) as [[o l]|] eqn:E1; [|discriminate]. apply locate_ok in E1. destruct (locate_sub d o 3 1) as [off'|] eqn:E2; [|discriminate]. apply locate_sub_ok in E2.
  destruct (has_table_unique _ _ _ _ _ _ Ht E1) as (-> & _).
  assert (off' = off). { destruct Hs as (n & k & N & Hk & Ek & Uk). destruct E2 as (n' & k' & N' & Hk' & Ek' & _). assert (n' = n) by congruence. subst n'. assert (k' = k) by (apply (Uk k' off'); assumption). subst k'. congruence. }
  subst off'. rewrite Hx in H. rewrite forallb_forall in H. specialize (H j (in_upto (sx / 2) j (conj (Z.le_trans _ _ _ (proj1 Hi) (Z.lt_le_incl _ _ (proj2 Hi))) Hj))). rewrite forallb_forall in H. specialize (H i (in_upto j i Hi)). rewrite He, Hst in H. lia.
Qed.
Definition field_at (get : bytes -> Z -> option Z) (d tag : bytes) (p : Z) : option Z := match locate d tag with Some (o, _) => get d (o + p) | None => None end.
Lemma field_at_ok : forall get d tag p v, field_at get d tag p = Some v -> exists o l, has_table d tag o l /\ get d (o + p) = Some v.
Proof. intros get d tag p v H. unfold field_at in H. destruct (locate d tag) as [[o l]|] eqn:E; [|discriminate]. apply locate_ok in E. eauto. Qed.
Definition name_of (d : bytes) : option bytes :=
  match locate d (B"name") with
  | Some (o, _) => match u16 d (o + 2), u16 d (o + 4), u16 d (o + 12), u16 d (o + 14), u16 d (o + 16) with
    | Some n, Some so, Some id, Some len, Some off => if (0 <? n) && (id =? 6) then option_map (filter (fun c => negb (c =? 0))) (bytes_at d (o + so + off) len) else None
    | _, _, _, _, _ => None end
  | None => None end.
Lemma name_of_ok : forall d n, name_of d = Some n -> postscript_name d n.
Proof.
  intros d n H. unfold name_of in H. destruct (locate d (B"name")) as [[o l]|] eqn:E; [|discriminate]. apply locate_ok in E. destruct (u16 d (o + 2)) as [c|] eqn:E1; [|discriminate]. destruct (u16 d (o + 4)) as [so|] eqn:E2; [|discriminate].
  destruct (u16 d (o + 12)) as [id|] eqn:E3; [|discriminate]. destruct (u16 d (o + 14)) as [len|] eqn:E4; [|discriminate]. destruct (u16 d (o + 16)) as [off|] eqn:E5; [|discriminate].
  destruct ((0 <? c) && (id =? 6)) eqn:B1; [|discriminate]. assert (id = 6) by lia. subst id. destruct (bytes_at d (o + so + off) len) as [raw|] eqn:E6; [|discriminate]. cbn [option_map] in H.
  exists o, l, c, so, 0, len, off, raw. split; [exact E|]. split; [exact E1|]. split; [exact E2|]. split; [lia|]. split.
  { exists o, l. split; [exact E|]. replace (o + 6 + 12 * 0 + 6) with (o + 12) by lia. replace (o + 6 + 12 * 0 + 8) with (o + 14) by lia. replace (o + 6 + 12 * 0 + 10) with (o + 16) by lia. auto. }
  split; [intros; lia|]. split; [exact E6|]. congruence.
Qed.

Lemma nib : forall c v, (match hex_digit c with Some x => x =? v | None => false end) = true -> nibble c v.
Proof.
  intros c v H. unfold hex_digit, is_digit in H. unfold nibble. destruct ((48 <=? c) && (c <=? 57)) eqn:E1; [lia|]. destruct ((97 <=? c) && (c <=? 102)) eqn:E2; [lia|]. destruct ((65 <=? c) && (c <=? 70)) eqn:E3; [lia|discriminate].
Qed.
Lemma hex2 : forall a c x y, nibble a x -> nibble c y -> hexadecimal [a; c] (16 * x + y).
Proof. intros a c x y H1 H2. apply (hex_more [a] x c y); [constructor; exact H1|exact H2]. Qed.
Lemma hex4 : forall a c e f x y z u, nibble a x -> nibble c y -> nibble e z -> nibble f u -> hexadecimal [a; c; e; f] (16 * (16 * (16 * x + y) + z) + u).
Proof. intros. apply (hex_more [a; c; e]); [|assumption]. apply (hex_more [a; c]); [|assumption]. apply hex2; assumption. Qed.
Lemma entry_case : forall a1 a2 b1 b2 b3 b4 n x1 x2 y1 y2 y3 y4, nibble a1 x1 -> nibble a2 x2 -> nibble b1 y1 -> nibble b2 y2 -> nibble b3 y3 -> nibble b4 y4 -> glyph_name n -> blen n < 60000 ->
  entry_line (16 * x1 + x2, 16 * (16 * (16 * y1 + y2) + y3) + y4, n) (B"!" ++ [a1; a2] ++ B" U+" ++ [b1; b2; b3; b4] ++ B" " ++ n).
Proof.
  intros a1 a2 b1 b2 b3 b4 n x1 x2 y1 y2 y3 y4 H1 H2 H3 H4 H5 H6 N L. exists [a1; a2], [b1; b2; b3; b4]. split; [apply hex2; assumption|]. split; [apply hex4; assumption|]. unfold nibble in *. split; [lia|]. split; [lia|]. split; [exact N|]. split; [reflexivity|].
  unfold blen in *. rewrite !app_length. cbn [List.length bytes_of_string]. lia.
Qed.
Ltac entry a1 a2 b1 b2 b3 b4 n x1 x2 y1 y2 y3 y4 :=
  assert (X := entry_case a1 a2 b1 b2 b3 b4 n x1 x2 y1 y2 y3 y4); apply X; clear X; try (apply nib; reflexivity); [split; [discriminate|reflexivity]|reflexivity].
Lemma case_map_ok : map_file case_map case_es.
Proof.
  apply (map_lf (65, 65, B"A") (B"!41 U+0041 A") (B"!42 U+0043 C" ++ [13; 10] ++ B"!43 U+0066 f" ++ [10]) [(66, 67, B"C"); (67, 102, B"f")]).
  { entry 52 49 48 48 52 49 (B"A") 4 1 0 0 4 1. }
  apply (map_crlf (66, 67, B"C") (B"!42 U+0043 C") (B"!43 U+0066 f" ++ [10]) [(67, 102, B"f")]).
  { entry 52 50 48 48 52 51 (B"C") 4 2 0 0 4 3. }
  apply (map_lf (67, 102, B"f") (B"!43 U+0066 f") [] []); [|constructor]. entry 52 51 48 48 54 54 (B"f") 4 3 0 0 6 6.
Qed.
Lemma case_ref_ok : map_file case_ref case_cp.
Proof.
  apply (map_lf (65, 65, B"A") (B"!41 U+0041 A") (B"!44 U+0044 D" ++ [10]) [(68, 68, B"D")]).
  { entry 52 49 48 48 52 49 (B"A") 4 1 0 0 4 1. }
  apply (map_lf (68, 68, B"D") (B"!44 U+0044 D") [] []); [|constructor]. entry 52 52 48 48 52 52 (B"D") 4 4 0 0 4 4.
Qed.

(** ** A run *)
Definition case_path : bytes := B"f/my font.TTF".
Lemma case_named : font_path case_path (B"my font") /\ ttf_named case_path.
Proof.
  split.
  - exists (B"f/"), (B"TTF"). split; [reflexivity|]. split; [right; exists (B"f"); reflexivity|]. split; [reflexivity|]. change (B"TTF") with [84; 84; 70]. intros [X|[X|[X|[]]]]; lia.
  - exists (B"f/my font"), (B"TTF"). split; reflexivity.
Qed.
Lemma case_bytes : Forall bytep case_font. Proof. apply small_bytes. vm_compute. reflexivity. Qed.
Lemma case_len : blen case_font < 4611686018427387904. Proof. vm_compute. reflexivity. Qed.
Lemma case_apart : segments_apart case_font. Proof. apply apart_ok. vm_compute. reflexivity. Qed.
Lemma case_units : units_per_em case_font 2000. Proof. apply (field_at_ok u16 case_font (B"head") 18). vm_compute. reflexivity. Qed.
Lemma case_count : num_glyphs case_font 5. Proof. apply (field_at_ok u16 case_font (B"maxp") 4). vm_compute. reflexivity. Qed.
Lemma case_licence : os2_u16 case_font 8 8. Proof. apply (field_at_ok u16 case_font (B"OS/2") 8). vm_compute. reflexivity. Qed.
Lemma case_psname : postscript_name case_font (B"Font2000"). Proof. apply name_of_ok. vm_compute. reflexivity. Qed.
Lemma case_parses : exists t, parseTtf case_font = Ok t. Proof. eexists. vm_compute. reflexivity. Qed.
Lemma case_glyphs : forall c uv x, 0 <= c < 256 -> code_entry case_es c = (uv, x) -> x <> B".notdef" -> uv <> 65535 /\ exists g, bmp_glyph case_font uv g /\ 0 <= g < 5.
Proof.
  intros c uv x _ E N. unfold code_entry, case_es in E. cbn [fold_left] in E.
  assert (G : uv = 65 \/ uv = 67 \/ uv = 102).
  { destruct (67 =? c); [right; right; congruence|]. destruct (66 =? c); [right; left; congruence|]. destruct (65 =? c); [left; congruence|]. exfalso. apply N. congruence. }
  split; [lia|]. destruct G as [->|[->| ->]].
  - exists 1. split; [apply bmp_of_ok; vm_compute; reflexivity|lia].
  - exists 4. split; [apply bmp_of_ok; vm_compute; reflexivity|lia].
  - exists 0. split; [apply bmp_of_ok; vm_compute; reflexivity|lia].
Qed.
Lemma case_reads : case_read case_path case_font case_path = Some case_font /\ case_read case_path case_font (B"m" ++ B"/" ++ B"x" ++ B".map") = Some case_map /\
  case_read case_path case_font (B"m" ++ B"/cp1252.map") = Some case_ref.
Proof. vm_compute. auto. Qed.
Lemma case_works : o_res (case_run case_path case_font) = Ok tt.
Proof.
  destruct case_named as (N1 & N2). destruct case_parses as (t & Pt). destruct case_reads as (R1 & R2 & R3). unfold case_run.
  refine (make_font_works (case_read case_path case_font) all_written short_z case_path (B"m") (B"x") (B"out") (B"my font") case_font t case_map case_es case_ref case_cp 5 8
    N1 N2 _ R1 R2 case_map_ok R3 case_ref_ok (fun p b => eq_refl) case_bytes case_len case_apart Pt case_count _ case_licence _ _ case_glyphs); [discriminate|lia|lia|reflexivity].
Qed.
Lemma case_made : exists text l, o_files (case_run case_path case_font) = [(B"out/my_font.z", short_z case_font); (B"out/my_font.font.go", text)] /\
  go_file text = Some l /\ describes case_font case_es case_cp (B"x") l (B"My_font").
Proof.
  destruct case_named as (N1 & N2). destruct case_reads as (R1 & R2 & R3). pose proof case_works as W. unfold case_run in *.
  assert (I : identifier (capital (no_spaces (B"my font")))) by (exists 77, (B"y_font"); split; [reflexivity|]; split; reflexivity).
  destruct (make_font_ok (case_read case_path case_font) all_written short_z case_path (B"m") (B"x") (B"out") (B"my font") case_font case_map case_es case_ref case_cp (B"Font2000") 2000
    N1 R1 R2 case_map_ok R3 case_ref_ok case_bytes case_len case_apart case_units ltac:(lia) case_psname eq_refl eq_refl I W) as (text & l & F & G & D).
  exists text, l. split; [rewrite F; reflexivity|]. split; [exact G|exact D].
Qed.
Definition run_text (path font : bytes) : bytes := match o_files (case_run path font) with [_; (_, t)] => t | _ => [] end.
Definition run_stmts (path font : bytes) : list stmt := match go_file (run_text path font) with Some l => l | None => [] end.
Lemma case_values : go_file (run_text case_path case_font) = Some (run_stmts case_path case_font) /\
  let l := run_stmts case_path case_font in let ty := B"My_font" in
  item_list l ty = [Some (B"Ascent", B"800"); Some (B"Descent", B"-200"); Some (B"CapHeight", B"701"); Some (B"Flags", B"96"); Some (B"FontBBox", B"[0 -18 250 350]");
    Some (B"ItalicAngle", B"-10"); Some (B"StemV", B"120"); Some (B"MissingWidth", B"250")] /\
  map (width_result l ty) [64; 65; 66; 67; 68] = [Some 250; Some 300; Some 450; Some 250; Some 250] /\
  str_result l ty (B"GetDiff") = Some (B"66 /C /f /.notdef") /\ int_result l ty (B"GetUp") = Some (-75) /\ int_result l ty (B"GetUt") = Some 51.
Proof. vm_compute. repeat (split; [reflexivity|]). reflexivity. Qed.

(** ** What goes wrong *)
(** The number that GetOriginalsize returns, and the name *)
Lemma size_wrong : exists l, go_file (run_text case_path case_font) = Some l /\ int_result l (B"My_font") (B"GetOriginalsize") = Some 98764 /\ blen case_font = 594 /\
  postscript_name case_font (B"Font2000") /\ str_result l (B"My_font") (B"GetName") = Some (B"Font2").
Proof.
  exists (run_stmts case_path case_font). split; [vm_compute; reflexivity|]. split; [vm_compute; reflexivity|]. split; [vm_compute; reflexivity|]. split; [exact case_psname|]. vm_compute. reflexivity.
Qed.
Definition quoted_font : bytes := Eval vm_compute in c_font (B"a""b") 8 0 0.
Lemma quote_wrong : postscript_name quoted_font (B"a""b") /\ o_res (case_run (B"f.ttf") quoted_font) = Ok tt /\ go_file (run_text (B"f.ttf") quoted_font) = None.
Proof. split; [apply name_of_ok; vm_compute; reflexivity|]. split; vm_compute; reflexivity. Qed.
Definition no_type (s : stmt) : bool := match s with SType _ | SFunc _ _ => false | _ => true end.
Lemma no_type_in : forall l, forallb no_type l = true -> forall ty m, ~ In (SType ty) l /\ ~ In (SFunc ty m) l.
Proof. intros l A ty m. rewrite forallb_forall in A. split; intros X; specialize (A _ X); discriminate. Qed.
Lemma hyphen_wrong : exists l, o_res (case_run (B"my-font.ttf") case_font) = Ok tt /\ go_file (run_text (B"my-font.ttf") case_font) = Some l /\ forall ty m, ~ In (SType ty) l /\ ~ In (SFunc ty m) l.
Proof.
  exists (run_stmts (B"my-font.ttf") case_font). split; [vm_compute; reflexivity|]. split; [vm_compute; reflexivity|].
  apply no_type_in. vm_compute. reflexivity.
Qed.
(** A difference at code 1 and none at code 0 *)
Definition one_map : bytes := B"!01 U+0041 A" ++ [10].
Definition one_read (p : bytes) : option bytes :=
  if beqb p (B"f.ttf") then Some case_font else if beqb p (B"m/x.map") then Some one_map else if beqb p (B"m/cp1252.map") then Some case_ref else None.
Definition one_run : outcome := make_font one_read all_written short_z (B"f.ttf") (B"m") (B"x") (B"out").
Definition one_text : bytes := match o_files one_run with [_; (_, t)] => t | _ => [] end.
Definition one_stmts : list stmt := match go_file one_text with Some l => l | None => [] end.
Lemma one_map_ok : map_file one_map [(1, 65, B"A")].
Proof. apply (map_lf (1, 65, B"A") (B"!01 U+0041 A") [] []); [|constructor]. entry 48 49 48 48 52 49 (B"A") 0 1 0 0 4 1. Qed.
Lemma one_values : o_res one_run = Ok tt /\ go_file one_text = Some one_stmts /\ str_result one_stmts (B"F") (B"GetDiff") = Some (B"/A 65 /.notdef 68 /.notdef").
Proof. vm_compute. repeat (split; [reflexivity|]). reflexivity. Qed.
Lemma one_wrong : exists l t, map_file one_map [(1, 65, B"A")] /\ o_res one_run = Ok tt /\ go_file one_text = Some l /\ str_result l (B"F") (B"GetDiff") = Some t /\
  forall base enc, ~ makes t base enc.
Proof.
  destruct one_values as (V1 & V2 & V3). exists one_stmts, (B"/A 65 /.notdef 68 /.notdef"). split; [exact one_map_ok|]. split; [exact V1|]. split; [exact V2|]. split; [exact V3|].
  intros base enc (l & ds & R & D & _).
  assert (R' : reads (B"[" ++ B"/A 65 /.notdef 68 /.notdef" ++ B"]") (PArr [PName (B"A"); PInt 65; PName (B".notdef"); PInt 68; PName (B".notdef")]) []) by (exists 10%nat; vm_compute; reflexivity).
  destruct (reads_unique _ _ _ _ _ R R') as (E & _). assert (l = [PName (B"A"); PInt 65; PName (B".notdef"); PInt 68; PName (B".notdef")]) by congruence. subst l. discriminate D.
Qed.
(** A line of a map file that is empty *)
Definition blank_read (p : bytes) : option bytes :=
  if beqb p (B"f.ttf") then Some case_font else if beqb p (B"m/x.map") then Some (case_map ++ [10]) else if beqb p (B"m/cp1252.map") then Some case_ref else None.
Lemma blank_wrong : o_res (make_font blank_read all_written short_z (B"f.ttf") (B"m") (B"x") (B"out")) = Panic.
Proof. vm_compute. reflexivity. Qed.
(** A licence of restricted use that does not permit subsets either *)
Definition locked_font : bytes := Eval vm_compute in c_font (B"T") 258 0 0.
Lemma licence_wrong : restricted locked_font /\ o_res (case_run (B"f.ttf") locked_font) = Ok tt.
Proof. split; [|vm_compute; reflexivity]. exists 258. split; [apply (field_at_ok u16 locked_font (B"OS/2") 8); vm_compute; reflexivity|]. left. repeat split. Qed.
(** Files that are left: no cp1252.map, and a font file without a name *)
Definition no_ref_read (p : bytes) : option bytes := if beqb p (B"f.ttf") then Some case_font else if beqb p (B"m/x.map") then Some case_map else None.
Lemma left_wrong : exists e, let o := make_font no_ref_read all_written short_z (B"f.ttf") (B"m") (B"x") (B"out") in
  o_res o = Err e /\ o_files o = [(B"out/f.z", short_z case_font)].
Proof. eexists. vm_compute. split; reflexivity. Qed.
Lemma nameless_wrong : let o := case_run (B".ttf") case_font in o_res o = Panic /\ o_files o = [(B"out/.z", short_z case_font)].
Proof. vm_compute. split; reflexivity. Qed.
(** Three refusals *)
Definition barred_font : bytes := Eval vm_compute in c_font (B"T") 2 0 0.
Lemma refusal_case : os2_u16 barred_font 8 2 /\ (exists e, o_res (case_run (B"f.ttf") barred_font) = Err e) /\ o_files (case_run (B"f.ttf") barred_font) = [] /\
  ~ ttf_named (B"f.otf") /\ exists e, o_res (case_run (B"f.otf") case_font) = Err e.
Proof.
  split; [apply (field_at_ok u16 barred_font (B"OS/2") 8); vm_compute; reflexivity|]. split; [eexists; vm_compute; reflexivity|]. split; [vm_compute; reflexivity|]. split; [|eexists; vm_compute; reflexivity].
  intros H. apply ttf_ext in H. discriminate H.
Qed.
