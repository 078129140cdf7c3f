(** Concrete cases for Prop_Place.v. *)
From Coq Require Import String List ZArith Lia Bool Reals Lra.
From Coq.Floats Require Import SpecFloat.
From Flocq Require Import Core.Core IEEE754.BinarySingleNaN.
From Verif Require Import Base BaseProofs Utf8 PdfSyntax PdfSyntaxProofs Float64 Ttf TtfSpec TtfProofs TtfTables Subset CharMap TestFont Text TextSpec TextPlaceSpec FloatReal
  TextNumbers TextDraw TextFinal TextCases TextCases2 TextPlace TextPlace2 TextPlaced.
Open Scope Z_scope.
Open Scope list_scope.

Definition paperb (x : f64) : bool :=
  valid_binary 53 1024 x && match x with S754_zero _ => true | S754_finite _ m e => (e <=? 0) && (Z.pos m <=? 1000000 * 2 ^ (- e)) | _ => false end.
Lemma paperb_on : forall x, paperb x = true -> on_paper x.
Proof.
  intros x H. apply andb_true_iff in H as (V & H). destruct x as [s|s| |s m e]; try discriminate.
  - split; [exact V|]. split; [exact Logic.I|]. unfold val. cbn [SF2R]. rewrite Rabs_R0. lra.
  - apply andb_true_iff in H as (He & Hm). split; [exact V|]. split; [exact Logic.I|]. unfold val, SF2R, F2R. cbn [Fnum Fexp].
    rewrite Rabs_mult, <- abs_IZR, abs_cond_Zopp, (Rabs_pos_eq (bpow radix2 e)) by apply bpow_ge_0. rewrite Z.abs_eq by lia.
    apply Z.leb_le in Hm. apply IZR_le in Hm. rewrite mult_IZR in Hm. change 2 with (radix_val radix2) in Hm. rewrite (IZR_Zpower radix2 (- e)) in Hm by lia.
    apply Rmult_le_reg_r with (bpow radix2 (- e)); [apply bpow_gt_0|]. rewrite Rmult_assoc, <- bpow_plus. replace (e + - e)%Z with 0%Z by lia. change (bpow radix2 0) with 1%R. rewrite Rmult_1_r. exact Hm.
Qed.

Definition lined_font : bytes := Eval vm_compute in
  font_file (map (fun x => if beqb (fst x) (B"post") then (fst x, zs 8 ++ w2 65386 ++ w2 100 ++ zs 20)
                           else if beqb (fst x) (B"OS/2") then (fst x, zs 68 ++ w2 1600 ++ w2 65136 ++ zs 6) else x) (tables_of 2000 5)).
Definition lined_ttf : ttf := Eval vm_compute in the (parseTtf lined_font).
Definition lined (text : bytes) : sfont := mkSfont lined_ttf (fst (add_chars lined_ttf text [])) None None.
Definition cell (text : bytes) (style align : Z) (line : Z) : ctext :=
  mkText text None style 12 1 (fofz 10) (fofz 20) (fofz 200) (fofz 100) align (fofz line) (fconst 84189 100).

Lemma lined_ready : forall text,
  (match add_chars lined_ttf text [] with (_, Ok _) => true | _ => false end && forallb (fun r => match glyph_index lined_ttf r with Ok g => (0 <=? g) && (g <? 65536) && (match adv_of lined_font g with Some _ => true | None => false end) | _ => true end) (runes text)) = true ->
  font_ready lined_font (lined text) text.
Proof.
  intros text H. apply andb_true_iff in H as (H1 & H2). split; [apply small_bytes; vm_compute; reflexivity|]. split; [vm_compute; reflexivity|]. split; [vm_compute; reflexivity|]. split.
  - exists 2000. split; [|lia]. destruct (locate lined_font (B"head")) as [[h0 hl]|] eqn:E; [|vm_compute in E; discriminate].
    exists h0, hl. split; [apply locate_ok; exact E|]. vm_compute in E. injection E as <- _. vm_compute. reflexivity.
  - split.
    + exists [], []. split; [reflexivity|]. cbn [add_texts sf_ttf lined]. destruct (add_chars lined_ttf text []) as (m, [[]|e| |]); [reflexivity|discriminate..].
    + intros r g Hr E. rewrite forallb_forall in H2. specialize (H2 r Hr). cbn [sf_ttf lined] in E. rewrite E in H2. apply andb_true_iff in H2 as (H2 & H3). split; [lia|].
      destruct (adv_of lined_font g) as [w|] eqn:A; [|discriminate]. exists w. apply adv_ok. exact A.
Qed.

Lemma cell_is : forall text style align line, paperb (fofz line) = true -> cell_ok (cell text style align line).
Proof.
  intros text style align line H. constructor; unfold cell; cbn [ct_x ct_y ct_w ct_h ct_line ct_height ct_size]; try (apply paperb_on; vm_compute; reflexivity); [|lia].
  apply paperb_on. exact H.
Qed.

Lemma lined_set : forall style align, set_in lined_font (lined (B"AB")) (cell (B"AB") style align 1) 2000 1600 (-400) (-150) 100.
Proof.
  intros style align. constructor.
  - apply lined_ready. vm_compute. reflexivity.
  - destruct (locate lined_font (B"head")) as [[h hl]|] eqn:E; [|vm_compute in E; discriminate]. exists h, hl. split; [apply locate_ok; exact E|]. vm_compute in E. injection E as <- _. vm_compute. reflexivity.
  - destruct (locate lined_font (B"OS/2")) as [[h hl]|] eqn:E; [|vm_compute in E; discriminate]. exists h, hl. split; [apply locate_ok; exact E|]. vm_compute in E. injection E as <- _. split; vm_compute; reflexivity.
  - destruct (locate lined_font (B"post")) as [[h hl]|] eqn:E; [|vm_compute in E; discriminate]. exists h, hl. split; [apply locate_ok; exact E|]. vm_compute in E. injection E as <- _. split; vm_compute; reflexivity.
  - lia.
  - apply cell_is. vm_compute. reflexivity.
  - intros w Hw. vm_compute in Hw. injection Hw as <-. apply paperb_on. vm_compute. reflexivity.
  - exact Logic.I.
Qed.

(** Bottom right, underlined, with a border. *)
Lemma placed_case : exists o s2 fill, text_stream (lined (B"AB")) 1 (cell (B"AB") 4 3 1) = Ok o /\
  draws o plain_state s2 [Glyph 1 (B"F1") 1200 0 fill (20220, 72429); Glyph 2 (B"F1") 1200 0 fill (20220, 72429);
    Filled [(1000, 81259); (21000, 81259); (21000, 81199); (1000, 81199)] fill;
    Stroke [(950, 82189); (21050, 82189)] 100 ([], 0); Stroke [(1000, 82189); (1000, 72189)] 100 ([], 0);
    Stroke [(21000, 82189); (21000, 72189)] 100 ([], 0); Stroke [(950, 72189); (21050, 72189)] 100 ([], 0)].
Proof. do 3 eexists. split; [vm_compute; reflexivity|]. drawcase. Qed.

(** The underline is at the upper edge of the cell when the text is at the lower
    one: more than seven times the font size away. *)
Lemma underline_apart : exists d f c u a b up uh o s2 ms x y w h fill, set_in d f c u a b up uh /\ text_stream f 1 c = Ok o /\
  draws o plain_state s2 (ms ++ [Filled [(x, y); (x + w, y); (x + w, y - h); (x, y - h)] fill]) /\
  Exists (fun m => match m with Glyph _ _ size _ _ (gx, gy) => 7 * size <= y - gy /\ x + 19000 <= gx | _ => False end) ms.
Proof.
  exists lined_font, (lined (B"AB")), (mkText (B"AB") None 4 12 1 (fofz 10) (fofz 20) (fofz 200) (fofz 100) 3 (fofz 0) (fconst 84189 100)), 2000, 1600, (-400), (-150), 100.
  do 2 eexists. exists [Glyph 1 (B"F1") 1200 0 (0, 0, 0) (20220, 72429); Glyph 2 (B"F1") 1200 0 (0, 0, 0) (20220, 72429)], 1000, 81259, 20000, 60, (0, 0, 0). split; [|split; [vm_compute; reflexivity|split]].
  - destruct (lined_set 4 3) as [R U L Un Th C W Ri]. constructor; try assumption. apply (cell_is (B"AB") 4 3 0). vm_compute. reflexivity.
  - drawcase.
  - left. lia.
Qed.

Lemma img_case : on_paper (fofz 100) /\ draws (img_stream (fofz 100) (fofz 50) (fofz 10) (fofz 20) (fconst 84189 100) (B"Im") 3) plain_state plain_state
  [Image (B"Im3") (Some (10000, 0, 0, 5000, 1000, 77189))].
Proof. split; [apply paperb_on; vm_compute; reflexivity|]. drawcase. Qed.
