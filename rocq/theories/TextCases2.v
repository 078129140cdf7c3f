(** More statements of Prop_Text.v, and its concrete cases. *)
From Coq Require Import String List ZArith Lia Bool.
From Coq.Floats Require Import SpecFloat.
From Verif Require Import Base BaseProofs Utf8 Utf8Proofs PdfSyntax PdfSyntaxProofs Float64 Ttf TtfSpec TtfProofs TtfTables Subset CharMap TestFont Text TextSpec TextNumbers TextDraw TextBody TextContent TextFinal TextCases Wrap WrapProofs.
Open Scope Z_scope.
Open Scope list_scope.

Lemma text_codes : forall d f index c s, font_ready d f (ct_text c) -> drawable f c -> g_text s = false ->
  exists o s2 ms tail w gs, text_stream f index c = Ok o /\ draws o s s2 (ms ++ tail) /\ g_text s2 = false /\ Forall no_glyph tail /\
    measure f (ct_size c) (ct_text c) = Ok w /\
    codes_of ms = gs /\ Forall2 (char_glyph d) (runes (ct_text c)) gs /\
    Forall (fun m => match m with
                     | Glyph _ font size _ _ start => font = B"F" ++ itoa index /\ size = 100 * ct_size c /\
                         near (cal_x c (ct_w c) w) (fst start) /\ near (cal_y (sf_ttf f) c (ct_h c)) (snd start)
                     | Adjust _ => True
                     | _ => False
                     end) ms.
Proof.
  intros d f index c s R D T. destruct (text_shown d f index c s R D T) as (o & s2 & l & w & u & fill & rise & px & py & tail & E1 & E2 & E3 & E4 & E5 & E6 & E7 & E8 & E9 & E10 & E11 & E12 & E13 & E14).
  exists o, s2. eexists. exists tail, w, (map snd l). split; [exact E1|]. split; [exact E7|]. split; [exact E13|]. split; [exact E12|]. split; [exact E2|].
  split; [apply codes_shown|]. split.
  - rewrite <- E5. clear - E6. induction E6; cbn [map]; constructor; assumption.
  - apply all_shown; [|intros; exact Logic.I]. intros g z. cbn [fst snd]. auto.
Qed.

Lemma text_overrides : forall d f index c s, font_ready d f (ct_text c) -> drawable f c -> g_text s = false ->
  exists o s2 l u fill start rise tail, text_stream f index c = Ok o /\ units_per_em d u /\ map fst l = runes (ct_text c) /\
    draws o s s2 (shown (fun g z => Glyph g (B"F" ++ itoa index) (100 * ct_size c) z fill start)
      (fun prev x => match sf_kern f, prev with Some k, Some p => Z.quot (1000 * k (fst p) (fst x) (snd p) (snd x) 0) u | _, _ => 0 end) rise None 0 l ++ tail) /\
    Forall no_glyph tail /\
    forall prev r k, match sf_rise f with
                     | Some h => near (h (match prev with Some p => fst p | None => 0 end) r (ct_size c) (ct_text c) k) (rise prev r k)
                     | None => rise prev r k = g_rise s
                     end.
Proof.
  intros d f index c s R D T. destruct (text_shown d f index c s R D T) as (o & s2 & l & w & u & fill & rise & px & py & tail & E1 & E2 & E3 & E4 & E5 & E6 & E7 & E8 & E9 & E10 & E11 & E12 & E13 & E14).
  exists o, s2, l, u, fill, (px, py), rise, tail. repeat (split; [assumption|]). exact E10.
Qed.

Lemma text_colour : forall d f index c s, font_ready d f (ct_text c) -> drawable f c -> g_text s = false ->
  (forall r g b, ct_color c = Some (r, g, b) -> (0 <= r < 256 /\ 0 <= g < 256 /\ 0 <= b < 256) /\ (r + g + b) mod 256 <> 0) ->
  exists o s2 ms fr fg fb, text_stream f index c = Ok o /\ draws o s s2 ms /\
    Forall (fun m => match m with Glyph _ _ _ _ fill _ => fill = (fr, fg, fb) | _ => True end) ms /\
    match ct_color c with
    | Some (r, g, b) => Z.abs (255 * fr - 100 * r) <= 127 /\ Z.abs (255 * fg - 100 * g) <= 127 /\ Z.abs (255 * fb - 100 * b) <= 127
    | None => (fr, fg, fb) = (0, 0, 0)
    end.
Proof.
  intros d f index c s R D T HC. destruct (text_shown d f index c s R D T) as (o & s2 & l & w & u & fill & rise & px & py & tail & E1 & E2 & E3 & E4 & E5 & E6 & E7 & E8 & E9 & E10 & E11 & E12 & E13 & E14).
  exists o, s2. eexists. exists (fst (fst fill)), (snd (fst fill)), (snd fill). split; [exact E1|]. split; [exact E7|]. split.
  - apply Forall_app. split; [apply all_shown; [intros; destruct fill as [[? ?] ?]; reflexivity|intros; exact Logic.I]|].
    eapply Forall_impl; [|exact E12]. intros [] H; try exact Logic.I. contradiction.
  - destruct (ct_color c) as [[[r g] b]|] eqn:Ec.
    + destruct (HC r g b eq_refl) as ((H1 & H2 & H3) & HN). cbn [rgb_of] in E11. rewrite (Z.mod_small r), (Z.mod_small g), (Z.mod_small b) in E11 by lia.
      cbn [has_colour colour_of] in E11. destruct (Z.eqb_spec ((r + g + b) mod 256) 0); [contradiction|]. cbn [negb] in E11. subst fill. cbn [fst snd].
      split; [|split]; apply colour_near; assumption.
    + subst fill. vm_compute. reflexivity.
Qed.

Lemma hasbit_test : forall a, hasbit a uUnderline = Z.testbit a 2.
Proof.
  intros a. unfold hasbit, uUnderline. destruct (Z.testbit a 2) eqn:E.
  - apply Z.eqb_eq. apply Z.bits_inj'. intros n Hn. rewrite Z.land_spec. change 4 with (2 ^ 2). rewrite Z.pow2_bits_eqb by lia.
    destruct (Z.eqb_spec 2 n); [subst; rewrite E; reflexivity|apply andb_false_r].
  - apply Z.eqb_neq. intros H. assert (X : Z.testbit (Z.land a 4) 2 = true) by (rewrite H; reflexivity). rewrite Z.land_spec, E in X. discriminate.
Qed.

Lemma text_decoration : forall d f index c s, font_ready d f (ct_text c) -> drawable f c -> g_text s = false ->
  exists o s2 ms ul br, text_stream f index c = Ok o /\ draws o s s2 (ms ++ ul ++ br) /\
    Forall (fun m => match m with Glyph _ _ _ _ _ _ | Adjust _ => True | _ => False end) ms /\
    (if Z.testbit (ct_style c) 2
     then exists x y w h fill, ul = [Filled [(x, y); (x + w, y); (x + w, y - h); (x, y - h)] fill] /\
            near (ct_x c) x /\ near (ul_y (sf_ttf f) c) y /\ near (fsub (fadd (ct_x c) (ct_w c)) (ct_x c)) w /\ near (ul_h (sf_ttf f) c) h
     else ul = []) /\
    (if fgt (ct_line c) (fofz 0)
     then let off := fmul (ct_line c) half in let top := fsub (ct_height c) (ct_y c) in let bot := fsub top (ct_h c) in let xr := fadd (ct_x c) (ct_w c) in
          exists x0 x1 x2 x3 y0 y1, br = map (fun p => Stroke p (g_line s) (g_dash s)) [[(x0, y0); (x3, y0)]; [(x1, y0); (x1, y1)]; [(x2, y0); (x2, y1)]; [(x0, y1); (x3, y1)]] /\
            near (fsub (ct_x c) off) x0 /\ near (ct_x c) x1 /\ near xr x2 /\ near (fadd xr off) x3 /\ near top y0 /\ near bot y1
     else br = []).
Proof.
  intros d f index c s RD (Dx & Dy & Dr & Du & Db) T. pose proof (ready_glyphs _ _ _ RD) as (Hu & l & L1 & L2 & L3).
  set (sum := sum_of f None l). assert (M : measure f (ct_size c) (ct_text c) = Ok (scale_width sum (ct_size c))).
  { unfold measure. rewrite (content_eq f (ct_size c) (ct_text c) l Hu L1 L2). reflexivity. }
  destruct (text_drawn f index c l s Hu L1 L2 Dr (Dx _ M) Dy Du Db T) as (o & s2 & E1 & E2 & _ & _). fold sum in E2.
  set (s1 := text_state f index c sum s) in *. exists o, s2. eexists. exists (ul_marks f c s1), (border_marks c s1).
  split; [exact E1|]. split; [exact E2|]. split; [apply all_shown; intros; exact Logic.I|]. split.
  - rewrite <- hasbit_test. unfold ul_marks, ul_fin in *. destruct (hasbit (ct_style c) uUnderline); [|reflexivity].
    destruct (Du eq_refl) as (F & _ & _). inversion F as [|? ? Fx F']; subst. inversion F' as [|? ? Fy F'']; subst. inversion F'' as [|? ? Fw F3]; subst. inversion F3 as [|? ? Fh _]; subst.
    exists (cents (ct_x c)), (cents (ul_y (sf_ttf f) c)), (cents (ul_w c (ct_w c))), (cents (ul_h (sf_ttf f) c)), (g_fill s1).
    split; [unfold rect; rewrite !Z.add_opp_r; reflexivity|]. split; [|split; [|split]]; apply cents_num; assumption.
  - unfold border_marks, border_fin in *. destruct (fgt (ct_line c) (fofz 0)); [|reflexivity]. specialize (Db eq_refl). unfold border_lines in *. cbv zeta in *.
    inversion Db as [|? ? F1 D1]; subst. inversion D1 as [|? ? F2 D2]; subst. inversion D2 as [|? ? F3 D3]; subst. inversion D3 as [|? ? F4 D4]; subst. cbn [four] in *.
    inversion F1 as [|? ? A1 B1]; subst. inversion B1 as [|? ? A2 B2]; subst. inversion B2 as [|? ? A3 B3]; subst.
    inversion F2 as [|? ? C1 G1]; subst. inversion G1 as [|? ? C2 G2]; subst. inversion G2 as [|? ? C3 G3]; subst. inversion G3 as [|? ? C4 _]; subst.
    inversion F3 as [|? ? K1 _]; subst.
    do 6 eexists. split; [cbn [map stroke_of]; reflexivity|]. split; [|split; [|split; [|split; [|split]]]]; apply cents_num; assumption.
Qed.

Lemma measure_history : forall t k h before before' size text,
  snd (measure_text (mkSfont t (add_texts t before []) k h) size text) = snd (measure_text (mkSfont t (add_texts t before' []) k h) size text).
Proof.
  intros t k h before before' size text. set (f := mkSfont t (add_texts t before []) k h). set (f' := mkSfont t (add_texts t before' []) k h).
  destruct (measure_text f size text) as (f1, v1) eqn:E1. destruct (measure_text f' size text) as (f2, v2) eqn:E2.
  destruct (measure_text_eq f size text f1 v1) as (_ & _ & ->); [apply (add_texts_good t before [] (good_nil t))|exact E1|].
  destruct (measure_text_eq f' size text f2 v2) as (_ & _ & ->); [apply (add_texts_good t before' [] (good_nil t))|exact E2|]. reflexivity.
Qed.

Lemma chain_at : forall f size w p a b q, chain f size w (p ++ a :: b :: q) -> breaks f size w a b.
Proof.
  intros f size w. induction p as [|x p IH]; intros a b q H; [apply H|]. destruct p as [|y p].
  - cbn [app chain] in H. apply H.
  - apply (IH a b q). change (breaks f size w x y /\ chain f size w ((y :: p) ++ a :: b :: q)) in H. apply H.
Qed.
Lemma wrap_groups_of : forall t k h before size w y align toks f' lines,
  let f := mkSfont t (add_texts t before []) k h in
  wrap_lines f size w y align toks = (f', Ok lines) ->
  exists groups off, List.concat groups = filter nonempty toks /\ map fst lines = map (fun g => trim_space (List.concat g)) groups /\
    Forall (fun g => (2 <= List.length g)%nat -> exists v, width_of f size (List.concat g) = Ok v /\ fgt v w = false) groups /\
    (forall p a b q, groups = p ++ a :: b :: q -> exists x v, hd_error b = Some x /\ width_of f size (List.concat a ++ x) = Ok v /\ fgt v w = true) /\
    map snd lines = map (fun z => fsub z off) (steps (List.length groups) y (fadd (fofz size) (fmul (fofz size) (fconst 2 10)))) /\
    (hasbit align aMiddle = false -> off = fofz 0).
Proof.
  intros t k h before size w y align toks f' lines f H. destruct (wrap_spec f size w y align toks f' lines) as (groups & off & H1 & H2 & H3 & H4 & H5 & H6); [apply (add_texts_good t before [] (good_nil t))|exact H|].
  exists groups, off. split; [exact H1|]. split; [exact H2|]. split; [exact H3|]. split; [|split; [exact H5|exact H6]].
  intros p a b q E. rewrite E in H4. apply chain_at in H4. destruct b as [|x b]; [contradiction|]. destruct H4 as (v & V1 & V2). exists x, v. auto.
Qed.
Lemma wrap_text : forall t k h before size w y align text f' lines, valid_utf8 text ->
  wrap_lines (mkSfont t (add_texts t before []) k h) size w y align (break_text text) = (f', Ok lines) -> joined (map fst lines) text.
Proof.
  intros t k h before size w y align text f' lines V H. destruct (wrap_groups_of _ _ _ _ _ _ _ _ _ _ _ H) as (groups & off & H1 & H2 & _).
  rewrite H2. rewrite <- (break_valid text V), <- concat_filter, <- H1. apply joined_groups.
Qed.

(** ** Cases *)

Definition test_sfont (text : bytes) (k : option kernfn) (h : option risefn) : sfont := mkSfont test_ttf (fst (add_chars test_ttf text [])) k h.
Definition test_text (text : bytes) (col : option (Z * Z * Z)) : ctext :=
  mkText text col 0 12 1 (fofz 10) (fofz 20) (fofz 100) (fofz 20) 0 (fofz 0) (fconst 84189 100).
Definition decorated (text : bytes) : ctext := mkText text None 4 12 1 (fofz 10) (fofz 20) (fofz 100) (fofz 20) 0 (fofz 1) (fconst 84189 100).
Definition plain_state : gstate := mkG (0, 0, 0) [] 0 0 (0, 0) false 100 ([], 0) [] None.
Definition red_state : gstate := mkG (100, 0, 0) [] 0 0 (0, 0) false 100 ([], 0) [] None.

Definition adv_of (d : bytes) (g : Z) : option Z :=
  match locate d (B"hhea"), locate d (B"hmtx") with
  | Some (h, _), Some (x, _) => match u16 d (h + 34) with Some n => if 0 <? n then u16 d (x + 4 * Z.min g (n - 1)) else None | None => None end
  | _, _ => None
  end.
Lemma adv_ok : forall d g w, adv_of d g = Some w -> advance d g w.
Proof.
  intros d g w H. unfold adv_of in H. destruct (locate d (B"hhea")) as [[h hl]|] eqn:E1; [|discriminate]. destruct (locate d (B"hmtx")) as [[x xl]|] eqn:E2; [|discriminate].
  destruct (u16 d (h + 34)) as [n|] eqn:E3; [|discriminate]. destruct (Z.ltb_spec 0 n); [|discriminate]. exists h, hl, x, xl, n. repeat (split; [first [apply locate_ok; assumption|assumption]|]). assumption.
Qed.
Lemma test_ready : forall text k h,
  (match add_chars test_ttf text [] with (_, Ok _) => true | _ => false end && forallb (fun r => match glyph_index test_ttf r with Ok g => (0 <=? g) && (g <? 65536) && (match adv_of test_font g with Some _ => true | None => false end) | _ => true end) (runes text)) = true ->
  font_ready test_font (test_sfont text k h) text.
Proof.
  intros text k h H. apply andb_true_iff in H as (H1 & H2). split; [exact test_bytes|]. split; [vm_compute; reflexivity|]. split; [exact test_parses|]. split.
  - exists 2000. split; [|lia]. destruct (locate test_font (B"head")) as [[h0 hl]|] eqn:E; [|vm_compute in E; discriminate].
    exists h0, hl. split; [apply locate_ok; exact E|]. vm_compute in E. injection E as <- _. vm_compute. reflexivity.
  - split.
    + exists [], []. split; [reflexivity|]. cbn [add_texts sf_ttf test_sfont]. destruct (add_chars test_ttf text []) as (m, [[]|e| |]); [reflexivity|discriminate..].
    + intros r g Hr E. rewrite forallb_forall in H2. specialize (H2 r Hr). cbn [sf_ttf test_sfont] in E. rewrite E in H2. apply andb_true_iff in H2 as (H2 & H3). split; [lia|].
      destruct (adv_of test_font g) as [w|] eqn:A; [|discriminate]. exists w. apply adv_ok. exact A.
Qed.

Ltac toks := repeat (eapply tokens_more; [exists 20%nat; vm_compute; reflexivity|]); apply tokens_end; vm_compute; reflexivity.
Ltac drawcase := eexists; split; [toks|vm_compute; reflexivity].

Lemma text_case : exists o s2 fill start, text_stream (test_sfont (B"AC" ++ [240; 159; 152; 128]) None None) 1 (test_text (B"AC" ++ [240; 159; 152; 128]) None) = Ok o /\
  font_ready test_font (test_sfont (B"AC" ++ [240; 159; 152; 128]) None None) (B"AC" ++ [240; 159; 152; 128]) /\
  draws o plain_state s2 [Glyph 1 (B"F1") 1200 0 fill start; Glyph 4 (B"F1") 1200 0 fill start; Glyph 1 (B"F1") 1200 0 fill start].
Proof. do 4 eexists. split; [vm_compute; reflexivity|]. split; [apply test_ready; vm_compute; reflexivity|]. drawcase. Qed.

Lemma overrides_case : exists o s2 fill start, text_stream (test_sfont (B"AB") (Some (fun _ _ _ _ _ => -100)) (Some (fun _ _ _ _ k => fofz k))) 1 (test_text (B"AB") None) = Ok o /\
  draws o plain_state s2 [Glyph 1 (B"F1") 1200 0 fill start; Adjust 5000; Glyph 2 (B"F1") 1200 100 fill start].
Proof. do 4 eexists. split; [vm_compute; reflexivity|]. drawcase. Qed.

Lemma rise_leaks : exists h c1 c2 o1 o2 s2 s3 fill start,
  text_stream (test_sfont (ct_text c1) None (Some h)) 1 c1 = Ok o1 /\ text_stream (test_sfont (ct_text c2) None None) 2 c2 = Ok o2 /\
  (exists ms, draws o1 plain_state s2 ms) /\ draws o2 s2 s3 [Glyph 1 (B"F2") 1200 500 fill start] /\ g_rise plain_state = 0.
Proof.
  exists (fun _ _ _ _ _ => fofz 5), (test_text (B"A") None), (test_text (B"A") None). do 6 eexists. split; [vm_compute; reflexivity|]. split; [vm_compute; reflexivity|].
  split; [eexists; drawcase|]. split; [drawcase|reflexivity].
Qed.

Lemma colour_inherited : forall rgb, rgb = (128, 128, 0) \/ rgb = (0, 0, 0) -> exists o s s2 start,
  text_stream (test_sfont (B"A") None None) 1 (test_text (B"A") (Some rgb)) = Ok o /\
  draws o s s2 [Glyph 1 (B"F1") 1200 0 (100, 0, 0) start].
Proof. intros rgb [->| ->]; eexists; exists red_state; do 2 eexists; (split; [vm_compute; reflexivity|]); drawcase. Qed.
Lemma colour_case : exists o s s2 start, text_stream (test_sfont (B"A") None None) 1 (test_text (B"A") (Some (255, 0, 51))) = Ok o /\
  g_fill s = (10, 20, 30) /\ draws o s s2 [Glyph 1 (B"F1") 1200 0 (100, 0, 20) start].
Proof. eexists. exists (mkG (10, 20, 30) [] 0 0 (0, 0) false 100 ([], 0) [] None). do 2 eexists. split; [vm_compute; reflexivity|]. split; [reflexivity|]. drawcase. Qed.

Lemma decoration_case : exists o s2 ms, text_stream (test_sfont (B"A") None None) 1 (decorated (B"A")) = Ok o /\
  draws o plain_state s2 (ms ++ [Filled [(1000, 81349); (11000, 81349); (11000, 81349); (1000, 81349)] (0, 0, 0);
    Stroke [(950, 82189); (11050, 82189)] 100 ([], 0); Stroke [(1000, 82189); (1000, 80189)] 100 ([], 0);
    Stroke [(11000, 82189); (11000, 80189)] 100 ([], 0); Stroke [(950, 80189); (11050, 80189)] 100 ([], 0)]).
Proof. eexists. eexists. exists [Glyph 1 (B"F1") 1200 0 (0, 0, 0) (1000, 82189)]. split; [vm_compute; reflexivity|]. drawcase. Qed.

Lemma tokens_next : forall s v r l, reads s v r -> tokens s l -> exists l', tokens r l'.
Proof.
  intros s v r l R T. inversion T as [? E|? v' r' l' R' T']; subst.
  - destruct R as (f & R). destruct f as [|f]; [discriminate|]. cbn [value] in R. rewrite E in R. discriminate.
  - destruct (reads_unique _ _ _ _ _ R R') as (-> & ->). eauto.
Qed.

Lemma failed_text : exists d t c m o, Forall bytep d /\ parseTtf d = Ok t /\ add_chars t (ct_text c) [] = (m, Err EOther) /\
  text_stream (mkSfont t m None None) 1 c = Ok o /\ forall s s2 ms, ~ draws o s s2 ms.
Proof.
  exists test_font, test_ttf, (test_text ([240; 159; 152; 130]) None), []. eexists. split; [exact test_bytes|]. split; [exact test_parses|]. split; [vm_compute; reflexivity|]. split; [vm_compute; reflexivity|].
  intros s s2 ms (l & T & _).
  do 11 (eapply tokens_next in T; [|exists 20%nat; vm_compute; reflexivity]; destruct T as (? & T)).
  inversion T as [? E|? v r l' (f & R) T']; subst; [vm_compute in E; discriminate|].
  do 4 (destruct f as [|f]; [vm_compute in R; discriminate|]). vm_compute in R. discriminate.
Qed.

Definition thin_font : bytes := Eval vm_compute in
  font_file (map (fun x => if beqb (fst x) (B"post") then (fst x, zs 10 ++ w2 65436 ++ zs 20) else x) (tables_of 2000 5)).
Lemma negative_underline : exists d t c m o, Forall bytep d /\ parseTtf d = Ok t /\ underlineThickness t = -100 /\ add_chars t (ct_text c) [] = (m, Ok tt) /\
  text_stream (mkSfont t m None None) 1 c = Ok o /\ forall s s2 ms, ~ draws o s s2 ms.
Proof.
  exists thin_font, (the (parseTtf thin_font)), (decorated (B"A")), [(65, 1)]. eexists. split; [apply small_bytes; vm_compute; reflexivity|]. do 4 (split; [vm_compute; reflexivity|]).
  intros s s2 ms (l & T & E).
  match type of T with tokens ?x _ => assert (T' : exists k, tokens x k /\ forall s, exec (s, None) [] k = None) end.
  - eexists. split; [toks|]. intros [fill font size rise a text line dash path cm]. destruct text; vm_compute; reflexivity.
  - destruct T' as (k & T' & H). assert (l = k) by (eapply tokens_unique; eauto). subst k. rewrite H in E. discriminate.
Qed.
