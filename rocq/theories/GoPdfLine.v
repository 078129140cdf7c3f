(** The operators of lines of text. *)
From Coq Require Import String List ZArith Lia Bool.
From Coq.Floats Require Import SpecFloat.
From Verif Require Import Base BaseProofs Utf8 PdfSyntax PdfSyntaxProofs HexProofs Float64 Ttf TtfProofs Subset CharMap Text TextSpec TextNumbers TextDraw TextBody TextContent TextFinal TextCases.
From Verif Require Import GoPdf GoPdfSpec GoPdfFile GoPdfPages GoPdfRun GoPdfDoc GoPdfTree GoPdfDrawSpec GoPdfDraw.
Open Scope Z_scope.
Open Scope list_scope.

(** ** Glyphs *)

Definition seg_flat (x : seg) : Prop := match x with SG g => 0 <= g < 65536 | SA _ => True | SR _ => False end.
Lemma segs_items : forall l r, Forall seg_flat l ->
  exists gs its u, segs_text l ++ B">]" ++ r = flat_map hex4 gs ++ B">" ++ u /\ Forall (fun n => 0 <= n < 65536) gs /\ reads_items u its r /\
    forall s, exists ms, show s its = Some ms /\ map (glyph s) gs ++ ms = seg_marks s l.
Proof.
  induction l as [|x l IH]; intros r V.
  - exists [], [], (B"]" ++ r). split; [reflexivity|]. split; [apply Forall_nil|]. split; [apply (items_end [] r); apply Forall_nil|]. intros s. exists []. split; reflexivity.
  - inversion V as [|? ? Hx Hl]; subst. destruct (IH r Hl) as (gs & its & u & E & G & R & M). destruct x as [g|n|v]; cbn [seg_flat] in Hx; [| |contradiction].
    + exists (g :: gs), its, u. split; [change (segs_text (SG g :: l)) with (hex4 g ++ segs_text l); rewrite <- app_assoc, E; cbn [flat_map]; rewrite <- app_assoc; reflexivity|].
      split; [apply Forall_cons; assumption|]. split; [exact R|]. intros s. destruct (M s) as (ms & M1 & M2). exists ms. split; [exact M1|]. cbn [map app seg_marks]. rewrite M2. reflexivity.
    + set (u1 := B"<" ++ flat_map hex4 gs ++ B">" ++ u).
      exists [], (PInt n :: PHex (flat_map hex4 gs) :: its), (itoa n ++ u1).
      split. { change (segs_text (SA n :: l)) with ((B">" ++ itoa n ++ B"<") ++ segs_text l). rewrite <- !app_assoc, E. reflexivity. }
      split; [apply Forall_nil|]. split.
      { assert (R1 : reads (itoa n ++ u1) (PInt n) u1) by (apply (reads_int [] n u1); [apply Forall_nil|reflexivity|apply (ref_none [] 60); [apply Forall_nil|reflexivity|reflexivity]]).
        destruct (itoa_hd n) as (c & t & Ec & Wc & Dc).
        eapply (items_step (itoa n ++ u1) c (t ++ u1)); [rewrite Ec; cbn [app]; apply skip_start; exact Wc| |exact R1|].
        { unfold is_digit in Dc. lia. }
        eapply (items_step u1 60 (flat_map hex4 gs ++ B">" ++ u)); [reflexivity|lia|apply reads_hex; exact G|exact R]. }
      intros s. destruct (M s) as (ms & M1 & M2). exists (Adjust (100 * n) :: map (glyph s) gs ++ ms). split.
      * cbn [show num]. rewrite codes_of_hex by exact G. rewrite M1. reflexivity.
      * cbn [map app seg_marks]. rewrite M2. reflexivity.
Qed.
Lemma segs_array : forall l r, Forall seg_flat l -> exists items, reads (B"[<" ++ segs_text l ++ B">]" ++ r) (PArr items) r /\ forall s, show s items = Some (seg_marks s l).
Proof.
  intros l r V. destruct (segs_items l r V) as (gs & its & u & E & G & R & M). exists (PHex (flat_map hex4 gs) :: its). rewrite E. split.
  - change (B"[<" ++ ?x) with ([] ++ B"[" ++ B"<" ++ x). apply reads_arr; [apply Forall_nil|].
    eapply (items_step _ 60 (flat_map hex4 gs ++ B">" ++ u)); [reflexivity|lia|apply reads_hex; exact G|exact R].
  - intros s. destruct (M s) as (ms & M1 & M2). cbn [show]. rewrite codes_of_hex by exact G. rewrite M1, M2. reflexivity.
Qed.

Lemma marks_plain : forall f size text l prev k s, sf_rise f = None ->
  seg_marks s (segs_of f size text prev k l) = shown (fun g _ => glyph s g) (kern_opt f) (fun _ _ _ => 0) prev k l.
Proof.
  intros f size text. induction l as [|[r g] l IH]; intros prev k s H; [reflexivity|]. cbn [segs_of shown]. unfold kern_opt at 1 2. cbn [fst snd]. rewrite H.
  cbn [app]. rewrite seg_marks_app. destruct (kern_at f prev r g =? 0).
  - cbn [seg_marks seg_state app]. rewrite IH by exact H. reflexivity.
  - cbn [seg_marks seg_state app]. rewrite IH by exact H. f_equal. f_equal. lia.
Qed.

(** ** A text that could be written *)

Lemma content_loop_glyphs : forall f size text rs first left lg k out sum o s, content_loop f size text rs first left lg k out sum = (o, Ok s) ->
  exists l, map fst l = rs /\ Forall (fun x => val_of (sf_map f) (fst x) = Some (snd x) /\ exists w, glyph_width (sf_ttf f) (snd x) = Ok w) l.
Proof.
  intros f size text. induction rs as [|r rs IH]; intros first left lg k out sum o s H; [exists []; split; [reflexivity|constructor]|].
  cbn [content_loop] in H. unfold char_index in H. destruct (val_of (sf_map f) r) as [g|] eqn:V; [|discriminate].
  destruct (match sf_kern f with Some k0 => if first then Ok 0 else ttf_to_pdf (kern_of k0 left r lg g) (unitsPerEm (sf_ttf f)) | None => Ok 0 end); try discriminate.
  unfold char_width, char_index in H. rewrite V in H. cbn [bind] in H. destruct (glyph_width (sf_ttf f) g) as [w| | |] eqn:W; try discriminate.
  apply IH in H. destruct H as (l & L1 & L2). exists ((r, g) :: l). split; [cbn [map fst]; rewrite L1; reflexivity|]. constructor; [|exact L2]. cbn [fst snd]. eauto.
Qed.
Lemma content_glyphs : forall f size text body sum, content f size text = (body, Ok sum) ->
  exists l, map fst l = runes text /\ Forall (fun x => val_of (sf_map f) (fst x) = Some (snd x) /\ exists w, glyph_width (sf_ttf f) (snd x) = Ok w) l.
Proof.
  intros f size text body sum H. unfold content in H. destruct (content_loop f size text (runes text) true 0 0 0 (B"[<") 0) as (o, s) eqn:E. destruct s; try discriminate.
  eapply content_loop_glyphs; eauto.
Qed.

(** The font [fc] is [f] with some characters. *)
Definition like (f fc : gfont) : Prop := gf_ttf fc = gf_ttf f /\ gf_kerning fc = gf_kerning f /\ gf_pairs fc = gf_pairs f /\ gf_over fc = gf_over f.

Lemma kern_same : forall f fc prev x, like f fc -> kern_opt (gsfont fc) prev x = kern_units f prev x.
Proof.
  intros f fc prev (r, g) (E1 & E2 & E3 & E4). unfold kern_opt, kern_at, kern_units, gsfont. cbn [sf_kern sf_ttf fst snd]. unfold gkern. rewrite E2, E1.
  destruct (gf_kerning f).
  - destruct prev as [[a lg]|]; [|reflexivity]. unfold units, pair_value. cbn [fst snd]. rewrite E3, E4. reflexivity.
  - destruct prev as [[a lg]|]; reflexivity.
Qed.

Lemma sum_same : forall f fc l prev, like f fc -> Forall (fun x => glyph_index (gf_ttf f) (fst x) = Ok (snd x)) l ->
  sum_of (gsfont fc) prev l = advances f prev (map fst l).
Proof.
  intros f fc l. induction l as [|[r g] l IH]; intros prev L H; [reflexivity|]. inversion H as [|? ? H1 H2]; subst. cbn [fst snd] in H1.
  cbn [sum_of map advances fst]. rewrite H1. rewrite IH by assumption. change (kern_at (gsfont fc) prev r g) with (kern_opt (gsfont fc) prev (r, g)).
  rewrite (kern_same f fc) by exact L. destruct L as (E1 & _). unfold gsfont. cbn [sf_ttf]. rewrite E1. reflexivity.
Qed.

(** What is known of a text that was written with the font. *)
Lemma written : forall f fc size text body sum, like f fc -> good_map (gf_ttf fc) (gf_map fc) -> content (gsfont fc) size text = (body, Ok sum) ->
  sound (Show (gf_ttf f) (kern_units f) text) ->
  sum = advances f None (runes text) /\ writes [([Show (gf_ttf f) (kern_units f) text], B"TJ")] body.
Proof.
  intros f fc size text body sum L G C (Hu & HS). destruct (content_glyphs _ _ _ _ _ C) as (l & L1 & L2).
  pose proof L as (E1 & _).
  assert (GI : Forall (fun x => glyph_index (gf_ttf f) (fst x) = Ok (snd x)) l).
  { eapply Forall_impl; [|exact L2]. intros (r, g) (V & _). cbn [fst snd] in *. rewrite <- E1. eapply good_fst_in; [exact G|]. apply val_of_in. exact V. }
  assert (RG : Forall (glyph_ok (gsfont fc)) l).
  { rewrite Forall_forall in *. intros (r, g) Hx. destruct (L2 _ Hx) as (V & W). pose proof (GI _ Hx) as I. cbn [fst snd] in *. split; [exact V|]. split; [|exact W].
    destruct (Z.leb_spec r 65535); [eapply glyph4_range; eauto|]. apply (HS r); [|lia|exact I]. rewrite <- L1. apply (in_map fst) in Hx. exact Hx. }
  assert (Hu' : 0 < unitsPerEm (sf_ttf (gsfont fc))) by (unfold gsfont; cbn [sf_ttf]; rewrite E1; exact Hu).
  pose proof (content_eq (gsfont fc) size text l Hu' L1 RG) as CE. rewrite CE in C.
  assert (EB : body = B"[<" ++ segs_text (segs_of (gsfont fc) size text None 0 l) ++ B">] TJ" ++ [10]) by congruence. assert (ES : sum = sum_of (gsfont fc) None l) by congruence.
  clear C CE. subst body sum. split.
  { rewrite <- L1. apply sum_same; assumption. }
  intros r o D. assert (SF : Forall seg_flat (segs_of (gsfont fc) size text None 0 l)).
  { clear -RG. assert (X : forall p k, Forall seg_flat (segs_of (gsfont fc) size text p k l)); [|apply X]. induction RG as [|(r, g) l (_ & R & _) _ IH]; intros p k; [constructor|].
    cbn [segs_of]. change (sf_rise (gsfont fc)) with (@None risefn). cbv iota. cbn [app]. apply Forall_app. split; [destruct (_ =? 0); [constructor|constructor; [exact Logic.I|constructor]]|].
    constructor; [exact R|apply IH]. }
  destruct (segs_array _ (B" TJ" ++ [10] ++ r) SF) as (items & R & M).
  exists [([PArr items], B"TJ")]. split.
  - rewrite <- !app_assoc. change (B">] TJ" ++ ?x) with (B">]" ++ B" TJ" ++ x). eapply ops_step; [eapply opd_cons; [exact R|exact Logic.I|apply opd_nil]|apply reads_TJ|reflexivity|].
    apply ops_blank; [blanks|exact D].
  - constructor; [|constructor]. split; [|reflexivity]. constructor; [|constructor]. exists items, l. split; [reflexivity|]. split; [exact L1|]. split.
    + eapply Forall_impl; [|exact GI]. intros (a, b) I d Hb Hl P. cbn [fst snd] in *. eapply glyph_index_char; eauto.
    + intros s. rewrite M. f_equal. rewrite marks_plain by reflexivity. apply shown_ext. intros p x. apply kern_same. exact L.
Qed.

(** ** The line *)

Lemma writes_tf : forall n size, writes [([Is (PName (B"F" ++ itoa n)); Is (PInt size)], B"Tf")] (B"/F" ++ itoa n ++ B" " ++ itoa size ++ B" Tf" ++ [10]).
Proof.
  intros n size r l D. exists [([PName (B"F" ++ itoa n); PInt size], B"Tf")]. split.
  - rewrite <- !app_assoc. match goal with |- operators ?s _ => change s with ([] ++ 47 :: ((B"F" ++ itoa n) ++ B" " ++ itoa size ++ B" Tf" ++ [10] ++ r)) end.
    eapply ops_step; [apply opd_name; [apply Forall_nil|apply Forall_cons; [reflexivity|apply TextFinal.itoa_reg]|reflexivity|apply opd_int; [blanks|reflexivity| |apply opd_nil]]| |reflexivity|].
    + apply (ref_none (B" ") 84 (B"f" ++ [10] ++ r)); [blanks|reflexivity|reflexivity].
    + apply (reads_word [32] (B"Tf") ([10] ++ r)); [blanks|regw|discriminate|reflexivity|reflexivity].
    + apply ops_blank; [blanks|exact D].
  - constructor; [|constructor]. split; [|reflexivity]. constructor; [reflexivity|]. constructor; [reflexivity|constructor].
Qed.

Lemma writes_under : forall x y w h, sound_op ([Near x; Near y; Near w; Minus h], B"re") ->
  writes [([Near x; Near y; Near w; Minus h], B"re"); ([], B"f")] (fmt2 x ++ B" " ++ fmt2 y ++ B" " ++ fmt2 w ++ B" -" ++ fmt2 h ++ B" re f" ++ [10]).
Proof.
  intros x y w h H r l D. unfold sound_op in H. cbn [fst] in H. inversion H as [|? ? Fx HA]; subst. inversion HA as [|? ? Fy HB]; subst. inversion HB as [|? ? Fw HC]; subst.
  inversion HC as [|? ? Ph _]; subst. cbn [sound] in *. assert (Fh : finite h) by (destruct h; cbn in *; tauto). assert (Pl : plus h) by (destruct h; cbn in *; tauto).
  destruct (fmt_plus h Pl Fh) as (R1 & R2 & R3). set (q := B"-" ++ fmt2 h) in *.
  exists [([PWord (fmt2 x); PWord (fmt2 y); PWord (fmt2 w); PWord q], B"re"); ([], B"f")]. split.
  - match goal with |- operators ?s _ => replace s with ([] ++ fmt2 x ++ B" " ++ fmt2 y ++ B" " ++ fmt2 w ++ B" " ++ q ++ B" re" ++ B" f" ++ [10] ++ r)
      by (unfold q; rewrite <- !app_assoc; reflexivity) end.
    eapply ops_step.
    + apply opd_fmt; [apply Forall_nil|exact Fx|reflexivity|]. apply opd_fmt; [blanks|exact Fy|reflexivity|]. apply opd_fmt; [blanks|exact Fw|reflexivity|].
      eapply (opd_lit (B" ") q); [blanks|exact R1|discriminate|exact R2|exact R3|reflexivity|apply opd_nil].
    + apply (reads_word [32] (B"re") (B" f" ++ [10] ++ r)); [blanks|regw|discriminate|reflexivity|reflexivity].
    + reflexivity.
    + apply (ops_word [32] (B"f") ([10] ++ r)); [blanks|plain|reflexivity|]. apply ops_blank; [blanks|exact D].
  - constructor.
    + split; [|reflexivity]. cbn [fst]. constructor; [eexists; apply cents_num; exact Fx|]. constructor; [eexists; apply cents_num; exact Fy|]. constructor; [eexists; apply cents_num; exact Fw|].
      constructor; [|constructor]. exists (cents h). split; [exact R3|]. apply cents_num. exact Fh.
    + constructor; [split; [constructor|reflexivity]|constructor].
Qed.

(** The stored text [c] is the line [l], written with [fc]. *)
Record text_rep (h : f64) (l : line) (c : gtext) (f fc : gfont) (sum : Z) : Prop := mkRep {
  tr_rect : x_rect c = a_rect (l_args l); tr_color : x_color c = u_color (g_cur (l_first l)); tr_gray : x_gray c = u_gray (g_cur (l_first l));
  tr_index : x_index c = u_count (g_cur (l_first l)) + 1; tr_size : x_size c = u_size (g_cur (l_first l)); tr_style : x_style c = u_style (g_cur (l_first l));
  tr_setx : x_setx c = u_setx (g_cur (l_first l)); tr_x : x_x c = u_x (g_cur (l_first l)); tr_y : x_y c = u_y (g_cur (l_first l));
  tr_font : u_font (g_cur (l_first l)) = Some (x_font c); tr_height : x_height c = h; tr_cell : x_cell c = a_cell (l_args l);
  tr_align : x_align c = a_align (l_args l); tr_border : x_border c = a_border (l_args l); tr_line : x_line c = u_line (g_cur (l_first l));
  tr_text : x_text c = l_text l; tr_last : nth_error (g_fonts (l_last l)) (x_font c) = Some f; tr_like : like f fc; tr_good : good_map (gf_ttf fc) (gf_map fc);
  tr_content : content (gsfont fc) (x_size c) (l_text l) = (x_content c, Ok sum); tr_tw : x_tw c = scale_width sum (x_size c);
  tr_cell2 : (x_cw c, x_ch c) = match x_rect c with Some r => r | None => (x_tw c, fsub (typo_asc (gf_ttf f) (x_size c)) (typo_desc (gf_ttf f) (x_size c))) end }.

Lemma writes_text : forall h l c f fc sum, text_rep h l c f fc sum -> Forall sound_op (line_wants h l f) -> writes (line_wants h l f) (gtext_stream (gf_ttf f) c).
Proof.
  intros h l c f fc sum R H. destruct R. unfold line_wants in *. cbv zeta in *.
  rewrite <- tr_size0, <- tr_style0, <- tr_x0, <- tr_y0, <- tr_color0, <- tr_rect0, <- tr_cell0, <- tr_align0, <- tr_border0, <- tr_line0, <- tr_index0 in *.
  assert (SH : sound (Show (gf_ttf f) (kern_units f) (l_text l))).
  { match type of H with Forall _ (let (_, _) := ?m in _) => destruct m as (cw, ch) end. apply Forall_app in H. destruct H as (_ & H). apply Forall_app in H. destruct H as (_ & H).
    apply Forall_app in H. destruct H as (H & _). inversion H as [|? ? X _]; subst. unfold sound_op in X. cbn [fst] in X. inversion X; assumption. }
  destruct (written f fc (x_size c) (l_text l) (x_content c) sum tr_like0 tr_good0 tr_content0 SH) as (ES & WT). clear SH.
  rewrite <- ES, <- tr_tw0 in *. rewrite <- tr_cell3 in *.
  apply Forall_app in H. destruct H as (H1 & H). apply Forall_app in H. destruct H as (H2 & H). apply Forall_app in H. destruct H as (_ & H).
  apply Forall_app in H. destruct H as (H4 & H). apply Forall_app in H. destruct H as (H5 & H). apply Forall_app in H. destruct H as (H6 & H). apply Forall_app in H. destruct H as (H7 & H8).
  inversion H1 as [|? ? _ H1']; subst. inversion H1' as [|? ? H1'' _]; subst. clear H1 H1'.
  assert (E : gtext_stream (gf_ttf f) c = (B"BT" ++ [10]) ++ fmts [gcal_x c; gcal_y (gf_ttf f) c] (B"TD" ++ [10]) ++ (B"/F" ++ itoa (x_index c) ++ B" " ++ itoa (x_size c) ++ B" Tf" ++ [10])
    ++ color_text (x_color c) ++ x_content c ++ (B"ET" ++ [10]) ++ (if hasbit (x_style c) uUnderline then gunderline (gf_ttf f) c else []) ++ gborder c).
  { unfold gtext_stream. cbn [fmts]. rewrite <- !app_assoc. reflexivity. }
  rewrite E. clear E.
  match goal with |- writes ([?a; ?b; ?d] ++ ?q ++ [?e; ?f'] ++ ?r) ?s => change (writes ([a] ++ [b] ++ [d] ++ q ++ [e] ++ [f'] ++ r) s) end.
  apply writes_app; [apply writes_word; plain|].
  apply writes_app; [exact (writes_fmts [gcal_x c; gcal_y (gf_ttf f) c] (B"TD") ltac:(plain) H1'')|].
  apply writes_app; [apply writes_tf|].
  apply writes_app.
  { destruct (x_color c) as ((cr, cg), cb) eqn:EC. unfold color_text. destruct ((cr + cg + cb) mod 256 =? 0); [apply writes_nil|].
    inversion H2 as [|? ? X _]; subst. pose proof (writes_color (cr, cg, cb) (B"rg") ltac:(plain) X) as W. cbn [color_list map fmts] in W. exact W. }
  apply writes_app; [exact WT|].
  apply writes_app; [apply writes_word; plain|].
  apply writes_app.
  { destruct (hasbit (x_style c) uUnderline); [|apply writes_nil]. inversion H4 as [|? ? X _]; subst. exact (writes_under _ _ _ _ X). }
  unfold gborder. cbv zeta.
  apply writes_app; [destruct (hasbit (x_border c) aTop); [apply writes_line; exact H5|apply writes_nil]|].
  apply writes_app; [destruct (hasbit (x_border c) aLeft); [apply writes_line; exact H6|apply writes_nil]|].
  apply writes_app; [destruct (hasbit (x_border c) aRight); [apply writes_line; exact H7|apply writes_nil]|].
  destruct (hasbit (x_border c) aBottom); [apply writes_line; exact H8|apply writes_nil].
Qed.
