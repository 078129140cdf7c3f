(** What a text content draws. *)
From Coq Require Import String List ZArith Lia Bool.
From Coq.Floats Require Import SpecFloat.
From Verif Require Import Base BaseProofs Utf8 PdfSyntax PdfSyntaxProofs HexProofs Float64 Ttf Subset CharMap Text TextSpec TextNumbers TextDraw TextBody TextContent.
Open Scope Z_scope.
Open Scope list_scope.

(** ** Operators *)

Definition set_text (s : gstate) (at_ : Z * Z) (t : bool) : gstate :=
  mkG (g_fill s) (g_font s) (g_size s) (g_rise s) at_ t (g_line s) (g_dash s) (g_path s) (g_cm s).
Definition set_font (s : gstate) (n : bytes) (z : Z) : gstate :=
  mkG (g_fill s) n z (g_rise s) (g_at s) (g_text s) (g_line s) (g_dash s) (g_path s) (g_cm s).
Definition set_fill (s : gstate) (c : Z * Z * Z) : gstate :=
  mkG c (g_font s) (g_size s) (g_rise s) (g_at s) (g_text s) (g_line s) (g_dash s) (g_path s) (g_cm s).
Definition set_path (s : gstate) (p : list (Z * Z)) : gstate :=
  mkG (g_fill s) (g_font s) (g_size s) (g_rise s) (g_at s) (g_text s) (g_line s) (g_dash s) p (g_cm s).

Ltac ops :=
  repeat match goal with
  | |- context [beqb ?a ?b] => let v := eval vm_compute in (beqb a b) in replace (beqb a b) with v by reflexivity
  end; cbv iota.

Lemma op_BT : forall s sv, g_text s = false -> op1 (B"BT") [] (s, sv) = Some (set_text s (0, 0) true, sv, []).
Proof. intros [fill font size rise a text line dash path cm] sv T. cbn [g_text] in T. subst text. reflexivity. Qed.
Lemma op_ET : forall s sv, g_text s = true -> op1 (B"ET") [] (s, sv) = Some (set_text s (g_at s) false, sv, []).
Proof. intros [fill font size rise a text line dash path cm] sv T. cbn [g_text] in T. subst text. reflexivity. Qed.
Lemma op_Tf : forall s sv n z, op1 (B"Tf") [PName n; PInt z] (s, sv) = Some (set_font s n (100 * z), sv, []).
Proof. intros [fill font size rise a text line dash path cm] sv n z. reflexivity. Qed.

Lemma op_TD : forall s sv args x y, g_text s = true -> nums args = Some [x; y] ->
  op1 (B"TD") args (s, sv) = Some (set_text s (fst (g_at s) + x, snd (g_at s) + y) true, sv, []).
Proof. intros [fill font size rise a text line dash path cm] sv args x y T N. cbn [g_text] in T. subst text. unfold op1. rewrite N. ops. reflexivity. Qed.
Lemma op_rg : forall s sv args x y z, nums args = Some [x; y; z] -> op1 (B"rg") args (s, sv) = Some (set_fill s (x, y, z), sv, []).
Proof. intros [fill font size rise a text line dash path cm] sv args x y z N. unfold op1. rewrite N. ops. reflexivity. Qed.
Lemma op_m : forall s sv args x y, nums args = Some [x; y] -> op1 (B"m") args (s, sv) = Some (set_path s [(x, y)], sv, []).
Proof. intros [fill font size rise a text line dash path cm] sv args x y N. unfold op1. rewrite N. ops. reflexivity. Qed.
Lemma op_l : forall s sv args x y p ps, nums args = Some [x; y] -> g_path s = p :: ps -> op1 (B"l") args (s, sv) = Some (set_path s ((p :: ps) ++ [(x, y)]), sv, []).
Proof. intros [fill font size rise a text line dash path cm] sv args x y p ps N E. cbn [g_path] in E. subst path. unfold op1. rewrite N. ops. reflexivity. Qed.
Lemma op_s : forall s sv p ps, g_path s = p :: ps -> g_text s = false -> op1 (B"s") [] (s, sv) = Some (set_path s [], sv, [Stroke (p :: ps) (g_line s) (g_dash s)]).
Proof. intros [fill font size rise a text line dash path cm] sv p ps E T. cbn [g_path g_text] in *. subst. reflexivity. Qed.
Lemma op_f : forall s sv p ps, g_path s = p :: ps -> g_text s = false -> op1 (B"f") [] (s, sv) = Some (set_path s [], sv, [Filled (p :: ps) (g_fill s)]).
Proof. intros [fill font size rise a text line dash path cm] sv p ps E T. cbn [g_path g_text] in *. subst. reflexivity. Qed.
Definition rect (x y a b : Z) : list (Z * Z) := [(x, y); (x + a, y); (x + a, y + b); (x, y + b)].
Lemma op_re : forall s sv args x y a b, nums args = Some [x; y; a; b] -> op1 (B"re") args (s, sv) = Some (set_path s (rect x y a b), sv, []).
Proof. intros [fill font size rise at_ text line dash path cm] sv args x y a b N. unfold op1. rewrite N. ops. reflexivity. Qed.

Ltac plain := repeat split; first [discriminate|reflexivity|regw].

(** ** Lines *)

Lemma drawn_line : forall a b c d r s sv g2 ms2, Forall finite [a; b; c; d] -> g_text s = false ->
  drawn r (set_path s [], sv) g2 ms2 ->
  drawn (line_text a b c d ++ r) (s, sv) g2 (Stroke [(cents a, cents b); (cents c, cents d)] (g_line s) (g_dash s) :: ms2).
Proof.
  intros a b c d r s sv g2 ms2 F T D.
  assert (F1 : Forall finite [a; b]) by (inversion F as [|? ? ? F']; inversion F' as [|? ? ? F'']; constructor; auto).
  assert (F2 : Forall finite [c; d]) by (inversion F as [|? ? ? F']; inversion F'; auto).
  replace (line_text a b c d ++ r) with (fmts [a; b] (B"m" ++ (B" " ++ fmts [c; d] (B"l" ++ B" s" ++ [10] ++ r))))
    by (unfold line_text; cbn [fmts]; rewrite <- !app_assoc; reflexivity).
  apply (drawn_fmts [a; b] (B"m") _ (s, sv) (set_path s [(cents a, cents b)], sv) []); [exact F1|plain|reflexivity|apply op_m, (nums_fmt [a; b]), F1|].
  apply drawn_blank; [blanks|].
  apply (drawn_fmts [c; d] (B"l") _ _ (set_path s ([(cents a, cents b)] ++ [(cents c, cents d)]), sv) []); [exact F2|plain|reflexivity| |].
  { change (set_path s ([(cents a, cents b)] ++ [(cents c, cents d)])) with (set_path (set_path s [(cents a, cents b)]) ([(cents a, cents b)] ++ [(cents c, cents d)])).
    apply op_l; [apply (nums_fmt [c; d]), F2|reflexivity]. }
  eapply (drawn_op _ [] _ (B"s") ([10] ++ r) _ _ [Stroke [(cents a, cents b); (cents c, cents d)] (g_line s) (g_dash s)]);
    [apply opd_nil|apply (reads_word [32] (B"s") ([10] ++ r)); [blanks|regw|discriminate|reflexivity|reflexivity]|reflexivity| |].
  - exact (op_s (set_path s [(cents a, cents b); (cents c, cents d)]) sv _ _ eq_refl T).
  - apply drawn_blank; [blanks|exact D].
Qed.

(** ** Positive numbers *)

Definition plus (x : f64) : Prop := match x with S754_zero s | S754_infinity s | S754_finite s _ _ => s = false | S754_nan => True end.
Lemma round_aux_plus : forall mx ex lx, plus (binary_round_aux 53 1024 false mx ex lx).
Proof.
  intros. unfold binary_round_aux. destruct (shr_fexp 53 1024 mx ex lx) as [a b].
  destruct (shr_fexp 53 1024 (round_nearest_even (shr_m a) (loc_of_shr_record a)) b loc_Exact) as [c d].
  destruct (shr_m c) as [|p|p]; [reflexivity| |exact Logic.I]. destruct (d <=? 1024 - 53); reflexivity.
Qed.
Lemma plus_mul : forall a b, plus a -> plus b -> plus (fmul a b).
Proof.
  intros a b Ha Hb. unfold fmul. destruct a, b; cbn [plus] in *; subst; cbn [SFmul xorb plus]; auto. apply round_aux_plus.
Qed.
Lemma plus_div : forall a b, plus a -> plus b -> plus (fdiv a b).
Proof.
  intros a b Ha Hb. unfold fdiv. destruct a, b; cbn [plus] in *; subst; cbn [SFdiv xorb plus]; auto.
  destruct (SFdiv_core_binary 53 1024 (Z.pos m) e (Z.pos m0) e0) as [[? ?] ?]. apply round_aux_plus.
Qed.
Lemma plus_ofz : forall n, 0 <= n -> plus (fofz n).
Proof.
  intros n H. unfold fofz, binary_normalize. destruct n; [reflexivity| |lia]. unfold binary_round.
  destruct (shl_align p 0 (fexp 53 1024 (Z.pos (digits2_pos p) + 0))). apply round_aux_plus.
Qed.
Lemma fmt_plus : forall x, plus x -> finite x -> reg_word (B"-" ++ fmt2 x) /\ number (B"-" ++ fmt2 x) = None /\ decimal (B"-" ++ fmt2 x) = Some (- cents x).
Proof.
  intros x P F. assert (exists n, 0 <= n /\ fmt2 x = fixed2 n) as (n & Hn & E).
  { destruct x as [s|s| |s m e]; try contradiction; cbn [plus] in P; subst s; cbn [fmt2 app].
    - exists 0. split; [lia|reflexivity].
    - exists (hundredths m e). split; [apply (hundredths_near false m e)|reflexivity]. }
  assert (C : cents x = n). { unfold cents. rewrite E. destruct (signed2 false n Hn) as (_ & _ & _ & X). cbn [sgn app] in X. rewrite X. reflexivity. }
  rewrite C, E. destruct (signed2 true n Hn) as (A & _ & B1 & D). cbn [sgn] in *. auto.
Qed.

(** ** The underline *)

Definition ul_y (t : ttf) (c : ctext) : f64 :=
  let em := fofz (unitsPerEm t) in let size := fofz (ct_size c) in
  fsub (fsub (ct_height c) (fsub (ct_y c) (fmul (fdiv (fofz (underlinePosition t)) em) size))) (fmul size (fconst 7 10)).
Definition ul_h (t : ttf) (c : ctext) : f64 := fmul (fdiv (fofz (underlineThickness t)) (fofz (unitsPerEm t))) (fofz (ct_size c)).
Definition ul_w (c : ctext) (cw : f64) : f64 := fsub (fadd (ct_x c) cw) (ct_x c).

Lemma drawn_underline : forall t c cw r s sv g2 ms2, Forall finite [ct_x c; ul_y t c; ul_w c cw; ul_h t c] ->
  0 <= underlineThickness t -> 0 <= unitsPerEm t -> 0 <= ct_size c -> g_text s = false ->
  drawn r (set_path s [], sv) g2 ms2 ->
  drawn (underline_text t c cw ++ r) (s, sv) g2 (Filled (rect (cents (ct_x c)) (cents (ul_y t c)) (cents (ul_w c cw)) (- cents (ul_h t c))) (g_fill s) :: ms2).
Proof.
  intros t c cw r s sv g2 ms2 F H1 H2 H3 T D. inversion F as [|? ? Fx F']; subst. inversion F' as [|? ? Fy F'']; subst. inversion F'' as [|? ? Fw F3]; subst. inversion F3 as [|? ? Fh _]; subst.
  assert (P : plus (ul_h t c)) by (unfold ul_h; apply plus_mul; [apply plus_div; apply plus_ofz; assumption|apply plus_ofz; assumption]).
  destruct (fmt_plus _ P Fh) as (R1 & R2 & R3).
  set (q := B"-" ++ fmt2 (ul_h t c)) in *.
  replace (underline_text t c cw ++ r) with ([] ++ fmt2 (ct_x c) ++ B" " ++ fmt2 (ul_y t c) ++ B" " ++ fmt2 (ul_w c cw) ++ B" " ++ q ++ B" re" ++ B" f" ++ [10] ++ r)
    by (unfold underline_text, q, ul_y, ul_h, ul_w; rewrite <- !app_assoc; reflexivity).
  change (Filled (rect (cents (ct_x c)) (cents (ul_y t c)) (cents (ul_w c cw)) (- cents (ul_h t c))) (g_fill s) :: ms2)
    with ([] ++ [Filled (rect (cents (ct_x c)) (cents (ul_y t c)) (cents (ul_w c cw)) (- cents (ul_h t c))) (g_fill s)] ++ ms2).
  eapply drawn_op.
  - apply opd_fmt; [apply Forall_nil|exact Fx|reflexivity|]. apply opd_fmt; [blanks|exact Fy|reflexivity|]. apply opd_fmt; [blanks|exact Fw|reflexivity|].
    eapply (opd_lit (B" ") q); [blanks|exact R1|discriminate|exact R2|exact R3|reflexivity|apply opd_nil].
  - apply (reads_word [32] (B"re") (B" f" ++ [10] ++ r)); [blanks|regw|discriminate|reflexivity|reflexivity].
  - reflexivity.
  - apply op_re. cbn [nums]. destruct (cents_num _ Fx) as (-> & _). destruct (cents_num _ Fy) as (-> & _). destruct (cents_num _ Fw) as (-> & _).
    cbn [num]. rewrite R3. reflexivity.
  - eapply (drawn_op _ [] _ (B"f") ([10] ++ r)); [apply opd_nil|apply (reads_word [32] (B"f") ([10] ++ r)); [blanks|regw|discriminate|reflexivity|reflexivity]|reflexivity| |].
    + exact (op_f (set_path s (rect _ _ _ _)) sv _ _ eq_refl T).
    + apply drawn_blank; [blanks|exact D].
Qed.

(** ** The border *)

Definition border_lines (c : ctext) (cw ch : f64) : list (f64 * f64 * f64 * f64) :=
  let off := fmul (ct_line c) half in
  let top := fsub (ct_height c) (ct_y c) in
  let bottom := fsub top ch in
  let x := ct_x c in
  let xr := fadd x cw in
  [(fsub x off, top, fadd xr off, top); (x, top, x, bottom); (xr, top, xr, bottom); (fsub x off, bottom, fadd xr off, bottom)].
Definition stroke_of (s : gstate) (q : f64 * f64 * f64 * f64) : mark :=
  let '(a, b, c, d) := q in Stroke [(cents a, cents b); (cents c, cents d)] (g_line s) (g_dash s).
Definition four (q : f64 * f64 * f64 * f64) : Prop := let '(a, b, c, d) := q in Forall finite [a; b; c; d].

Lemma drawn_border : forall c cw ch r s sv g2 ms2, Forall four (border_lines c cw ch) -> g_text s = false ->
  drawn r (set_path s [], sv) g2 ms2 -> drawn (border_text c cw ch ++ r) (s, sv) g2 (map (stroke_of s) (border_lines c cw ch) ++ ms2).
Proof.
  intros c cw ch r s sv g2 ms2 F T D. unfold border_lines in F. cbv zeta in F.
  inversion F as [|? ? F1 F']; subst. inversion F' as [|? ? F2 F'']; subst. inversion F'' as [|? ? F3 F3']; subst. inversion F3' as [|? ? F4 _]; subst.
  unfold border_text. cbv zeta. rewrite <- !app_assoc. cbn [map app stroke_of border_lines].
  apply drawn_line; [exact F1|exact T|]. apply (drawn_line _ _ _ _ _ (set_path s [])); [exact F2|exact T|].
  apply (drawn_line _ _ _ _ _ (set_path s [])); [exact F3|exact T|]. apply (drawn_line _ _ _ _ _ (set_path s [])); [exact F4|exact T|]. exact D.
Qed.

(** ** The colour *)

Definition has_colour (rgb : Z * Z * Z) : bool := let '(r, g, b) := rgb in negb ((r + g + b) mod 256 =? 0).
Definition colour_of (rgb : Z * Z * Z) : Z * Z * Z := let '(r, g, b) := rgb in (cents (fmul (fofz r) color_unit), cents (fmul (fofz g) color_unit), cents (fmul (fofz b) color_unit)).
Definition bytez (z : Z) : Prop := 0 <= z < 256.

Lemma colour_finite : forall z, bytez z -> finite (fmul (fofz z) color_unit).
Proof.
  assert (H : forallb (fun z => match fmul (fofz (Z.of_nat z)) color_unit with S754_zero _ | S754_finite _ _ _ => true | _ => false end) (seq 0 256) = true) by (vm_compute; reflexivity).
  intros z Hz. rewrite forallb_forall in H. specialize (H (Z.to_nat z)). rewrite Z2Nat.id in H by (unfold bytez in Hz; lia).
  assert (I : In (Z.to_nat z) (seq 0 256)) by (apply in_seq; unfold bytez in Hz; lia). specialize (H I). destruct (fmul (fofz z) color_unit); cbn [finite]; auto; discriminate.
Qed.
Lemma drawn_colour : forall r g b rest s sv g2 ms2, bytez r -> bytez g -> bytez b ->
  drawn rest ((if has_colour (r, g, b) then set_fill s (colour_of (r, g, b)) else s), sv) g2 ms2 -> drawn (color_text (r, g, b) ++ rest) (s, sv) g2 ms2.
Proof.
  intros r g b rest s sv g2 ms2 Hr Hg Hb D. unfold color_text, has_colour in *. destruct ((r + g + b) mod 256 =? 0); cbn [negb] in D; [exact D|].
  assert (F : Forall finite [fmul (fofz r) color_unit; fmul (fofz g) color_unit; fmul (fofz b) color_unit]) by (repeat apply Forall_cons; try apply Forall_nil; apply colour_finite; assumption).
  match goal with |- drawn ?x _ _ _ => replace x with (fmts [fmul (fofz r) color_unit; fmul (fofz g) color_unit; fmul (fofz b) color_unit] (B"rg" ++ [10] ++ rest)) by (cbn [fmts]; rewrite <- !app_assoc; reflexivity) end.
  eapply (drawn_fmts _ (B"rg") _ _ _ []); [exact F|plain|reflexivity|apply op_rg; exact (nums_fmt _ F)|]. apply drawn_blank; [blanks|]. exact D.
Qed.

(** ** The text *)

Definition shown_at (s : gstate) (g rise : Z) : mark := Glyph g (g_font s) (g_size s) rise (g_fill s) (g_at s).
Definition rise_at (f : sfont) (size : Z) (text : bytes) (base : Z) (prev : option (Z * Z)) (r k : Z) : Z :=
  match sf_rise f with Some h => cents (h (left_of prev) r size text k) | None => base end.
Definition kern_opt (f : sfont) (prev : option (Z * Z)) (x : Z * Z) : Z := kern_at f prev (fst x) (snd x).

Lemma seg_marks_app : forall a s b, seg_marks s (a ++ b) = seg_marks s a ++ seg_marks (seg_state s a) b.
Proof. induction a as [|x a IH]; intros s b; [reflexivity|]. destruct x; cbn [app seg_marks seg_state]; rewrite IH; reflexivity. Qed.

Lemma marks_shown : forall f size text l base prev k s, (sf_rise f = None -> g_rise s = base) ->
  seg_marks s (segs_of f size text prev k l) = shown (shown_at s) (kern_opt f) (rise_at f size text base) prev k l.
Proof.
  intros f size text. induction l as [|[r g] l IH]; intros base prev k s Hb; [reflexivity|]. cbn [segs_of shown]. unfold kern_opt at 1 2. cbn [fst snd].
  set (a := kern_at f prev r g). rewrite !seg_marks_app. assert (S1 : forall x, seg_state x (if a =? 0 then [] else [SA (- a)]) = x) by (intros x; destruct (a =? 0); reflexivity).
  rewrite S1. f_equal. { destruct (a =? 0); [reflexivity|]. cbn [seg_marks]. f_equal. f_equal. ring. }
  unfold rise_at at 1. destruct (sf_rise f) as [h|] eqn:Er.
  - cbn [seg_marks app seg_state]. f_equal. rewrite (IH base) by (intros; discriminate). reflexivity.
  - cbn [seg_marks app seg_state]. unfold glyph, shown_at at 1. rewrite Hb by reflexivity. f_equal. apply IH. intros _. apply Hb. reflexivity.
Qed.

Definition rise_fin (f : sfont) (size : Z) (text : bytes) : Prop :=
  match sf_rise f with Some h => forall a b k, finite (h a b size text k) | None => True end.

Lemma segs_ok : forall f size text l prev k, Forall (glyph_ok f) l -> rise_fin f size text -> Forall seg_ok (segs_of f size text prev k l).
Proof.
  intros f size text. induction l as [|[r g] l IH]; intros prev k H R; [apply Forall_nil|]. inversion H as [|? ? (V & G & W) Hl]; subst. cbn [segs_of].
  apply Forall_app. split; [destruct (_ =? 0); [apply Forall_nil|apply Forall_cons; [exact Logic.I|apply Forall_nil]]|].
  apply Forall_app. split.
  - unfold rise_fin in R. destruct (sf_rise f) as [h|]; [|apply Forall_nil]. apply Forall_cons; [apply R|apply Forall_nil].
  - apply Forall_cons; [exact G|]. apply IH; assumption.
Qed.

Definition same_but_rise (s s' : gstate) : Prop := exists z, s' = set_rise s z.
Lemma seg_state_rise : forall l s, same_but_rise s (seg_state s l).
Proof.
  induction l as [|x l IH]; intros s; [exists (g_rise s); destruct s; reflexivity|]. destruct x; cbn [seg_state]; try apply IH.
  destruct (IH (set_rise s (cents v))) as (z & ->). exists z. reflexivity.
Qed.

(** The state in which the glyphs are shown. *)
Definition text_state (f : sfont) (index : Z) (c : ctext) (sum : Z) (s : gstate) : gstate :=
  mkG (if has_colour (rgb_of (ct_color c)) then colour_of (rgb_of (ct_color c)) else g_fill s) (B"F" ++ itoa index) (100 * ct_size c) (g_rise s)
    (cents (cal_x c (ct_w c) (scale_width sum (ct_size c))), cents (cal_y (sf_ttf f) c (ct_h c))) true (g_line s) (g_dash s) (g_path s) (g_cm s).
Definition ul_marks (f : sfont) (c : ctext) (s : gstate) : list mark :=
  if hasbit (ct_style c) uUnderline then [Filled (rect (cents (ct_x c)) (cents (ul_y (sf_ttf f) c)) (cents (ul_w c (ct_w c))) (- cents (ul_h (sf_ttf f) c))) (g_fill s)] else [].
Definition border_marks (c : ctext) (s : gstate) : list mark :=
  if fgt (ct_line c) (fofz 0) then map (stroke_of s) (border_lines c (ct_w c) (ct_h c)) else [].
Definition ul_fin (f : sfont) (c : ctext) : Prop :=
  hasbit (ct_style c) uUnderline = true -> Forall finite [ct_x c; ul_y (sf_ttf f) c; ul_w c (ct_w c); ul_h (sf_ttf f) c] /\ 0 <= underlineThickness (sf_ttf f) /\ 0 <= ct_size c.
Definition border_fin (c : ctext) : Prop := fgt (ct_line c) (fofz 0) = true -> Forall four (border_lines c (ct_w c) (ct_h c)).

Lemma rgb_bytes : forall c, let '(r, g, b) := rgb_of c in bytez r /\ bytez g /\ bytez b.
Proof. intros [[[r g] b]|]; cbn [rgb_of]; unfold bytez; repeat split; try lia; try (apply Z.mod_pos_bound; lia). Qed.

Lemma itoa_reg : forall n, reg_word (itoa n).
Proof.
  intros n. unfold itoa. destruct (n <? 0) eqn:E; [apply Forall_cons; [reflexivity|]|]; apply utoa_reg; lia.
Qed.

(** Whatever is drawn after it. *)
Lemma text_drawn_then : forall f index c l s, 0 < unitsPerEm (sf_ttf f) -> map fst l = runes (ct_text c) -> Forall (glyph_ok f) l ->
  rise_fin f (ct_size c) (ct_text c) ->
  let sum := sum_of f None l in
  finite (cal_x c (ct_w c) (scale_width sum (ct_size c))) -> finite (cal_y (sf_ttf f) c (ct_h c)) -> ul_fin f c -> border_fin c -> g_text s = false ->
  let s1 := text_state f index c sum s in
  exists o s2, text_stream f index c = Ok o /\
    (forall rest g2 ms2, drawn rest (s2, None) g2 ms2 ->
       drawn (o ++ rest) (s, None) g2 ((shown (shown_at s1) (kern_opt f) (rise_at f (ct_size c) (ct_text c) (g_rise s)) None 0 l ++ ul_marks f c s1 ++ border_marks c s1) ++ ms2)) /\
    g_text s2 = false /\ g_fill s2 = g_fill s1 /\ g_line s2 = g_line s /\ g_dash s2 = g_dash s /\ g_cm s2 = g_cm s.
Proof.
  intros f index c l s Hu El G R sum Fx Fy Fu Fb T s1.
  set (bt := set_text s (0, 0) true). set (px := cal_x c (ct_w c) (scale_width sum (ct_size c))) in *. set (py := cal_y (sf_ttf f) c (ct_h c)) in *.
  set (sg := segs_of f (ct_size c) (ct_text c) None 0 l).
  set (se := set_text (seg_state s1 sg) (g_at s1) false).
  set (s2 := if fgt (ct_line c) (fofz 0) then set_path (if hasbit (ct_style c) uUnderline then set_path se [] else se) [] else (if hasbit (ct_style c) uUnderline then set_path se [] else se)).
  assert (SR : exists z, seg_state s1 sg = set_rise s1 z) by apply seg_state_rise. destruct SR as (z & SR).
  eexists. exists s2. split; [|split; [|split; [|split; [|split; [|split]]]]].
  - unfold text_stream. rewrite (content_eq f (ct_size c) (ct_text c) l Hu El G). reflexivity.
  - fold sg. fold sum. fold px. fold py. intros after g2 ms2 D2.
    assert (A : forall x g ms, drawn x (if hasbit (ct_style c) uUnderline then set_path se [] else se, None) g ms ->
       drawn ((if hasbit (ct_style c) uUnderline then underline_text (sf_ttf f) c (ct_w c) else []) ++ x) (se, None) g (ul_marks f c s1 ++ ms)).
    { intros x g ms D. unfold ul_marks, ul_fin in *. destruct (hasbit (ct_style c) uUnderline); [|exact D]. destruct (Fu eq_refl) as (F1 & F2 & F3).
      replace (g_fill s1) with (g_fill se) by (unfold se; rewrite SR; reflexivity).
      apply drawn_underline; try assumption; [lia|reflexivity]. }
    assert (Bd : forall q, g_text q = false -> g_line q = g_line s1 -> g_dash q = g_dash s1 ->
       drawn after (if fgt (ct_line c) (fofz 0) then set_path q [] else q, None) g2 ms2 ->
       drawn ((if fgt (ct_line c) (fofz 0) then border_text c (ct_w c) (ct_h c) else []) ++ [13; 10] ++ after) (q, None) g2 (border_marks c s1 ++ ms2)).
    { intros q Q1 Q2 Q3 Dq. unfold border_marks, border_fin in *. destruct (fgt (ct_line c) (fofz 0)).
      - replace (map (stroke_of s1) (border_lines c (ct_w c) (ct_h c))) with (map (stroke_of q) (border_lines c (ct_w c) (ct_h c))).
        + apply drawn_border; [apply Fb; reflexivity|exact Q1|apply drawn_blank; [blanks|exact Dq]].
        + apply map_ext. intros [[[a1 a2] a3] a4]. unfold stroke_of. rewrite Q2, Q3. reflexivity.
      - apply (drawn_blank [13; 10]); [blanks|exact Dq]. }
    assert (C : drawn (B"ET" ++ [10] ++ (if hasbit (ct_style c) uUnderline then underline_text (sf_ttf f) c (ct_w c) else [])
                  ++ (if fgt (ct_line c) (fofz 0) then border_text c (ct_w c) (ct_h c) else []) ++ [13; 10] ++ after) (seg_state s1 sg, None) g2 (ul_marks f c s1 ++ border_marks c s1 ++ ms2)).
    { change (ul_marks f c s1 ++ border_marks c s1 ++ ms2) with ([] ++ ul_marks f c s1 ++ border_marks c s1 ++ ms2).
      eapply (drawn_op _ [] _ (B"ET")); [apply opd_nil|apply (reads_word [] (B"ET")); [blanks|regw|discriminate|reflexivity|reflexivity]|reflexivity| |].
      - apply op_ET. rewrite SR. reflexivity.
      - replace (g_at (seg_state s1 sg)) with (g_at s1) by (rewrite SR; reflexivity). fold se. apply drawn_blank; [blanks|]. apply A. apply Bd.
        + destruct (hasbit _ _); reflexivity.
        + unfold se. rewrite SR. destruct (hasbit _ _); reflexivity.
        + unfold se. rewrite SR. destruct (hasbit _ _); reflexivity.
        + exact D2. }
    rewrite <- (marks_shown f (ct_size c) (ct_text c) l (g_rise s) None 0 s1) by reflexivity. fold sg. rewrite <- !app_assoc.
    pose proof (drawn_segs sg _ s1 None g2 _ (segs_ok f (ct_size c) (ct_text c) l None 0 G R) eq_refl C) as D.
    set (k := seg_marks s1 sg ++ ul_marks f c s1 ++ border_marks c s1 ++ ms2) in *.
    match type of D with drawn ?x _ _ _ => set (rest := x) in * end.
    match goal with |- drawn ?x _ _ _ => replace x with ([] ++ B"BT" ++ [10] ++ fmts [px; py] (B"TD" ++ [10] ++ 47 :: (B"F" ++ itoa index) ++ B" " ++ itoa (ct_size c) ++ B" Tf" ++ [10] ++ color_text (rgb_of (ct_color c)) ++ rest)) end.
    2: { unfold rest. cbn [fmts]. rewrite <- !app_assoc. reflexivity. }
    change k with ([] ++ [] ++ [] ++ k).
    eapply (drawn_op _ [] _ (B"BT")); [apply opd_nil|apply reads_word; [blanks|regw|discriminate|reflexivity|reflexivity]|reflexivity|apply op_BT; exact T|].
    apply drawn_blank; [blanks|].
    assert (FF : Forall finite [px; py]) by (apply Forall_cons; [exact Fx|apply Forall_cons; [exact Fy|apply Forall_nil]]).
    eapply drawn_fmts; [exact FF|plain|reflexivity|apply op_TD; [reflexivity|exact (nums_fmt _ FF)]|].
    eapply drawn_op; [apply (opd_name [10]); [blanks| |reflexivity|apply (opd_int (B" ")); [blanks|reflexivity|reflexivity|apply opd_nil]]|apply (reads_word (B" ") (B"Tf")); [blanks|regw|discriminate|reflexivity|reflexivity]|reflexivity|apply op_Tf|].
    + apply Forall_app. split; [regw|apply itoa_reg].
    + apply drawn_blank; [blanks|]. pose proof (rgb_bytes (ct_color c)) as RB. unfold s1, text_state in D. destruct (rgb_of (ct_color c)) as [[r g] b]. destruct RB as (R1 & R2 & R3).
      apply drawn_colour; [assumption|assumption|assumption|]. destruct (has_colour (r, g, b)); exact D.
  - unfold s2, se. destruct (fgt _ _), (hasbit _ _); reflexivity.
  - unfold s2, se. rewrite SR. destruct (fgt _ _), (hasbit _ _); reflexivity.
  - unfold s2, se. rewrite SR. destruct (fgt _ _), (hasbit _ _); reflexivity.
  - unfold s2, se. rewrite SR. destruct (fgt _ _), (hasbit _ _); reflexivity.
  - unfold s2, se. rewrite SR. destruct (fgt _ _), (hasbit _ _); reflexivity.
Qed.

Lemma text_drawn : forall f index c l s, 0 < unitsPerEm (sf_ttf f) -> map fst l = runes (ct_text c) -> Forall (glyph_ok f) l ->
  rise_fin f (ct_size c) (ct_text c) ->
  let sum := sum_of f None l in
  finite (cal_x c (ct_w c) (scale_width sum (ct_size c))) -> finite (cal_y (sf_ttf f) c (ct_h c)) -> ul_fin f c -> border_fin c -> g_text s = false ->
  let s1 := text_state f index c sum s in
  exists o s2, text_stream f index c = Ok o /\
    draws o s s2 (shown (shown_at s1) (kern_opt f) (rise_at f (ct_size c) (ct_text c) (g_rise s)) None 0 l ++ ul_marks f c s1 ++ border_marks c s1) /\
    g_text s2 = false /\ g_fill s2 = g_fill s1.
Proof.
  intros f index c l s Hu El G R sum Fx Fy Fu Fb T s1. destruct (text_drawn_then f index c l s Hu El G R Fx Fy Fu Fb T) as (o & s2 & Eo & D & E1 & E2 & _).
  exists o, s2. split; [exact Eo|]. split; [|auto]. apply draws_drawn. specialize (D [] (s2, None) [] (drawn_end [] (s2, None) eq_refl)). rewrite !app_nil_r in D. exact D.
Qed.
