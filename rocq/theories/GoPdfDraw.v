(** The operators GoPdf writes for the calls. *)
From Coq Require Import String List ZArith Lia Bool.
From Coq.Floats Require Import SpecFloat.
From Verif Require Import Base BaseProofs Utf8 PdfSyntax PdfSyntaxProofs HexProofs Float64 Ttf TtfProofs Subset CharMap Text TextSpec TextNumbers TextDraw TextBody TextContent TextFinal TextCases.
From Verif Require Import GoPdf GoPdfSpec GoPdfFile GoPdfPages GoPdfRun GoPdfDoc GoPdfTree GoPdfDrawSpec.
Open Scope Z_scope.
Open Scope list_scope.

(** ** Operators *)

Lemma ops_end : forall s, skip s = [] -> operators s [].
Proof. intros s H. exists []. split; [apply tokens_end; exact H|reflexivity]. Qed.

Lemma group_args : forall l acc t, Forall operand l -> group acc (l ++ t) = group (acc ++ l) t.
Proof.
  induction l as [|v l IH]; intros acc t H; [rewrite app_nil_r; reflexivity|]. inversion H as [|? ? Hv Hl]; subst. cbn [app group].
  replace (is_op v) with (@None bytes).
  - rewrite IH by exact Hl. rewrite <- app_assoc. reflexivity.
  - destruct v; try reflexivity. cbn [operand] in Hv. unfold is_op. destruct (num (PWord w)); [reflexivity|congruence].
Qed.
Lemma ops_step : forall s args r w r' l, operands s args r -> reads r (PWord w) r' -> num (PWord w) = None -> operators r' l -> operators s ((args, w) :: l).
Proof.
  intros s args r w r' l O R N (ts & T & G). exists (args ++ PWord w :: ts). split.
  - eapply tokens_operands; [exact O|]. eapply tokens_more; eauto.
  - rewrite group_args by (eapply operands_all; eauto). cbn [app group]. unfold is_op. rewrite N, G. reflexivity.
Qed.
Lemma ops_blank : forall w s l, blank w -> operators s l -> operators (w ++ s) l.
Proof.
  intros w s l Hw (ts & T & G). exists ts. split; [|exact G]. inversion T as [? E|? v r l' R T']; subst.
  - apply tokens_end. rewrite skip_blank by auto. exact E.
  - eapply tokens_more; [|exact T']. destruct R as (f & R). exists f. destruct f as [|f]; [discriminate|]. cbn [value] in *. rewrite skip_blank by auto. exact R.
Qed.
Lemma operators_unique : forall s l l', operators s l -> operators s l' -> l = l'.
Proof. intros s l l' (t & T & G) (t' & T' & G'). rewrite (tokens_unique _ _ _ T T') in G. congruence. Qed.

Definition ops_ready (w : bytes) : Prop := plain_op w.
Lemma ops_fmts : forall xs w r l, Forall finite xs -> plain_op w -> stops r -> operators r l -> operators (fmts xs (w ++ r)) ((map (fun x => PWord (fmt2 x)) xs, w) :: l).
Proof.
  intros xs w r l F (W1 & W2 & W3 & W4) Hr D. destruct (fmts_operands xs [] (w ++ r) (Forall_nil _) F) as (w' & Hw' & O). cbn [app] in O.
  eapply ops_step; [exact O|apply reads_word; assumption|exact W4|exact D].
Qed.
Lemma ops_word : forall b w r l, blank b -> plain_op w -> stops r -> operators r l -> operators (b ++ w ++ r) (([], w) :: l).
Proof. intros b w r l Hb (W1 & W2 & W3 & W4) Hr D. eapply ops_step; [apply opd_nil|apply reads_word; assumption|exact W4|exact D]. Qed.

(** [s] writes the operators [ws]. *)
Definition writes (ws : list wop) (s : bytes) : Prop :=
  forall r l, operators r l -> exists o, operators (s ++ r) (o ++ l) /\ Forall2 fit_op ws o.

Lemma writes_nil : writes [] [].
Proof. intros r l H. exists []. split; [exact H|constructor]. Qed.
Lemma writes_app : forall a b s t, writes a s -> writes b t -> writes (a ++ b) (s ++ t).
Proof.
  intros a b s t Ha Hb r l H. destruct (Hb r l H) as (o2 & O2 & F2). destruct (Ha _ _ O2) as (o1 & O1 & F1). exists (o1 ++ o2).
  rewrite <- !app_assoc. split; [exact O1|]. apply Forall2_app; assumption.
Qed.

Lemma fits_near : forall xs, Forall finite xs -> Forall2 fits (map Near xs) (map (fun x => PWord (fmt2 x)) xs).
Proof. induction xs as [|x xs IH]; intros H; [constructor|]. inversion H; subst. cbn [map]. constructor; [|auto]. exists (cents x). apply cents_num. assumption. Qed.
Lemma sound_near : forall xs w, sound_op (map Near xs, w) -> Forall finite xs.
Proof.
  intros xs w H. unfold sound_op in H. cbn [fst] in H. induction xs as [|x xs IH]; [constructor|]. cbn [map] in H. inversion H; subst. constructor; auto.
Qed.

Ltac plain := repeat split; first [discriminate|reflexivity|regw].

(** One operator with numbers as operands, and the newline. *)
Lemma writes_fmts : forall xs w, plain_op w -> sound_op (map Near xs, w) -> writes [(map Near xs, w)] (fmts xs (w ++ [10])).
Proof.
  intros xs w W H r l D. pose proof (sound_near _ _ H) as F. eexists [(_, w)]. split.
  - replace (fmts xs (w ++ [10]) ++ r) with (fmts xs (w ++ [10] ++ r)).
    + apply ops_fmts; [exact F|exact W|reflexivity|]. apply ops_blank; [blanks|exact D].
    + clear. induction xs as [|x xs IH]; cbn [fmts]; [rewrite <- app_assoc; reflexivity|]. rewrite <- !app_assoc, IH. reflexivity.
  - constructor; [|constructor]. split; [apply fits_near; exact F|reflexivity].
Qed.
Lemma fmts_app : forall xs s r, fmts xs s ++ r = fmts xs (s ++ r).
Proof. induction xs as [|x xs IH]; intros s r; cbn [fmts]; [reflexivity|]. rewrite <- !app_assoc, IH. reflexivity. Qed.
(** The same with a blank and one more operator without operands. *)
Lemma writes_fmts2 : forall xs w v, plain_op w -> plain_op v -> sound_op (map Near xs, w) -> writes [(map Near xs, w); ([], v)] (fmts xs (w ++ B" " ++ v ++ [10])).
Proof.
  intros xs w v W V H r l D. pose proof (sound_near _ _ H) as F. eexists [(_, w); ([], v)]. split.
  - rewrite fmts_app, <- !app_assoc. apply ops_fmts; [exact F|exact W|reflexivity|]. apply ops_word; [blanks|exact V|reflexivity|]. apply ops_blank; [blanks|exact D].
  - constructor; [split; [apply fits_near; exact F|reflexivity]|]. constructor; [split; [constructor|reflexivity]|constructor].
Qed.
Lemma writes_word : forall w, plain_op w -> writes [([], w)] (w ++ [10]).
Proof.
  intros w W r l D. exists [([], w)]. split.
  - rewrite <- app_assoc. apply (ops_word []); [apply Forall_nil|exact W|reflexivity|]. apply ops_blank; [blanks|exact D].
  - constructor; [split; [constructor|reflexivity]|constructor].
Qed.

Lemma writes_line : forall a b c d, Forall sound_op (line_ops a b c d) -> writes (line_ops a b c d) (line_text a b c d).
Proof.
  intros a b c d H r l D. unfold line_ops in H. inversion H as [|? ? H1 H']; subst. inversion H' as [|? ? H2 _]; subst.
  pose proof (sound_near [a; b] _ H1) as F1. pose proof (sound_near [c; d] _ H2) as F2.
  exists [(map (fun x => PWord (fmt2 x)) [a; b], B"m"); (map (fun x => PWord (fmt2 x)) [c; d], B"l"); ([], B"s")]. split.
  - replace (line_text a b c d ++ r) with (fmts [a; b] (B"m" ++ (B" " ++ fmts [c; d] (B"l" ++ B" " ++ B"s" ++ [10] ++ r))))
      by (unfold line_text; cbn [fmts]; rewrite <- !app_assoc; reflexivity).
    apply ops_fmts; [exact F1|plain|reflexivity|]. apply ops_blank; [blanks|]. apply ops_fmts; [exact F2|plain|reflexivity|].
    apply ops_word; [blanks|plain|reflexivity|]. apply ops_blank; [blanks|exact D].
  - constructor; [split; [apply (fits_near [a; b]); exact F1|reflexivity]|]. constructor; [split; [apply (fits_near [c; d]); exact F2|reflexivity]|].
    constructor; [split; [constructor|reflexivity]|constructor].
Qed.

(** ** Graphics *)

Lemma style_plain : forall s, plain_op (painting s).
Proof. intros s. unfold painting. destruct (beqb s (B"F")); [plain|]. destruct (beqb s (B"FD") || beqb s (B"DF")); plain. Qed.

Lemma writes_rect : forall h x y a b s, Forall sound_op [(map Near [x; fsub h y; a; b], B"re"); ([], painting s)] ->
  writes [(map Near [x; fsub h y; a; b], B"re"); ([], painting s)] (rect_cache h x y a b s).
Proof.
  intros h x y a b s H. inversion H as [|? ? H1 _]; subst.
  replace (rect_cache h x y a b s) with (fmts [x; fsub h y; a; b] (B"re" ++ B" " ++ painting s ++ [10])) by (unfold rect_cache; cbn [fmts]; rewrite <- ?app_assoc; reflexivity).
  apply writes_fmts2; [plain|apply style_plain|exact H1].
Qed.

Lemma writes_curve : forall h x0 y0 x1 y1 x2 y2 x3 y3 s ws,
  ws = [(map Near [x0; fsub h y0], B"m"); (map Near [x1; fsub h y1; x2; fsub h y2; x3; fsub h y3], B"c"); ([], painting s)] ->
  Forall sound_op ws -> writes ws (curve_cache h x0 y0 x1 y1 x2 y2 x3 y3 s).
Proof.
  intros h x0 y0 x1 y1 x2 y2 x3 y3 s ws -> H. inversion H as [|? ? H1 H']; subst. inversion H' as [|? ? H2 _]; subst.
  replace (curve_cache h x0 y0 x1 y1 x2 y2 x3 y3 s) with (fmts [x0; fsub h y0] (B"m" ++ [10]) ++ fmts [x1; fsub h y1; x2; fsub h y2; x3; fsub h y3] (B"c" ++ B" " ++ painting s ++ [10]))
    by (unfold curve_cache, six; cbn [fmts]; rewrite <- ?app_assoc; reflexivity).
  apply (writes_app [_] [_; _]); [apply writes_fmts; [plain|exact H1]|apply writes_fmts2; [plain|apply style_plain|exact H2]].
Qed.

Lemma writes_oval : forall h x1 y1 x2 y2, Forall sound_op (oval_ops h x1 y1 x2 y2) -> writes (oval_ops h x1 y1 x2 y2) (oval_cache h x1 y1 x2 y2).
Proof.
  intros h x1 y1 x2 y2 H. unfold oval_ops in *. cbv zeta in *.
  unfold oval_cache. cbv zeta.
  set (cx := fadd x1 (fdiv (fsub x2 x1) (fofz 2))) in *. set (cy := fsub h (fadd y1 (fdiv (fsub y2 y1) (fofz 2)))) in *.
  set (dx := fmul (fdiv (fsub x2 x1) (fofz 2)) (fconst 55228 100000)) in *. set (dy := fmul (fdiv (fsub y2 y1) (fofz 2)) (fconst 55228 100000)) in *.
  clearbody cx cy dx dy.
  inversion H as [|? ? H1 HA]; subst. inversion HA as [|? ? H2 HB]; subst. inversion HB as [|? ? H3 HC]; subst. inversion HC as [|? ? H4 HD]; subst. inversion HD as [|? ? H5 _]; subst.
  clear H HA HB HC HD.
  match goal with |- writes _ ?x => replace x with (fmts [cx; fsub h y2] (B"m" ++ [10]) ++ fmts [fadd cx dx; fsub h y2; x2; fsub cy dy; x2; cy] (B"c" ++ [10])
    ++ fmts [x2; fadd cy dy; fadd cx dx; fsub h y1; cx; fsub h y1] (B"c" ++ [10]) ++ fmts [fsub cx dx; fsub h y1; x1; fadd cy dy; x1; cy] (B"c" ++ [10])
    ++ fmts [x1; fsub cy dy; fsub cx dx; fsub h y2; cx; fsub h y2] (B"c" ++ B" " ++ B"S" ++ [10]))
    by (unfold six; cbn [fmts]; rewrite <- ?app_assoc; reflexivity) end.
  apply (writes_app [_] [_; _; _; _; _]); [apply (writes_fmts [cx; fsub h y2]); [plain|exact H1]|].
  apply (writes_app [_] [_; _; _; _]); [apply writes_fmts; [plain|exact H2]|].
  apply (writes_app [_] [_; _; _]); [apply writes_fmts; [plain|exact H3]|].
  apply (writes_app [_] [_; _]); [apply writes_fmts; [plain|exact H4]|]. apply writes_fmts2; [plain|plain|exact H5].
Qed.

Lemma writes_type : forall t, writes [((if beqb t (B"dashed") then [ints [5]; Is (PInt 2)] else if beqb t (B"dotted") then [ints [2; 3]; Is (PInt 11)]
  else [ints []; Is (PInt 0)]), B"d")] (type_cache t).
Proof.
  intros t r l D. unfold type_cache.
  assert (D' : operators ([10] ++ r) l) by (apply ops_blank; [blanks|exact D]).
  assert (X : forall items n s v, reads s (PArr (map PInt items)) (B" " ++ itoa n ++ B" d" ++ [10] ++ r) -> v = [ints items; Is (PInt n)] ->
    exists o, operators s (o ++ l) /\ Forall2 fit_op [(v, B"d")] o).
  { intros items n s v R ->. exists [([PArr (map PInt items); PInt n], B"d")]. split.
    - eapply ops_step; [eapply opd_cons; [exact R|exact Logic.I|apply opd_int; [blanks|reflexivity| |apply opd_nil]]| |reflexivity|exact D'].
      + apply (ref_none (B" ") 100 ([10] ++ r)); [blanks|reflexivity|reflexivity].
      + apply (reads_word [32] (B"d") ([10] ++ r)); [blanks|regw|discriminate|reflexivity|reflexivity].
    - constructor; [|constructor]. split; [|reflexivity]. constructor; [reflexivity|]. constructor; [reflexivity|constructor]. }
  destruct (beqb t (B"dashed")); [|destruct (beqb t (B"dotted"))].
  - apply (X [5] 2); [exists 20%nat; reflexivity|reflexivity].
  - apply (X [2; 3] 11); [exists 20%nat; reflexivity|reflexivity].
  - apply (X [] 0); [exists 20%nat; reflexivity|reflexivity].
Qed.

(** Colours. *)
Lemma part_near : forall c, 0 <= c < 256 -> Z.abs (255 * cents (fmul (fofz c) color_unit) - 100 * c) <= 127.
Proof.
  assert (H : forallb (fun z => Z.abs (255 * cents (fmul (fofz (Z.of_nat z)) color_unit) - 100 * Z.of_nat z) <=? 127) (seq 0 256) = true) by (vm_compute; reflexivity).
  intros c Hc. rewrite forallb_forall in H. specialize (H (Z.to_nat c)). rewrite Z2Nat.id in H by lia. apply Z.leb_le, H, in_seq. lia.
Qed.
Definition color_list (c : Z * Z * Z) : list f64 := let '(r, g, b) := c in map (fun z => fmul (fofz z) color_unit) [r; g; b].
Lemma rgb_sound : forall c w, sound_op (rgb_want c, w) -> Forall finite (color_list c) /\ Forall2 fits (rgb_want c) (map (fun x => PWord (fmt2 x)) (color_list c)).
Proof.
  intros ((r, g), b) w H. unfold sound_op, rgb_want in H. cbn [fst] in H. inversion H as [|? ? Hr H']; subst. inversion H' as [|? ? Hg H'']; subst. inversion H'' as [|? ? Hb _]; subst.
  cbn [sound] in *. assert (X : forall z, 0 <= z < 256 -> finite (fmul (fofz z) color_unit)) by (intros z Hz; apply colour_finite; exact Hz).
  assert (Y : forall z, 0 <= z < 256 -> fits (Part z) (PWord (fmt2 (fmul (fofz z) color_unit)))).
  { intros z Hz. exists (cents (fmul (fofz z) color_unit)). split; [apply cents_num, X; exact Hz|apply part_near; exact Hz]. }
  split; cbn [color_list rgb_want map]; auto 10.
Qed.
Lemma writes_color : forall c w, plain_op w -> sound_op (rgb_want c, w) -> writes [(rgb_want c, w)] (fmts (color_list c) (w ++ [10])).
Proof.
  intros c w W H r l D. destruct (rgb_sound c w H) as (F & T). eexists [(_, w)]. split.
  - rewrite fmts_app, <- app_assoc. apply ops_fmts; [exact F|exact W|reflexivity|]. apply ops_blank; [blanks|exact D].
  - constructor; [|constructor]. split; [exact T|reflexivity].
Qed.
Lemma color_fmts : forall c (s : bool), color_cache s c = fmts (color_list c) ((if s then B"RG" else B"rg") ++ [10]).
Proof. intros ((r, g), b) s. unfold color_cache. cbn [color_list map fmts]. rewrite <- ?app_assoc. reflexivity. Qed.

(** Images. *)
Lemma writes_image : forall k rw rh x y h ws,
  ws = [([], B"q"); ([Near rw; Is (PInt 0); Is (PInt 0); Near rh; Near x; Near (fsub h (fadd y rh))], B"cm"); ([Is (PName (B"I" ++ itoa (k + 1)))], B"Do"); ([], B"Q")] ->
  Forall sound_op ws -> writes ws (image_cache k x y h (rw, rh)).
Proof.
  intros k rw rh x y h ws -> H r l D. inversion H as [|? ? _ H']; subst. inversion H' as [|? ? H1 _]; subst. unfold sound_op in H1. cbn [fst] in H1. clear H H'.
  inversion H1 as [|? ? Fw H2]; subst. inversion H2 as [|? ? _ H3]; subst. inversion H3 as [|? ? _ H4]; subst. inversion H4 as [|? ? Fh H5]; subst.
  inversion H5 as [|? ? Fx H6]; subst. inversion H6 as [|? ? Fy _]; subst. cbn [sound] in *. clear H1 H2 H3 H4 H5 H6.
  set (yy := fsub h (fadd y rh)) in *.
  exists [([], B"q"); ([PWord (fmt2 rw); PInt 0; PInt 0; PWord (fmt2 rh); PWord (fmt2 x); PWord (fmt2 yy)], B"cm"); ([PName (B"I" ++ itoa (k + 1))], B"Do"); ([], B"Q")].
  split.
  - unfold image_cache, img_stream. cbn [fst snd]. fold yy. rewrite <- !app_assoc. cbn [app].
    match goal with |- operators ?s _ => change s with ([] ++ B"q" ++ B" " ++ fmt2 rw ++ B" " ++ itoa 0 ++ B" " ++ itoa 0 ++ B" " ++ fmt2 rh ++ B" " ++ fmt2 x ++ B" " ++ fmt2 yy
       ++ B" cm" ++ B" " ++ 47 :: ((B"I" ++ itoa (k + 1)) ++ B" Do" ++ B" Q" ++ [10] ++ r)) end.
    apply ops_word; [apply Forall_nil|plain|reflexivity|].
    destruct (fmt_word rh Fh) as (W1 & W2 & W3 & c & y0 & Ew & W4 & W5).
    eapply ops_step.
    { apply opd_fmt; [blanks|exact Fw|reflexivity|]. apply opd_int; [blanks|reflexivity| |].
      { rewrite Ew. apply (ref_none2 (B" ") (itoa 0) (B" ") c (y0 ++ B" " ++ fmt2 x ++ B" " ++ fmt2 yy ++ B" cm" ++ B" " ++ 47 :: ((B"I" ++ itoa (k + 1)) ++ B" Do" ++ B" Q" ++ [10] ++ r)));
          [blanks|apply TextFinal.itoa_reg|blanks|reflexivity|apply itoa_nn|exact W5|exact W4]. }
      apply opd_int; [blanks|reflexivity| |].
      { apply ref_none3; [blanks|exact W1|exact W2|exact W3|reflexivity]. }
      apply opd_fmt; [blanks|exact Fh|reflexivity|]. apply opd_fmt; [blanks|exact Fx|reflexivity|]. apply opd_fmt; [blanks|exact Fy|reflexivity|]. apply opd_nil. }
    { apply (reads_word [32] (B"cm")); [blanks|regw|discriminate|reflexivity|reflexivity]. }
    { reflexivity. }
    eapply ops_step.
    { apply opd_name; [blanks| |reflexivity|apply opd_nil]. apply Forall_cons; [reflexivity|]. apply TextFinal.itoa_reg. }
    { apply (reads_word [32] (B"Do")); [blanks|regw|discriminate|reflexivity|reflexivity]. }
    { reflexivity. }
    apply (ops_word [32] (B"Q") ([10] ++ r)); [blanks|plain|reflexivity|]. apply ops_blank; [blanks|exact D].
  - assert (NF : forall z, finite z -> fits (Near z) (PWord (fmt2 z))) by (intros z Fz; exists (cents z); apply cents_num; exact Fz).
    constructor; [split; [constructor|reflexivity]|]. constructor.
    + split; [|reflexivity]. cbn [fst]. constructor; [auto|]. constructor; [reflexivity|]. constructor; [reflexivity|]. constructor; [auto|]. constructor; [auto|]. constructor; [auto|constructor].
    + constructor; [split; [constructor; [reflexivity|constructor]|reflexivity]|]. constructor; [split; [constructor|reflexivity]|constructor].
Qed.
