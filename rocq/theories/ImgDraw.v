(** What the content of an image draws. *)
From Coq Require Import String List ZArith Lia Bool.
From Coq.Floats Require Import SpecFloat.
From Verif Require Import Base BaseProofs PdfSyntax PdfSyntaxProofs Float64 Text TextSpec TextNumbers TextDraw.
Open Scope Z_scope.
Open Scope list_scope.

Lemma fmt_head : forall x, finite x -> exists c t, fmt2 x = c :: t /\ wsp c = false /\ c <> 82.
Proof.
  intros x F. destruct (fmt2_reads x F) as (n & R & Ne & _ & D & _). destruct (fmt2 x) as [|c t]; [congruence|]. exists c, t. split; [reflexivity|].
  inversion R as [|? ? Rc _]; subst. split; [unfold regular in Rc; destruct (wsp c); [discriminate|reflexivity]|].
  intros ->. vm_compute in D. discriminate.
Qed.

(** Whatever is drawn after it. *)
Lemma img_draws_then : forall w h x y height ch idx s after g2 ms2, Forall finite [w; h; x; fsub height (fadd y h)] -> reg_word ch -> g_cm s = None -> drawn after (s, None) g2 ms2 ->
  drawn (img_stream w h x y height ch idx ++ after) (s, None) g2 (Image (ch ++ itoa idx) (Some (cents w, 0, 0, cents h, cents x, cents (fsub height (fadd y h)))) :: ms2).
Proof.
  intros w h x y height ch idx s after g2 ms2 F Rc Cm Da. set (v := fsub height (fadd y h)) in *.
  inversion F as [|? ? Fw F1]; subst. inversion F1 as [|? ? Fh F2]; subst. inversion F2 as [|? ? Fx F3]; subst. inversion F3 as [|? ? Fv _]; subst.
  destruct s as [fill font size rise at_ text line dash path cm]. cbn [g_cm] in Cm. subst cm.
  set (s0 := mkG fill font size rise at_ text line dash path None). unfold img_stream. fold v. rewrite <- !app_assoc.
  assert (Rn : reg_word (ch ++ itoa idx)) by (apply Forall_app; split; [exact Rc|apply itoa_reg]).
  change (B"q " ++ fmt2 w ++ B" 0 0 " ++ fmt2 h ++ B" " ++ fmt2 x ++ B" " ++ fmt2 v ++ B" cm /" ++ ch ++ itoa idx ++ B" Do Q" ++ [10] ++ after)
    with (B"q" ++ (B" " ++ fmt2 w ++ (B" " ++ itoa 0 ++ (B" " ++ itoa 0 ++ (B" " ++ fmt2 h ++ (B" " ++ fmt2 x ++ (B" " ++ fmt2 v ++ (B" " ++ B"cm" ++ (B" " ++ 47 :: ch ++ itoa idx ++ B" Do Q" ++ [10] ++ after))))))))).
  change (Image (ch ++ itoa idx) (Some (cents w, 0, 0, cents h, cents x, cents v)) :: ms2)
    with (([] : list mark) ++ [] ++ [Image (ch ++ itoa idx) (Some (cents w, 0, 0, cents h, cents x, cents v))] ++ [] ++ ms2).
  destruct (fmt_head h Fh) as (ch0 & th & Eh & Hh & Rh). destruct (fmt_head x Fx) as (cx0 & tx & Ex & Hx & Rx).
  eapply drawn_op; [apply opd_nil|apply (reads_word [] (B"q")); [blanks|regw|discriminate|reflexivity|reflexivity]|reflexivity|reflexivity|].
  eapply drawn_op.
  - apply opd_fmt; [blanks|exact Fw|reflexivity|].
    apply opd_int; [blanks|reflexivity| |].
    { rewrite Eh. apply (ref_none2 (B" ") (itoa 0) (B" ")); [blanks|apply itoa_reg|blanks|reflexivity|discriminate|exact Hh|exact Rh]. }
    apply opd_int; [blanks|reflexivity| |].
    { rewrite Ex. apply (ref_none2 (B" ") (fmt2 h) (B" ")); [blanks|destruct (fmt2_reads h Fh) as (? & G & _); exact G|blanks|reflexivity|rewrite Eh; discriminate|exact Hx|exact Rx]. }
    apply opd_fmt; [blanks|exact Fh|reflexivity|]. apply opd_fmt; [blanks|exact Fx|reflexivity|]. apply opd_fmt; [blanks|exact Fv|reflexivity|]. apply opd_nil.
  - apply reads_word; [blanks|regw|discriminate|reflexivity|reflexivity].
  - reflexivity.
  - assert (N : nums [PWord (fmt2 w); PInt 0; PInt 0; PWord (fmt2 h); PWord (fmt2 x); PWord (fmt2 v)] = Some [cents w; 0; 0; cents h; cents x; cents v]).
    { cbn [nums]. rewrite (proj1 (cents_num _ Fw)), (proj1 (cents_num _ Fh)), (proj1 (cents_num _ Fx)), (proj1 (cents_num _ Fv)). reflexivity. }
    unfold op1. rewrite N. reflexivity.
  - rewrite (app_assoc ch). eapply drawn_op.
    + apply opd_name; [blanks|exact Rn|reflexivity|apply opd_nil].
    + change (B" Do Q" ++ [10] ++ after) with (B" " ++ B"Do" ++ B" Q" ++ [10] ++ after). apply reads_word; [blanks|regw|discriminate|reflexivity|reflexivity].
    + reflexivity.
    + reflexivity.
    + eapply drawn_op; [apply opd_nil|change (B" Q" ++ [10] ++ after) with (B" " ++ B"Q" ++ [10] ++ after); apply reads_word; [blanks|regw|discriminate|reflexivity|reflexivity]|reflexivity|reflexivity|].
      apply (drawn_blank [10]); [blanks|exact Da].
Qed.

Lemma img_draws : forall w h x y height ch idx s, Forall finite [w; h; x; fsub height (fadd y h)] -> reg_word ch -> g_cm s = None ->
  draws (img_stream w h x y height ch idx) s s [Image (ch ++ itoa idx) (Some (cents w, 0, 0, cents h, cents x, cents (fsub height (fadd y h))))].
Proof.
  intros w h x y height ch idx s F Rc Cm. apply draws_drawn. rewrite <- (app_nil_r (img_stream w h x y height ch idx)). apply img_draws_then; [exact F|exact Rc|exact Cm|apply drawn_end; reflexivity].
Qed.
