(** The operand of TJ: strings of codes, kerning and rise. *)
From Coq Require Import String List ZArith Lia Bool.
From Coq.Floats Require Import SpecFloat.
From Verif Require Import Base BaseProofs PdfSyntax PdfSyntaxProofs HexProofs Float64 TextSpec TextNumbers TextDraw.
Open Scope Z_scope.
Open Scope list_scope.

Inductive seg := SG (g : Z) | SA (n : Z) | SR (v : f64).
Definition seg_text (x : seg) : bytes :=
  match x with
  | SG g => hex4 g
  | SA n => B">" ++ itoa n ++ B"<"
  | SR v => B">] TJ" ++ [10] ++ fmt2 v ++ B" Ts" ++ [10] ++ B"[<"
  end.
Definition segs_text (l : list seg) : bytes := flat_map seg_text l.
Definition seg_ok (x : seg) : Prop := match x with SG g => 0 <= g < 65536 | SA _ => True | SR v => finite v end.

Definition set_rise (s : gstate) (z : Z) : gstate :=
  mkG (g_fill s) (g_font s) (g_size s) z (g_at s) (g_text s) (g_line s) (g_dash s) (g_path s) (g_cm s).
Fixpoint seg_marks (s : gstate) (l : list seg) : list mark :=
  match l with
  | [] => []
  | SG g :: l => glyph s g :: seg_marks s l
  | SA n :: l => Adjust (100 * n) :: seg_marks s l
  | SR v :: l => seg_marks (set_rise s (cents v)) l
  end.
Fixpoint seg_state (s : gstate) (l : list seg) : gstate :=
  match l with
  | [] => s
  | SR v :: l => seg_state (set_rise s (cents v)) l
  | _ :: l => seg_state s l
  end.

Lemma reads_hex : forall gs u, Forall (fun n => 0 <= n < 65536) gs -> reads (B"<" ++ flat_map hex4 gs ++ B">" ++ u) (PHex (flat_map hex4 gs)) u.
Proof.
  intros gs u H. exists 1%nat. change (B"<") with [60]. change (B">") with [62]. cbn [app value].
  assert (C : Forall (fun c => 48 <= c <= 57 \/ 65 <= c <= 70) (flat_map hex4 gs)).
  { induction H as [|g gs Hg H IH]; [apply Forall_nil|]. cbn [flat_map]. apply Forall_app. split; [apply hex4_chars; exact Hg|exact IH]. }
  rewrite skip_start by reflexivity. change (60 =? 47) with false. change (60 =? 91) with false. change (60 =? 40) with false. change (60 =? 60) with true. cbv iota.
  rewrite (span_word (fun x => negb (x =? 62))); [|eapply Forall_impl; [|exact C]; cbn beta; intros; lia|reflexivity].
  destruct (flat_map hex4 gs) as [|c t]; [reflexivity|]. inversion C; subst. cbn [app]. replace (c =? 60) with false by lia. reflexivity.
Qed.
Lemma codes_of_hex : forall gs, Forall (fun n => 0 <= n < 65536) gs -> unhex_codes (flat_map hex4 gs) = Some gs.
Proof. intros gs H. destruct (codes_hex4 gs H) as (b & E1 & E2). unfold unhex_codes. rewrite E1. exact E2. Qed.

Lemma op_TJ : forall s sv l ms, g_text s = true -> show s l = Some ms -> op1 (B"TJ") [PArr l] (s, sv) = Some (s, sv, ms).
Proof. intros [fill font size rise a text line dash path cm] sv l ms T E. cbn in T. subst text. unfold op1. cbn [beqb]. change (beqb (B"TJ") (B"BT")) with false. change (beqb (B"TJ") (B"ET")) with false. change (beqb (B"TJ") (B"TJ")) with true. cbv iota. rewrite E. reflexivity. Qed.
Lemma op_Ts : forall s sv v, finite v -> op1 (B"Ts") [PWord (fmt2 v)] (s, sv) = Some (set_rise s (cents v), sv, []).
Proof.
  intros [fill font size rise a text line dash path cm] sv v F. unfold op1.
  change (beqb (B"Ts") (B"BT")) with false. change (beqb (B"Ts") (B"ET")) with false. change (beqb (B"Ts") (B"TJ")) with false.
  change (beqb (B"Ts") (B"Tf")) with false. change (beqb (B"Ts") (B"Do")) with false. change (beqb (B"Ts") (B"d")) with false. cbv iota.
  cbn [nums]. destruct (cents_num v F) as (-> & _). reflexivity.
Qed.

Lemma reads_TJ : forall r, reads (B" TJ" ++ [10] ++ r) (PWord (B"TJ")) ([10] ++ r).
Proof. intros r. apply (reads_word [32] (B"TJ") ([10] ++ r)); [blanks|regw|discriminate|reflexivity|reflexivity]. Qed.

Lemma segs_read : forall l rest s sv st2 ms2, Forall seg_ok l -> g_text s = true -> drawn rest (seg_state s l, sv) st2 ms2 ->
  exists gs its u u' r ms1 msB, segs_text l ++ B">] TJ" ++ [10] ++ rest = flat_map hex4 gs ++ B">" ++ u /\ Forall (fun n => 0 <= n < 65536) gs /\
    reads_items u its u' /\ show s its = Some ms1 /\ reads u' (PWord (B"TJ")) r /\ drawn r (s, sv) st2 msB /\
    map (glyph s) gs ++ ms1 ++ msB = seg_marks s l ++ ms2.
Proof.
  induction l as [|x l IH]; intros rest s sv st2 ms2 V T D.
  - exists [], [], (B"] TJ" ++ [10] ++ rest), (B" TJ" ++ [10] ++ rest), ([10] ++ rest), [], ms2.
    split; [reflexivity|]. split; [apply Forall_nil|]. split; [apply (items_end [] (B" TJ" ++ [10] ++ rest)); apply Forall_nil|].
    split; [reflexivity|]. split; [apply reads_TJ|]. split; [|reflexivity]. apply drawn_blank; [blanks|exact D].
  - inversion V as [|? ? Hx Hl]; subst. destruct x as [g|n|v]; cbn [seg_ok] in Hx.
    + destruct (IH rest s sv st2 ms2 Hl T D) as (gs & its & u & u' & r & ms1 & msB & E & G & I & S1 & R & Dr & M).
      exists (g :: gs), its, u, u', r, ms1, msB. split; [change (segs_text (SG g :: l)) with (hex4 g ++ segs_text l); rewrite <- app_assoc, E; cbn [flat_map]; rewrite <- app_assoc; reflexivity|].
      split; [apply Forall_cons; assumption|]. repeat (split; [assumption|]). cbn [map seg_marks app]. rewrite M. reflexivity.
    + destruct (IH rest s sv st2 ms2 Hl T D) as (gs & its & u & u' & r & ms1 & msB & E & G & I & S1 & R & Dr & M).
      set (u1 := B"<" ++ flat_map hex4 gs ++ B">" ++ u).
      exists [], (PInt n :: PHex (flat_map hex4 gs) :: its), (itoa n ++ u1), u', r, (Adjust (100 * n) :: map (glyph s) gs ++ ms1), msB.
      split. { change (segs_text (SA n :: l)) with ((B">" ++ itoa n ++ B"<") ++ segs_text l). rewrite <- !app_assoc, E. reflexivity. }
      split; [apply Forall_nil|]. split.
      { assert (R1 : reads (itoa n ++ u1) (PInt n) u1) by (apply (reads_int [] n u1); [apply Forall_nil|reflexivity|apply (ref_none [] 60); [apply Forall_nil|reflexivity|reflexivity]]).
        destruct (itoa_hd n) as (c & t & Ec & Wc & Dc).
        eapply (items_step (itoa n ++ u1) c (t ++ u1)); [rewrite Ec; cbn [app]; apply skip_start; exact Wc| |exact R1|].
        { unfold is_digit in Dc. lia. }
        eapply (items_step u1 60 (flat_map hex4 gs ++ B">" ++ u)); [reflexivity|lia|apply reads_hex; exact G|exact I]. }
      split. { cbn [show num]. rewrite codes_of_hex by exact G. rewrite S1. reflexivity. }
      split; [exact R|]. split; [exact Dr|]. cbn [map app seg_marks]. rewrite <- app_assoc, M. reflexivity.
    + assert (T' : g_text (set_rise s (cents v)) = true) by exact T. cbn [seg_state] in D.
      destruct (IH rest (set_rise s (cents v)) sv st2 ms2 Hl T' D) as (gs & its & u & u' & r & ms1 & msB & E & G & I & S1 & R & Dr & M).
      set (u1 := B"<" ++ flat_map hex4 gs ++ B">" ++ u).
      set (tail := fmt2 v ++ B" Ts" ++ [10] ++ B"[" ++ u1).
      exists [], [], (B"] TJ" ++ [10] ++ tail), (B" TJ" ++ [10] ++ tail), ([10] ++ tail), [], (seg_marks (set_rise s (cents v)) l ++ ms2).
      split. { change (segs_text (SR v :: l)) with ((B">] TJ" ++ [10] ++ fmt2 v ++ B" Ts" ++ [10] ++ B"[<") ++ segs_text l). unfold tail, u1. rewrite <- !app_assoc, E. reflexivity. }
      split; [apply Forall_nil|]. split; [apply (items_end [] (B" TJ" ++ [10] ++ tail)); apply Forall_nil|].
      split; [reflexivity|]. split; [apply reads_TJ|]. split; [|reflexivity].
      apply drawn_blank; [blanks|]. change (seg_marks (set_rise s (cents v)) l ++ ms2) with ([] ++ (seg_marks (set_rise s (cents v)) l ++ ms2)).
      eapply drawn_op; [apply (opd_fmt [] v (B" Ts" ++ [10] ++ B"[" ++ u1) []); [apply Forall_nil|exact Hx|reflexivity|apply opd_nil]
                       |apply (reads_word [32] (B"Ts") ([10] ++ B"[" ++ u1)); [blanks|regw|discriminate|reflexivity|reflexivity]
                       |reflexivity|apply op_Ts; exact Hx|].
      rewrite <- M. apply drawn_blank; [blanks|]. rewrite app_assoc.
      eapply drawn_op; [eapply opd_cons; [apply (reads_arr [] u1); [apply Forall_nil|]|exact Logic.I|apply opd_nil]|exact R|reflexivity| |exact Dr].
      * eapply (items_step u1 60 (flat_map hex4 gs ++ B">" ++ u)); [reflexivity|lia|apply reads_hex; exact G|exact I].
      * apply op_TJ; [exact T'|]. cbn [show]. rewrite codes_of_hex by exact G. rewrite S1. reflexivity.
Qed.

Lemma drawn_segs : forall l rest s sv st2 ms2, Forall seg_ok l -> g_text s = true -> drawn rest (seg_state s l, sv) st2 ms2 ->
  drawn (B"[<" ++ segs_text l ++ B">] TJ" ++ [10] ++ rest) (s, sv) st2 (seg_marks s l ++ ms2).
Proof.
  intros l rest s sv st2 ms2 V T D. destruct (segs_read l rest s sv st2 ms2 V T D) as (gs & its & u & u' & r & ms1 & msB & E & G & I & S1 & R & Dr & M).
  rewrite E, <- M. change (B"[<") with (B"[" ++ B"<"). rewrite <- app_assoc. rewrite (app_assoc (map (glyph s) gs)). set (u1 := B"<" ++ flat_map hex4 gs ++ B">" ++ u).
  eapply drawn_op; [eapply opd_cons; [apply (reads_arr [] u1); [apply Forall_nil|]|exact Logic.I|apply opd_nil]|exact R|reflexivity| |exact Dr].
  - eapply (items_step u1 60 (flat_map hex4 gs ++ B">" ++ u)); [reflexivity|lia|apply reads_hex; exact G|exact I].
  - apply op_TJ; [exact T|]. cbn [show]. rewrite codes_of_hex by exact G. rewrite S1. reflexivity.
Qed.
