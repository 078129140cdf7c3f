(** Programs for Prop_GoPdfMove.v. *)
From Coq Require Import String List ZArith Lia Bool.
From Coq.Floats Require Import SpecFloat.
From Verif Require Import Base BaseProofs Utf8 Output OutputSpec Crypto PdfSyntax PdfSyntaxProofs Png PngSpec Float64 Ttf Subset CharMap Text TextSpec TestFont TextCases
  GoPdf GoPdfSpec GoPdfFile GoPdfTree GoPdfDrawSpec GoPdfDocSpec GoPdfMain GoPdfRead GoPdfCases GoPdfSetCases GoPdfMoveSpec.
Open Scope Z_scope.
Open Scope list_scope.

(** ** Positions *)

(** A cell that floats down, then two texts in one line. *)
Definition prog_move : list gcall :=
  [a_font; std_page; SetFont (B"T") 0 20; CellOpt (Some (fofz 30, fofz 40)) (B"A") aLeft 0 aBottom; Text (B"A"); Text (B"A"); SetY (fofz 50)].
Definition saved_move := save gw_id [] page_cfg prog_move.
Lemma move_case : exists t F q1 q2 q3 q4, document gw_id [] page_cfg t F /\ map (fun x => snd (fst x)) t = prog_move /\ Forall (fun x => snd x = None) t /\
  map (fun x => fst (fst x)) (skipn 3 t) = [q1; q2; q3; q4] /\
  u_x (g_cur q1) = fofz 10 /\ u_y (g_cur q1) = fofz 10 /\ u_x (g_cur q2) = fofz 10 /\ u_y (g_cur q2) = fofz 50 /\
  u_x (g_cur q3) = fofz 16 /\ u_y (g_cur q3) = fofz 50 /\ u_x (g_cur q4) = fofz 28 /\ u_y (g_cur q4) = fofz 50.
Proof.
  destruct (s_document gw_id [] page_cfg prog_move saved_move eq_refl ltac:(vm_compute; reflexivity)) as (D & M).
  exists (s_trace saved_move), (s_file saved_move), (state_at 3 (s_trace saved_move)), (state_at 4 (s_trace saved_move)), (state_at 5 (s_trace saved_move)), (state_at 6 (s_trace saved_move)).
  split; [exact D|]. split; [exact M|]. split; [apply no_errors_ok; vm_compute; reflexivity|].
  do 8 (split; [vm_compute; reflexivity|]). vm_compute; reflexivity.
Qed.

(** ** Levels of compression *)

(** A world that writes the level before the data. *)
Definition gw_level : gworld := mkGW (fun _ => FBad) (fun _ => None) (fun b => Ok b) (fun b => b) (fun l b => itoa l ++ [32] ++ b).
Definition prog_level (ns : list Z) : list gcall := std_page :: Line (fofz 1) (fofz 2) (fofz 3) (fofz 4) :: map CompressLevel ns.
Definition saved_level (ns : list Z) := save gw_level [] page_cfg (prog_level ns).

Theorem stream_unique : forall F id d b d' b', stream_is F id d b -> stream_is F id d' b' -> d = d' /\ b = b'.
Proof.
  intros F id d b d' b' (s & T & r & e & e2 & z & R & K & He & _ & L) (s' & T' & r' & e' & e2' & z' & R' & K' & He' & _ & L').
  rewrite <- (object_text_unique _ _ _ _ T T') in R'. destruct (reads_unique _ _ _ _ _ R R') as (Ed & <-). injection Ed as <-. split; [reflexivity|].
  rewrite K in K'. apply app_inv_head in K'. assert (Eb : blen b = blen b') by congruence.
  assert (e = e'). { destruct He as [-> | ->], He' as [-> | ->]; try reflexivity; exfalso; injection K'; intros; discriminate. }
  subst e'. apply app_inv_head in K'. unfold blen in Eb. assert (Hl : List.length b = List.length b') by lia.
  assert (X : forall (x y u v : bytes), List.length x = List.length y -> x ++ u = y ++ v -> x = y).
  { induction x as [|k x IH]; intros [|k' y] u v Hx Hy; try discriminate; [reflexivity|]. cbn [app List.length] in *. injection Hy as -> Hy. f_equal. eapply IH; [lia|exact Hy]. }
  exact (X _ _ _ _ Hl K').
Qed.

(** Level 10: the best level is promised, and the default is used. *)
Definition bufs_level10 : list bytes := Eval vm_compute in s_bufs (saved_level [10]).
Definition stroke : bytes := B"1.00 298.00 m 3.00 296.00 l s" ++ [10].
Lemma level_ten : exists w rnd cfg t F c, document w rnd cfg t F /\ map (fun x => snd (fst x)) t = prog_level [10] /\ Forall (fun x => snd x = None) t /\
  page_is F 4 (cfg_w cfg, cfg_h cfg) (cfg_w cfg, cfg_h cfg) c /\ level_of t = 9 /\ packed w (-1) None F c stroke /\ forall s, ~ packed w (level_of t) None F c s.
Proof.
  destruct (s_document gw_level [] page_cfg (prog_level [10]) (saved_level [10]) eq_refl ltac:(vm_compute; reflexivity)) as (D & M).
  assert (I7 : is_file (s_file (saved_level [10])) bufs_level10 None None) by (apply s_is_file; vm_compute; reflexivity).
  exists gw_level, [], page_cfg, (s_trace (saved_level [10])), (s_file (saved_level [10])), 5. split; [exact D|]. split; [exact M|]. split; [apply no_errors_ok; vm_compute; reflexivity|]. split.
  { exists [(B"Type", PName (B"Page")); (B"Parent", PRef 2 0); (B"Resources", PRef 3 0); (B"Contents", PRef 5 0)].
    split; [apply (case_object _ _ _ _ 3 _ _ [10] I7 eq_refl); [intros t'; vm_compute; reflexivity|reflexivity|blanks]|]. repeat split. }
  assert (L : level_of (s_trace (saved_level [10])) = 9) by (vm_compute; reflexivity). split; [exact L|]. rewrite L. clear L.
  assert (ST : stream_is (s_file (saved_level [10])) 5 (flate_dict 33) (gw_deflate gw_level (-1) stroke)).
  { apply (case_stream _ _ _ _ 4 _ _ ([10] ++ B"stream" ++ [10] ++ gw_deflate gw_level (-1) stroke ++ [10] ++ B"endstream" ++ [10]) _ I7 eq_refl); [intros t'; vm_compute; reflexivity| |reflexivity].
    exists [10]. eexists. split; [reflexivity|]. split; [blanks|left; reflexivity]. }
  split.
  - eexists _, _, _. split; [exact ST|]. split; [reflexivity|]. split; reflexivity.
  - intros s (d & raw & mid & S' & De & Hp). destruct (stream_unique _ _ _ _ _ _ ST S') as (_ & <-). cbn [decrypted] in De. subst mid.
    change (9 =? 0) with false in Hp. cbv iota in Hp. destruct Hp as (_ & Hp). vm_compute in Hp. discriminate Hp.
Qed.

(** The last of several levels counts; one below -2 means the default, and with
    level 0 there is no filter. *)
Lemma level_cases : (exists t F, document gw_level [] page_cfg t F /\ map (fun x => snd (fst x)) t = prog_level [3; 0] /\ level_of t = 0 /\ packed gw_level 0 None F 5 stroke) /\
  (exists t F, document gw_level [] page_cfg t F /\ map (fun x => snd (fst x)) t = prog_level [3; 0; 9] /\ level_of t = 9 /\ packed gw_level 9 None F 5 stroke) /\
  (exists t F, document gw_level [] page_cfg t F /\ map (fun x => snd (fst x)) t = prog_level [3; -7] /\ level_of t = -1 /\ packed gw_level (-1) None F 5 stroke).
Proof.
  split; [|split].
  - destruct (s_document gw_level [] page_cfg (prog_level [3; 0]) (saved_level [3; 0]) eq_refl ltac:(vm_compute; reflexivity)) as (D & M).
    assert (I7 : is_file (s_file (saved_level [3; 0])) (s_bufs (saved_level [3; 0])) None None) by (apply s_is_file; vm_compute; reflexivity).
    exists (s_trace (saved_level [3; 0])), (s_file (saved_level [3; 0])). split; [exact D|]. split; [exact M|]. split; [vm_compute; reflexivity|].
    exists [(B"Length", PInt 30)], stroke, stroke. split; [|split; [reflexivity|split; reflexivity]].
    apply (case_stream _ _ _ _ 4 (B"<<" ++ [10] ++ B"/Length 30" ++ [10] ++ B">>" ++ [10] ++ B"stream" ++ [10] ++ stroke ++ B"endstream" ++ [10]) _ ([10] ++ B"stream" ++ [10] ++ stroke ++ B"endstream" ++ [10]) _ I7);
      [vm_compute; reflexivity|intros t'; vm_compute; reflexivity| |reflexivity].
    exists [10]. eexists. split; [reflexivity|]. split; [blanks|right; reflexivity].
  - destruct (s_document gw_level [] page_cfg (prog_level [3; 0; 9]) (saved_level [3; 0; 9]) eq_refl ltac:(vm_compute; reflexivity)) as (D & M).
    assert (I7 : is_file (s_file (saved_level [3; 0; 9])) (s_bufs (saved_level [3; 0; 9])) None None) by (apply s_is_file; vm_compute; reflexivity).
    exists (s_trace (saved_level [3; 0; 9])), (s_file (saved_level [3; 0; 9])). split; [exact D|]. split; [exact M|]. split; [vm_compute; reflexivity|].
    exists (flate_dict 32), (B"9 " ++ stroke), (B"9 " ++ stroke). split; [|split; [reflexivity|split; reflexivity]].
    apply (case_stream _ _ _ _ 4 (B"<<" ++ [10] ++ B"/Filter/FlateDecode/Length 32" ++ [10] ++ B">>" ++ [10] ++ B"stream" ++ [10] ++ (B"9 " ++ stroke) ++ [10] ++ B"endstream" ++ [10]) _
      ([10] ++ B"stream" ++ [10] ++ (B"9 " ++ stroke) ++ [10] ++ B"endstream" ++ [10]) _ I7);
      [vm_compute; reflexivity|intros t'; vm_compute; reflexivity| |reflexivity].
    exists [10]. eexists. split; [reflexivity|]. split; [blanks|left; reflexivity].
  - destruct (s_document gw_level [] page_cfg (prog_level [3; -7]) (saved_level [3; -7]) eq_refl ltac:(vm_compute; reflexivity)) as (D & M).
    assert (I7 : is_file (s_file (saved_level [3; -7])) (s_bufs (saved_level [3; -7])) None None) by (apply s_is_file; vm_compute; reflexivity).
    exists (s_trace (saved_level [3; -7])), (s_file (saved_level [3; -7])). split; [exact D|]. split; [exact M|]. split; [vm_compute; reflexivity|].
    exists (flate_dict 33), (B"-1 " ++ stroke), (B"-1 " ++ stroke). split; [|split; [reflexivity|split; reflexivity]].
    apply (case_stream _ _ _ _ 4 (B"<<" ++ [10] ++ B"/Filter/FlateDecode/Length 33" ++ [10] ++ B">>" ++ [10] ++ B"stream" ++ [10] ++ (B"-1 " ++ stroke) ++ [10] ++ B"endstream" ++ [10]) _
      ([10] ++ B"stream" ++ [10] ++ (B"-1 " ++ stroke) ++ [10] ++ B"endstream" ++ [10]) _ I7);
      [vm_compute; reflexivity|intros t'; vm_compute; reflexivity| |reflexivity].
    exists [10]. eexists. split; [reflexivity|]. split; [blanks|left; reflexivity].
Qed.
