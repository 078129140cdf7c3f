(** Documents in which GoPdf does not do what was asked. *)
From Coq Require Import String List ZArith Lia Bool.
From Coq.Floats Require Import SpecFloat.
From Verif Require Import Base BaseProofs Utf8 Output OutputSpec Crypto PdfSyntax PdfSyntaxProofs Png PngSpec Float64 Ttf Subset CharMap Text TextSpec TestFont TextCases
  GoPdf GoPdfSpec GoPdfFile GoPdfPages GoPdfRun GoPdfDoc GoPdfTree GoPdfDrawSpec GoPdfDocSpec GoPdfOut GoPdfMain GoPdfRead GoPdfKeep GoPdfCases.
Open Scope Z_scope.
Open Scope list_scope.

(** ** The date *)

Theorem date_breaks : forall w rnd cfg t F, document w rnd cfg t F -> blen F < 10 ^ 10 -> forall i d, info_of t = Some i -> i_date i = Some d -> simple_info i -> forall v, ~ trailer_is F v.
Proof.
  intros w rnd cfg t F D Hs i d Ei Ed HI v T. destruct (doc_facts _ _ _ _ _ D) as (g0 & g & bs & info & S & R & V & Ej & EF & L & Ep & Es & K).
  destruct (kept_run _ _ _ _ _ _ S R) as (_ & Eg). rewrite Eg, Ei in Ej. clear Eg. subst info.
  set (enc := if cfg_use cfg then Some (enc_of (with_enc g) 0 (g_enc g)) else None) in *. clearbody enc. subst F.
  destruct (file_trailer bs enc (Some i) Hs) as (base & TB & Hb & Tr). destruct T as (N & base' & s & r & t' & TB' & _ & _ & Ts & Rs & Sk).
  destruct (table_unique _ _ _ _ _ TB TB') as (<- & <-). rewrite Tr in Ts. do 2 apply app_inv_head in Ts. subst s.
  match type of Rs with reads (trailer_dict ?n ?e ?i0 ?r0) _ _ => destruct (trailer_reads n e i0 r0) as (r' & RR & _ & R2) end.
  { intros j Ej. assert (j = i) by congruence. subst j. exact HI. }
  specialize (R2 i d eq_refl Ed). destruct (reads_unique _ _ _ _ _ Rs RR) as (_ & ->). rewrite R2 in Sk. cbn in Sk. discriminate Sk.
Qed.

(** ** Programs with texts *)

Definition prog6 : list gcall := [a_font; std_page; SetFont (B"T") 0 20; Text (B"A"); Text (B"A")].
Definition saved6 := save gw_id [] page_cfg prog6.
Definition prog7 : list gcall := [a_font; std_page; SetFont (B"T") 0 12; Text (B"A"); CellOpt None (B"B") aLeft (aLeft + aTop + aRight + aBottom) aRight].
Definition saved7 := save gw_id [] page_cfg prog7.
Definition prog8 : list gcall := [a_font; std_page; SetFont (B"T") 0 12; TextColor (255, 0, 0); Text (B"A"); TextColor (0, 0, 0); SetX (fofz 100); Text (B"B")].
Definition saved8 := save gw_id [] page_cfg prog8.
Definition alpha_png : bytes := png_file (header 1 1 8 6 [0; 0; 0; 0]) [mkChunk (B"IDAT") [0; 10; 20; 30; 40] [0; 0; 0; 0]] [].
Definition prog9 : list gcall := [std_page; ImageBy (B"x") alpha_png [] (fofz 1) (fofz 2) (Some (fofz 3, fofz 4))].
Definition saved9 := save gw_id [] page_cfg prog9.
Definition smile : ginfo := mkInfo [240; 159; 152; 128] [] [] [] [] None.
Definition saved10 := save gw_id [] page_cfg [std_page; Line (fofz 1) (fofz 2) (fofz 3) (fofz 4); Info smile].

(** Two texts in a row: each is 6 wide and the first begins at 10, but X is 28
    after the second: it is moved by the width of both. *)
Definition before (t : trace) (k : nat) : gp := match nth_error t k with Some (g, _, _) => g | None => gp0 end.
Lemma advance_twice : exists w rnd cfg t F g1 g2 g3, document w rnd cfg t F /\ map (fun x => snd (fst x)) t = prog6 ++ [SetY (fofz 50)] /\ Forall (fun x => snd x = None) t /\
  nth_error t 3 = Some (g1, Text (B"A"), None) /\ nth_error t 4 = Some (g2, Text (B"A"), None) /\ nth_error t 5 = Some (g3, SetY (fofz 50), None) /\
  u_x (g_cur g1) = fofz 10 /\ u_x (g_cur g2) = fofz 16 /\ u_x (g_cur g3) = fofz 28.
Proof.
  pose (x := save gw_id [] page_cfg (prog6 ++ [SetY (fofz 50)])).
  destruct (s_document gw_id [] page_cfg (prog6 ++ [SetY (fofz 50)]) x eq_refl ltac:(vm_compute; reflexivity)) as (D & M).
  exists gw_id, [], page_cfg, (s_trace x), (s_file x), (before (s_trace x) 3), (before (s_trace x) 4), (before (s_trace x) 5). split; [exact D|]. split; [exact M|].
  split; [apply no_errors_ok; vm_compute; reflexivity|]. split; [vm_compute; reflexivity|]. split; [vm_compute; reflexivity|]. split; [vm_compute; reflexivity|].
  split; [vm_compute; reflexivity|]. split; vm_compute; reflexivity.
Qed.

(** The border of a cell that is taken into the text before it is not drawn. *)
Definition bufs7 : list bytes := Eval vm_compute in s_bufs saved7.
Definition stream7 : bytes := B"BT" ++ [10] ++ B"10.00 290.00 TD" ++ [10] ++ B"/F1 12 Tf" ++ [10] ++ B"[<00010002>] TJ" ++ [10] ++ B"ET" ++ [10].
Lemma border_lost : exists w rnd cfg t F d, document w rnd cfg t F /\ map (fun x => snd (fst x)) t = prog7 /\ Forall (fun x => snd x = None) t /\
  page_is F 9 (cfg_w cfg, cfg_h cfg) (cfg_w cfg, cfg_h cfg) 10 /\ decodes (fun b => Ok b) None F 10 d stream7.
Proof.
  destruct (s_document gw_id [] page_cfg prog7 saved7 eq_refl ltac:(vm_compute; reflexivity)) as (D & M).
  assert (I7 : is_file (s_file saved7) bufs7 None None) by (apply s_is_file; vm_compute; reflexivity).
  exists gw_id, [], page_cfg, (s_trace saved7), (s_file saved7), (flate_dict 48). split; [exact D|]. split; [exact M|]. split; [apply no_errors_ok; vm_compute; reflexivity|]. split.
  - exists [(B"Type", PName (B"Page")); (B"Parent", PRef 2 0); (B"Resources", PRef 3 0); (B"Contents", PRef 10 0)].
    split; [apply (case_object _ _ _ _ 8 _ _ [10] I7 eq_refl); [intros t'; vm_compute; reflexivity|reflexivity|blanks]|]. repeat split.
  - eexists _, _. split; [|split; [reflexivity|split; reflexivity]].
    apply (case_stream _ _ _ _ 9 _ _ ([10] ++ B"stream" ++ [10] ++ stream7 ++ [10] ++ B"endstream" ++ [10]) _ I7 eq_refl); [intros t'; vm_compute; reflexivity| |reflexivity].
    exists [10]. eexists. split; [reflexivity|]. split; [blanks|left; reflexivity].
Qed.

(** Black text after red text is red. *)
Definition bufs8 : list bytes := Eval vm_compute in s_bufs saved8.
Definition stream8 : bytes := B"BT" ++ [10] ++ B"10.00 290.00 TD" ++ [10] ++ B"/F1 12 Tf" ++ [10] ++ B"1.00 0.00 0.00 rg" ++ [10] ++ B"[<0001>] TJ" ++ [10] ++ B"ET" ++ [10]
  ++ B"BT" ++ [10] ++ B"100.00 290.00 TD" ++ [10] ++ B"/F1 12 Tf" ++ [10] ++ B"[<0002>] TJ" ++ [10] ++ B"ET" ++ [10].
Lemma black_red : exists w rnd cfg t F d, document w rnd cfg t F /\ map (fun x => snd (fst x)) t = prog8 /\ Forall (fun x => snd x = None) t /\
  page_is F 9 (cfg_w cfg, cfg_h cfg) (cfg_w cfg, cfg_h cfg) 10 /\ decodes (fun b => Ok b) None F 10 d stream8.
Proof.
  destruct (s_document gw_id [] page_cfg prog8 saved8 eq_refl ltac:(vm_compute; reflexivity)) as (D & M).
  assert (I8 : is_file (s_file saved8) bufs8 None None) by (apply s_is_file; vm_compute; reflexivity).
  exists gw_id, [], page_cfg, (s_trace saved8), (s_file saved8), (flate_dict 107). split; [exact D|]. split; [exact M|]. split; [apply no_errors_ok; vm_compute; reflexivity|]. split.
  - exists [(B"Type", PName (B"Page")); (B"Parent", PRef 2 0); (B"Resources", PRef 3 0); (B"Contents", PRef 10 0)].
    split; [apply (case_object _ _ _ _ 8 _ _ [10] I8 eq_refl); [intros t'; vm_compute; reflexivity|reflexivity|blanks]|]. repeat split.
  - eexists _, _. split; [|split; [reflexivity|split; reflexivity]].
    apply (case_stream _ _ _ _ 9 _ _ ([10] ++ B"stream" ++ [10] ++ stream8 ++ [10] ++ B"endstream" ++ [10]) _ I8 eq_refl); [intros t'; vm_compute; reflexivity| |reflexivity].
    exists [10]. eexists. split; [reflexivity|]. split; [blanks|left; reflexivity].
Qed.

(** ** Pictures *)

(** The soft mask of a picture is looked for in the object before the mask: here
    in the contents of the page. *)
Definition bufs9 : list bytes := Eval vm_compute in s_bufs saved9.
Lemma mask_missed : exists w rnd cfg t F d c m, document w rnd cfg t F /\ map (fun x => snd (fst x)) t = prog9 /\ Forall (fun x => snd x = None) t /\
  stream_is F 5 d [0; 10; 20; 30] /\ lookup (B"Subtype") d = Some (PName (B"Image")) /\ lookup (B"SMask") d = Some (PRef 6 0) /\
  page_is F 4 (cfg_w cfg, cfg_h cfg) (cfg_w cfg, cfg_h cfg) 6 /\ stream_is F 6 c (B"q 3.00 0 0 4.00 1.00 294.00 cm /I1 Do Q" ++ [10]) /\ lookup (B"Subtype") c = None /\
  stream_is F 7 m [0; 40] /\ lookup (B"Subtype") m = Some (PName (B"Image")).
Proof.
  destruct (s_document gw_id [] page_cfg prog9 saved9 eq_refl ltac:(vm_compute; reflexivity)) as (D & M).
  assert (I9 : is_file (s_file saved9) bufs9 None None) by (apply s_is_file; vm_compute; reflexivity).
  eexists gw_id, [], page_cfg, (s_trace saved9), (s_file saved9), _, _, _. split; [exact D|]. split; [exact M|]. split; [apply no_errors_ok; vm_compute; reflexivity|].
  split. { apply (case_stream _ _ _ _ 4 _ _ ([10] ++ B"stream" ++ [10] ++ [0; 10; 20; 30] ++ [10] ++ B"endstream" ++ [10]) _ I9 eq_refl); [intros t'; vm_compute; reflexivity| |vm_compute; reflexivity].
    exists [10]. eexists. split; [reflexivity|]. split; [blanks|left; reflexivity]. }
  split; [vm_compute; reflexivity|]. split; [vm_compute; reflexivity|].
  split. { exists [(B"Type", PName (B"Page")); (B"Parent", PRef 2 0); (B"Resources", PRef 3 0); (B"Contents", PRef 6 0)].
    split; [apply (case_object _ _ _ _ 3 _ _ [10] I9 eq_refl); [intros t'; vm_compute; reflexivity|reflexivity|blanks]|]. repeat split. }
  split. { apply (case_stream _ _ _ _ 5 _ _ ([10] ++ B"stream" ++ [10] ++ (B"q 3.00 0 0 4.00 1.00 294.00 cm /I1 Do Q" ++ [10]) ++ [10] ++ B"endstream" ++ [10]) _ I9 eq_refl); [intros t'; vm_compute; reflexivity| |vm_compute; reflexivity].
    exists [10]. eexists. split; [reflexivity|]. split; [blanks|left; reflexivity]. }
  split; [vm_compute; reflexivity|].
  split. { apply (case_stream _ _ _ _ 6 _ _ ([10] ++ B"stream" ++ [10] ++ [0; 40] ++ [10] ++ B"endstream" ++ [10]) _ I9 eq_refl); [intros t'; vm_compute; reflexivity| |vm_compute; reflexivity].
    exists [10]. eexists. split; [reflexivity|]. split; [blanks|left; reflexivity]. }
  vm_compute. reflexivity.
Qed.

(** A picture with a palette is accepted, and the document cannot be saved. *)
Definition pal_png : bytes := png_file (header 1 1 8 3 [0; 0; 0; 0]) [mkChunk (B"PLTE") [1; 2; 3] [0; 0; 0; 0]; mkChunk (B"IDAT") [0; 0] [0; 0; 0; 0]] [].
Definition prog11 : list gcall := [std_page; ImageBy (B"x") pal_png [] (fofz 1) (fofz 2) (Some (fofz 3, fofz 4))].
Definition run11 := run gw_id [] page_cfg prog11.
Lemma palette_case : exists w rnd cfg g0 t g, g_start rnd cfg gp0 = Ok g0 /\ runs w g0 t g /\ map (fun x => snd (fst x)) t = prog11 /\ Forall (fun x => snd x = None) t /\ g_bytes w g = Panic.
Proof.
  destruct (r_parts gw_id [] page_cfg prog11 run11 eq_refl ltac:(vm_compute; reflexivity)) as (g0 & S & R & M).
  exists gw_id, [], page_cfg, g0, (r_trace run11), (r_state run11). split; [exact S|]. split; [exact R|]. split; [exact M|]. split; [apply no_errors_ok; vm_compute; reflexivity|vm_compute; reflexivity].
Qed.

(** ** Characters beyond the basic plane in the information *)

Definition bufs10 : list bytes := Eval vm_compute in s_bufs saved10.
Lemma smile_lost : exists w rnd cfg t F, document w rnd cfg t F /\ info_of t = Some smile /\ ~ info_is F (info_of t).
Proof.
  destruct (s_document gw_id [] page_cfg _ saved10 eq_refl ltac:(vm_compute; reflexivity)) as (D & M).
  assert (I10 : is_file (s_file saved10) bufs10 None (Some smile)) by (apply s_is_file; vm_compute; reflexivity).
  exists gw_id, [], page_cfg, (s_trace saved10), (s_file saved10). split; [exact D|]. split; [vm_compute; reflexivity|].
  assert (E : info_of (s_trace saved10) = Some smile) by (vm_compute; reflexivity). rewrite E. intros (d & T & di & L & (v & L2 & (h & -> & U)) & _).
  destruct I10 as (EF & Hs). rewrite EF in T, Hs. destruct (file_trailer bufs10 None (Some smile) Hs) as (base & TB & Hb & Tr).
  destruct T as (N & base' & s & r & TB' & _ & _ & Ts & Rs). destruct (table_unique _ _ _ _ _ TB TB') as (<- & <-). rewrite Tr in Ts. do 2 apply app_inv_head in Ts. subst s.
  destruct Rs as (f & Rs). apply (value_mono f (20 + f)) in Rs; [|lia]. revert Rs.
  match goal with |- value _ (trailer_dict ?a ?b ?c ?e) = _ -> _ => set (tail := e); clearbody tail end. vm_compute. intros Rs.
  injection Rs as Ed _. subst d. vm_compute in L. injection L as Ei. subst di. vm_compute in L2. injection L2 as Eh. subst h. vm_compute in U. discriminate.
Qed.

(** ** The cases of the theorems *)

Lemma saved1_doc : document gw_id [] page_cfg (s_trace saved1) (s_file saved1) /\ map (fun x => snd (fst x)) (s_trace saved1) = prog1 /\ blen (s_file saved1) < 10 ^ 10.
Proof.
  destruct (s_document gw_id [] page_cfg prog1 saved1 eq_refl saved1_ok) as (D & M). split; [exact D|]. split; [exact M|].
  assert (X : (blen (s_file saved1) <? 10 ^ 10) = true) by (vm_compute; reflexivity). lia.
Qed.
Definition bufs1 : list bytes := Eval vm_compute in s_bufs saved1.
Lemma structure_case : exists t F base, document gw_id [] page_cfg t F /\ map (fun x => snd (fst x)) t = prog1 /\ blen F < 10 ^ 10 /\ table F 13 base.
Proof.
  destruct saved1_doc as (D & M & H). assert (I1 : is_file (s_file saved1) bufs1 None (Some (mkInfo (B"t") [] [] [] [] None))) by (apply s_is_file; vm_compute; reflexivity).
  destruct I1 as (E & _). eexists (s_trace saved1), (s_file saved1), _. split; [exact D|]. split; [exact M|]. split; [exact H|]. rewrite E.
  exact (file_table bufs1 None (Some (mkInfo (B"t") [] [] [] [] None))).
Qed.
Lemma pages_case : document gw_id [] page_cfg (s_trace saved1) (s_file saved1) /\ Forall drawn_page (pages_of (s_trace saved1)) /\ List.length (pages_of (s_trace saved1)) = 2%nat.
Proof. split; [apply saved1_doc|apply prog1_pages]. Qed.
Definition dated : ginfo := mkInfo (B"t") [] [] [] [] (Some (B"20240102030405+07'00'")).
Definition saved12 := save gw_id [] page_cfg (prog1 ++ [Info dated]).
Lemma dated_simple : simple_info dated.
Proof.
  unfold simple_info, in_plane. cbn [dated i_title i_author i_subject i_creator i_producer i_date]. split; [|repeat (split; [constructor|])].
  - vm_compute. repeat constructor; discriminate.
  - vm_compute. repeat constructor; discriminate.
Qed.
Lemma date_case : exists t F i, document gw_id [] page_cfg t F /\ blen F < 10 ^ 10 /\ info_of t = Some i /\ i_date i = Some (B"20240102030405+07'00'") /\ simple_info i.
Proof.
  destruct (s_document gw_id [] page_cfg _ saved12 eq_refl ltac:(vm_compute; reflexivity)) as (D & M). exists (s_trace saved12), (s_file saved12), dated. split; [exact D|].
  split; [assert (X : (blen (s_file saved12) <? 10 ^ 10) = true) by (vm_compute; reflexivity); lia|]. split; [vm_compute; reflexivity|]. split; [reflexivity|apply dated_simple].
Qed.
Lemma plain_simple : simple_info (mkInfo (B"t") [] [] [] [] None).
Proof. unfold simple_info, in_plane. cbn [i_title i_author i_subject i_creator i_producer i_date]. split; [vm_compute; repeat constructor; discriminate|repeat (split; [constructor|]); exact Logic.I]. Qed.
Lemma passwords_case : exists t F key, document gw_id [] locked_cfg t F /\ map (fun x => snd (fst x)) t = prog1 /\ opens F (B"user") (Some key) /\ owner_too F (B"owner").
Proof.
  destruct (s_document gw_id [] locked_cfg prog1 saved1l eq_refl saved1l_ok) as (D & M).
  assert (E : info_of (s_trace saved1l) = Some (mkInfo (B"t") [] [] [] [] None)) by (vm_compute; reflexivity).
  assert (Hs : blen (s_file saved1l) < 10 ^ 10) by (assert (X : (blen (s_file saved1l) <? 10 ^ 10) = true) by (vm_compute; reflexivity); lia).
  destruct (doc_passwords _ _ _ _ _ D Hs) as (_ & P). { intros i Ei. rewrite E in Ei. assert (i = mkInfo (B"t") [] [] [] [] None) by congruence. subst i. apply plain_simple. }
  destruct (P eq_refl ltac:(cbn; lia)) as (key & O1 & O2). exists (s_trace saved1l), (s_file saved1l), key. split; [exact D|]. split; [exact M|]. split; [exact O1|apply O2; discriminate].
Qed.
Lemma info_case : exists t F, document gw_id [] page_cfg t F /\ info_of t = Some (mkInfo (B"t") [] [] [] [] None) /\ info_is F (info_of t).
Proof.
  destruct saved1_doc as (D & M & H). assert (E : info_of (s_trace saved1) = Some (mkInfo (B"t") [] [] [] [] None)) by (vm_compute; reflexivity).
  exists (s_trace saved1), (s_file saved1). split; [exact D|]. split; [exact E|]. eapply doc_info; eauto. intros i Ei. rewrite E in Ei. assert (i = mkInfo (B"t") [] [] [] [] None) by congruence. subst i. apply plain_simple.
Qed.
Lemma read_case : exists g0 g g' F l, g_start [] page_cfg gp0 = Ok g0 /\ runs gw_id g0 (s_trace saved4) g /\ F = s_file saved4 /\ List.length F = 635%nat /\
  reads_of gw_id [300; 300; 300; 300]%nat g = Ok (g', l) /\ map (option_map (fun b => blen b)) l = [Some 300; Some 300; Some 35; None].
Proof.
  destruct (s_document gw_id [] page_cfg prog4 saved4 eq_refl ltac:(vm_compute; reflexivity)) as ((g0 & g & g1 & S & R & G) & M).
  destruct (buf_run _ _ _ _ _ _ S R) as (A & C). destruct (bytes_read _ _ _ _ 300 [300; 300; 300]%nat A C G) as (g2 & E).
  eexists g0, g, g2, (s_file saved4), _. split; [exact S|]. split; [exact R|]. split; [reflexivity|]. split; [vm_compute; reflexivity|]. split; [exact E|vm_compute; reflexivity].
Qed.
