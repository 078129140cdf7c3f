(** Concrete documents of GoPdf: cases for the theorems and refutations. *)
From Coq Require Import String List ZArith Lia Bool.
From Coq.Floats Require Import SpecFloat.
From Verif Require Import Base BaseProofs Utf8 Output OutputSpec Crypto PdfSyntax PdfSyntaxProofs Png PngSpec Float64 Ttf Subset CharMap Text TextSpec TestFont TextCases
  GoPdf GoPdfSpec GoPdfFile GoPdfTree GoPdfDrawSpec GoPdfDocSpec GoPdfMain GoPdfRead.
Open Scope Z_scope.
Open Scope list_scope.

(** ** Running a program *)

Fixpoint play (w : gworld) (g : gp) (l : list gcall) (t : trace) : res (trace * gp) :=
  match l with
  | [] => Ok (t, g)
  | c :: l => do (g', e) <- gstep w g c; play w g' l (t ++ [(g, c, e)])
  end.
Definition save (w : gworld) (rnd : bytes) (cfg : gconfig) (l : list gcall) : res (trace * gp * bytes) :=
  do g0 <- g_start rnd cfg gp0;
  do (t, g) <- play w g0 l [];
  do (g', F) <- g_bytes w g;
  Ok (t, g', F).

Lemma play_runs : forall w g0 l g t t' g', runs w g0 t g -> play w g l t = Ok (t', g') -> runs w g0 t' g' /\ map (fun x => snd (fst x)) t' = map (fun x => snd (fst x)) t ++ l.
Proof.
  intros w g0. induction l as [|c l IH]; intros g t t' g' R H; cbn [play] in H.
  - assert (t' = t) by congruence. assert (g' = g) by congruence. subst. rewrite app_nil_r. split; [exact R|reflexivity].
  - destruct (gstep w g c) as [(g1, e)| | |] eqn:E; cbn [bind] in H; try discriminate. destruct (IH _ _ _ _ (runs_call _ _ _ _ _ _ _ R E) H) as (R' & M). split; [exact R'|].
    rewrite M, map_app, <- app_assoc. reflexivity.
Qed.
Lemma save_document : forall w rnd cfg l t g F, save w rnd cfg l = Ok (t, g, F) -> document w rnd cfg t F /\ map (fun x => snd (fst x)) t = l.
Proof.
  intros w rnd cfg l t g F H. unfold save in H. destruct (g_start rnd cfg gp0) as [g0| | |] eqn:E0; cbn [bind] in H; try discriminate.
  destruct (play w g0 l []) as [(t1, g1)| | |] eqn:E1; cbn [bind] in H; try discriminate. destruct (g_bytes w g1) as [(g2, F2)| | |] eqn:E2; cbn [bind] in H; try discriminate.
  assert (t1 = t) by congruence. assert (F2 = F) by congruence. subst t1 F2. destruct (play_runs w g0 l g0 [] t g1 (runs_start _ _) E1) as (R & M). split; [|exact M].
  exists g0, g1, g2. auto.
Qed.

Lemma save_parts : forall w rnd cfg l t g' F, save w rnd cfg l = Ok (t, g', F) -> exists g0 g, g_start rnd cfg gp0 = Ok g0 /\ runs w g0 t g /\ map (fun x => snd (fst x)) t = l /\ g_bytes w g = Ok (g', F).
Proof.
  intros w rnd cfg l t g F H. unfold save in H. destruct (g_start rnd cfg gp0) as [g0| | |] eqn:E0; cbn [bind] in H; try discriminate.
  destruct (play w g0 l []) as [(t1, g1)| | |] eqn:E1; cbn [bind] in H; try discriminate. destruct (g_bytes w g1) as [(g2, F2)| | |] eqn:E2; cbn [bind] in H; try discriminate.
  assert (t1 = t) by congruence. assert (F2 = F) by congruence. assert (g2 = g) by congruence. subst t1 F2 g2. destruct (play_runs w g0 l g0 [] t g1 (runs_start _ _) E1) as (R & M).
  exists g0, g1. auto.
Qed.
(** A program without the saving. *)
Definition run (w : gworld) (rnd : bytes) (cfg : gconfig) (l : list gcall) : res (trace * gp) := do g0 <- g_start rnd cfg gp0; play w g0 l [].
Lemma run_parts : forall w rnd cfg l t g, run w rnd cfg l = Ok (t, g) -> exists g0, g_start rnd cfg gp0 = Ok g0 /\ runs w g0 t g /\ map (fun x => snd (fst x)) t = l.
Proof.
  intros w rnd cfg l t g H. unfold run in H. destruct (g_start rnd cfg gp0) as [g0| | |] eqn:E0; cbn [bind] in H; try discriminate.
  destruct (play_runs w g0 l g0 [] t g (runs_start _ _) H) as (R & M). exists g0. auto.
Qed.
Definition r_trace (x : res (trace * gp)) : trace := match x with Ok (t, _) => t | _ => [] end.
Definition r_state (x : res (trace * gp)) : gp := match x with Ok (_, g) => g | _ => gp0 end.
Definition r_ok (x : res (trace * gp)) : bool := match x with Ok _ => true | _ => false end.
Lemma r_parts : forall w rnd cfg l x, run w rnd cfg l = x -> r_ok x = true -> exists g0, g_start rnd cfg gp0 = Ok g0 /\ runs w g0 (r_trace x) (r_state x) /\ map (fun x => snd (fst x)) (r_trace x) = l.
Proof. intros w rnd cfg l x E H. destruct x as [[t g]| | |]; try discriminate. eapply run_parts; eauto. Qed.
Definition no_errors (t : trace) : bool := forallb (fun x => match snd x with None => true | Some _ => false end) t.
Lemma no_errors_ok : forall t, no_errors t = true -> Forall (fun x => snd x = None) t.
Proof. intros t H. apply Forall_forall. intros x I. unfold no_errors in H. rewrite forallb_forall in H. specialize (H x I). destruct (snd x); [discriminate|reflexivity]. Qed.

(** The parts of a saved document. *)
Definition no_gp : gp := gp0.
Definition s_trace (x : res (trace * gp * bytes)) : trace := match x with Ok (t, _, _) => t | _ => [] end.
Definition s_state (x : res (trace * gp * bytes)) : gp := match x with Ok (_, g, _) => g | _ => no_gp end.
Definition s_file (x : res (trace * gp * bytes)) : bytes := match x with Ok (_, _, F) => F | _ => [] end.
Definition s_ok (x : res (trace * gp * bytes)) : bool := match x with Ok _ => true | _ => false end.
Lemma s_document : forall w rnd cfg l x, save w rnd cfg l = x -> s_ok x = true -> document w rnd cfg (s_trace x) (s_file x) /\ map (fun x => snd (fst x)) (s_trace x) = l.
Proof. intros w rnd cfg l x E H. destruct x as [[[t g] F]| | |]; try discriminate. eapply save_document; eauto. Qed.

(** ** Reading concrete files *)

Definition is_file (F : bytes) (bs : list bytes) (enc : option Z) (info : option ginfo) : Prop := F = file bs enc info /\ blen F < 10 ^ 10.
Lemma case_text : forall F bs enc info k b, is_file F bs enc info -> nth_error bs k = Some b -> exists t, object_text F (1 + Z.of_nat k) (b ++ B"endobj" ++ [10] ++ t).
Proof. intros F bs enc info k b (-> & H) N. exact (file_object bs enc info H k b N). Qed.
Lemma case_object : forall F bs enc info k b v r, is_file F bs enc info -> nth_error bs k = Some b ->
  (forall t, value 50 (b ++ B"endobj" ++ [10] ++ t) = Some (v, r ++ B"endobj" ++ [10] ++ t)) -> skip (r ++ B"endobj") = B"endobj" -> Forall (fun c => wsp c = true) r ->
  object_is F (1 + Z.of_nat k) v.
Proof.
  intros F bs enc info k b v r I N V S W. destruct (case_text _ _ _ _ _ _ I N) as (t & T). eexists _, _. split; [exact T|]. split; [exists 50%nat; apply V|].
  exists t. rewrite skip_blank by exact W. apply skip_start. reflexivity.
Qed.
Lemma case_range : forall F bs enc info k v, is_file F bs enc info -> object_is F k v -> 1 <= k <= Z.of_nat (List.length bs).
Proof.
  intros F bs enc info k v (-> & H) (s & r & (N & base & off & d & T & Hk & _) & _). destruct (table_unique _ _ _ _ _ T (file_table bs enc info)) as (-> & _). lia.
Qed.

(** ** A world in which nothing is compressed, and a page *)

Definition gw_id : gworld := mkGW (fun d => match d with 137 :: _ => FPng | _ => FBad end) (fun _ => Some (128, 256)) (fun b => Ok b) (fun b => b) (fun _ b => b).
Definition page_cfg : gconfig := mkCfg (fofz 200) (fofz 300) false 0 [] [].
Definition locked_cfg : gconfig := mkCfg (fofz 200) (fofz 300) true 4 (B"user") (B"owner").
Definition std_page : gcall := AddPage (fofz 0, fofz 0).
Definition a_font : gcall := AddFont (B"T") false 0 (Some test_font) [0; 0].

(** A line, a filled rectangle and two texts on a page, a line on another. *)
Definition prog1 : list gcall :=
  [a_font; std_page; SetFont (B"T") 0 12; Text (B"A"); Text (B"B"); Line (fofz 10) (fofz 20) (fofz 30) (fofz 40); RectUpper (fofz 1) (fofz 2) (fofz 3) (fofz 4) (B"F");
   AddPage (fofz 100, fofz 50); Line (fofz 0) (fofz 0) (fofz 5) (fofz 5); Info (mkInfo (B"t") [] [] [] [] None)].
Definition saved1 := save gw_id [] page_cfg prog1.
Definition saved1l := save gw_id [] locked_cfg prog1.
Lemma saved1_ok : s_ok saved1 = true. Proof. vm_compute. reflexivity. Qed.
Lemma saved1l_ok : s_ok saved1l = true. Proof. vm_compute. reflexivity. Qed.

Definition s_bufs (x : res (trace * gp * bytes)) : list bytes := map o_buf (g_objs (s_state x)).
Definition s_check (x : res (trace * gp * bytes)) (bs : list bytes) (enc : option Z) (info : option ginfo) : bool :=
  beqb (s_file x) (file bs enc info) && (blen (s_file x) <? 10 ^ 10).
Lemma s_is_file : forall x bs enc info, s_check x bs enc info = true -> is_file (s_file x) bs enc info.
Proof. intros x bs enc info H. unfold s_check in H. apply andb_true_iff in H. destruct H as (H1 & H2). split; [apply beqb_eq; exact H1|lia]. Qed.

(** The first program meets the conditions of the theorems. *)
Lemma prog1_pages : Forall drawn_page (pages_of (s_trace saved1)) /\ List.length (pages_of (s_trace saved1)) = 2%nat.
Proof.
  split; [|vm_compute; reflexivity].
  assert (E : exists p q, pages_of (s_trace saved1) = [p; q] /\ (exists a x l, snd p = a :: x :: l /\ draws_something x) /\ (exists x l, snd q = x :: l /\ draws_something x) /\
    finite (fst (fst p)) /\ finite (snd (fst p)) /\ finite (fst (fst q)) /\ finite (snd (fst q))).
  { eexists _, _. split; [vm_compute; reflexivity|]. split; [eexists _, _, _; split; [reflexivity|split; [reflexivity|exact Logic.I]]|].
    split; [eexists _, _; split; [reflexivity|split; [reflexivity|exact Logic.I]]|]. repeat split. }
  destruct E as (p & q & -> & (a & x & l & Ep & Dx) & (y & m & Eq & Dy) & F1 & F2 & F3 & F4).
  constructor; [|constructor; [|constructor]]; unfold drawn_page.
  - split; [exact F1|]. split; [exact F2|]. rewrite Ep. apply Exists_cons_tl, Exists_cons_hd. exact Dx.
  - split; [exact F3|]. split; [exact F4|]. rewrite Eq. apply Exists_cons_hd. exact Dy.
Qed.

(** ** An empty page *)

Definition saved2 := save gw_id [] page_cfg [std_page].
Definition bufs2 : list bytes := Eval vm_compute in s_bufs saved2.
Lemma none_stays : forall s v r f, reads s v r -> value f s = None -> (forall g, (f <= g)%nat -> value g s = None) -> False.
Proof. intros s v r f (g & H) _ N. apply (value_mono g (f + g)) in H; [|lia]. rewrite N in H by lia. discriminate. Qed.

Lemma empty_page : exists w rnd cfg t F kid, document w rnd cfg t F /\ map (fun x => snd (fst x)) t = [std_page] /\ root_is F (cfg_w cfg, cfg_h cfg) [kid] /\
  (exists s, object_text F kid s) /\ forall v, ~ object_is F kid v.
Proof.
  destruct (s_document gw_id [] page_cfg [std_page] saved2 eq_refl ltac:(vm_compute; reflexivity)) as (D & M).
  assert (I2 : is_file (s_file saved2) bufs2 None None) by (apply s_is_file; vm_compute; reflexivity).
  exists gw_id, [], page_cfg, (s_trace saved2), (s_file saved2), 4. split; [exact D|]. split; [exact M|].
  destruct (case_text _ _ _ _ 3 _ I2 eq_refl) as (t & T). split; [|split; [eexists; exact T|]].
  - exists (PArr [PInt 0; PInt 0; PWord (B"200.00"); PWord (B"300.00")]). split; [|split].
    + apply (case_object _ _ _ _ 0 _ _ [10] I2 eq_refl); [intros t'; vm_compute; reflexivity|reflexivity|blanks].
    + apply (case_object _ _ _ _ 1 _ _ [10] I2 eq_refl); [intros t'; vm_compute; reflexivity|reflexivity|blanks].
    + apply (box_is (fofz 200) (fofz 300)); reflexivity.
  - intros v (s & r & T' & R & _). pose proof (object_text_unique _ _ _ _ T T') as E. subst s. destruct R as (f & R). apply (value_mono f (10 + f)) in R; [|lia].
    revert R. vm_compute. discriminate.
Qed.

(** ** Drawing before the first page *)

Definition prog3 : list gcall := [Line (fofz 1) (fofz 2) (fofz 3) (fofz 4); std_page; Line (fofz 5) (fofz 6) (fofz 7) (fofz 8)].
Definition saved3 := save gw_id [] page_cfg prog3.
Definition bufs3 : list bytes := Eval vm_compute in s_bufs saved3.
Lemma case_stream : forall F bs enc info k b d r body, is_file F bs enc info -> nth_error bs k = Some b ->
  (forall t, value 50 (b ++ B"endobj" ++ [10] ++ t) = Some (PDict d, r ++ B"endobj" ++ [10] ++ t)) ->
  (exists w x, r = w ++ x /\ Forall (fun c => wsp c = true) w /\ (x = B"stream" ++ [10] ++ body ++ [10] ++ B"endstream" ++ [10] \/ x = B"stream" ++ [10] ++ body ++ B"endstream" ++ [10])) ->
  lookup (B"Length") d = Some (PInt (blen body)) -> stream_is F (1 + Z.of_nat k) d body.
Proof.
  intros F bs enc info k b d r body I N V (w & x & -> & W & X) L. destruct (case_text _ _ _ _ _ _ I N) as (t & T). eexists. split; [exact T|].
  specialize (V t). destruct X as [-> | ->].
  - eexists _, [10], [10], ([10] ++ B"endobj" ++ [10] ++ t). split; [exists 50%nat; exact V|]. split; [|split; [left; reflexivity|split; [right; left; reflexivity|exact L]]].
    rewrite <- !app_assoc. rewrite skip_blank by exact W. rewrite <- ?app_assoc. apply skip_start. reflexivity.
  - eexists _, [10], [], ([10] ++ B"endobj" ++ [10] ++ t). split; [exists 50%nat; exact V|]. split; [|split; [left; reflexivity|split; [left; reflexivity|exact L]]].
    rewrite <- !app_assoc. rewrite skip_blank by exact W. rewrite <- ?app_assoc. apply skip_start. reflexivity.
Qed.
Definition flate_dict (n : Z) : list (bytes * pv) := [(B"Filter", PName (B"FlateDecode")); (B"Length", PInt n)].

Lemma lost_line : exists w rnd cfg t F kid c c0 d d0, document w rnd cfg t F /\ map (fun x => snd (fst x)) t = prog3 /\ Forall (fun x => snd x = None) t /\
  root_is F (cfg_w cfg, cfg_h cfg) [kid] /\ page_is F kid (cfg_w cfg, cfg_h cfg) (cfg_w cfg, cfg_h cfg) c /\
  decodes (fun b => Ok b) None F c d (B"5.00 294.00 m 7.00 292.00 l s" ++ [10]) /\ decodes (fun b => Ok b) None F c0 d0 (B"1.00 -2.00 m 3.00 -4.00 l s" ++ [10]) /\ c <> c0.
Proof.
  destruct (s_document gw_id [] page_cfg prog3 saved3 eq_refl ltac:(vm_compute; reflexivity)) as (D & M).
  assert (I3 : is_file (s_file saved3) bufs3 None None) by (apply s_is_file; vm_compute; reflexivity).
  exists gw_id, [], page_cfg, (s_trace saved3), (s_file saved3), 5, 6, 4, (flate_dict 30), (flate_dict 28). split; [exact D|]. split; [exact M|].
  split. { apply Forall_forall. intros x H. assert (X : forallb (fun x => match snd x with None => true | Some _ => false end) (s_trace saved3) = true) by (vm_compute; reflexivity).
    rewrite forallb_forall in X. specialize (X x H). destruct (snd x); [discriminate|reflexivity]. }
  split; [|split; [|split; [|split]]].
  - exists (PArr [PInt 0; PInt 0; PWord (B"200.00"); PWord (B"300.00")]). split; [|split].
    + apply (case_object _ _ _ _ 0 _ _ [10] I3 eq_refl); [intros t'; vm_compute; reflexivity|reflexivity|blanks].
    + apply (case_object _ _ _ _ 1 _ _ [10] I3 eq_refl); [intros t'; vm_compute; reflexivity|reflexivity|blanks].
    + apply (box_is (fofz 200) (fofz 300)); reflexivity.
  - exists [(B"Type", PName (B"Page")); (B"Parent", PRef 2 0); (B"Resources", PRef 3 0); (B"Contents", PRef 6 0)].
    split; [apply (case_object _ _ _ _ 4 _ _ [10] I3 eq_refl); [intros t'; vm_compute; reflexivity|reflexivity|blanks]|]. repeat split.
  - eexists _, _. split; [|split; [reflexivity|split; reflexivity]].
    apply (case_stream _ _ _ _ 5 _ _ ([10] ++ B"stream" ++ [10] ++ (B"5.00 294.00 m 7.00 292.00 l s" ++ [10]) ++ [10] ++ B"endstream" ++ [10]) _ I3 eq_refl); [intros t'; vm_compute; reflexivity| |reflexivity].
    exists [10]. eexists. split; [reflexivity|]. split; [blanks|left; reflexivity].
  - eexists _, _. split; [|split; [reflexivity|split; reflexivity]].
    apply (case_stream _ _ _ _ 3 _ _ ([10] ++ B"stream" ++ [10] ++ (B"1.00 -2.00 m 3.00 -4.00 l s" ++ [10]) ++ [10] ++ B"endstream" ++ [10]) _ I3 eq_refl); [intros t'; vm_compute; reflexivity| |reflexivity].
    exists [10]. eexists. split; [reflexivity|]. split; [blanks|left; reflexivity].
  - discriminate.
Qed.

(** ** Saving twice *)

Definition again (x : res (trace * gp * bytes)) : res (gp * bytes) := match x with Ok (_, g, _) => g_bytes gw_id g | _ => Panic end.
Definition prog4 : list gcall := [std_page; Line (fofz 1) (fofz 2) (fofz 3) (fofz 4)].
Definition saved4 := save gw_id [] page_cfg prog4.
Definition again4 := again saved4.
Definition file4 : bytes := Eval vm_compute in match again4 with Ok (_, F) => F | _ => [] end.
Definition bufs4 : list bytes := Eval vm_compute in match again4 with Ok (g, _) => map o_buf (g_objs g) | _ => [] end.
Lemma saved_again : exists w rnd cfg g0 t g g1 F1 g2 F2, g_start rnd cfg gp0 = Ok g0 /\ runs w g0 t g /\ map (fun x => snd (fst x)) t = prog4 /\
  g_bytes w g = Ok (g1, F1) /\ g_bytes w g1 = Ok (g2, F2) /\
  object_is F1 1 (PDict [(B"Type", PName (B"Catalog")); (B"Pages", PRef 2 0)]) /\ forall v, ~ object_is F2 1 v.
Proof.
  assert (I4 : is_file (s_file saved4) (s_bufs saved4) None None) by (apply s_is_file; vm_compute; reflexivity).
  assert (J4 : is_file file4 bufs4 None None) by (split; [vm_compute; reflexivity|assert (X : (blen file4 <? 10 ^ 10) = true) by (vm_compute; reflexivity); lia]).
  assert (E : g_bytes gw_id (s_state saved4) = Ok (match again4 with Ok (g, _) => g | _ => gp0 end, file4)) by (vm_compute; reflexivity).
  set (g2 := match again4 with Ok (g, _) => g | _ => gp0 end) in E. clearbody g2.
  assert (E4 : save gw_id [] page_cfg prog4 = Ok (s_trace saved4, s_state saved4, s_file saved4)) by (vm_compute; reflexivity).
  destruct (save_parts _ _ _ _ _ _ _ E4) as (g0 & g & Es & R & M & Eb).
  eexists gw_id, [], page_cfg, g0, (s_trace saved4), g, (s_state saved4), (s_file saved4), g2, file4. split; [exact Es|]. split; [exact R|]. split; [exact M|]. split; [exact Eb|]. split; [exact E|]. split.
  - apply (case_object _ _ _ _ 0 _ _ [10] I4 eq_refl); [intros t'; vm_compute; reflexivity|reflexivity|blanks].
  - intros v (s & r & T' & Rd & (x & C)). destruct (case_text _ _ _ _ 0 _ J4 eq_refl) as (t2 & T). pose proof (object_text_unique _ _ _ _ T T') as X. subst s.
    destruct Rd as (f & Rd). apply (value_mono f (10 + f)) in Rd; [|lia]. revert Rd. vm_compute. intros Rd. assert (r <> []) by congruence.
    match type of Rd with Some (_, ?q) = _ => assert (r = q) by congruence end. subst r. revert C. clear. vm_compute. discriminate.
Qed.

(** ** MeasureTextWidth *)

Lemma measure_fails : forall w g text g' e, gstep w g (Measure text) = Ok (g', e) -> e <> None.
Proof.
  intros w g text g' e H. cbn [gstep] in H. unfold g_measure in H. destruct (add_text_chars g text) as [[[g1 n] e1]| | |]; cbn [bind] in H; try discriminate.
  destruct e1 as [e1|]; [|discriminate]. assert (e = Some e1) by congruence. subst e. discriminate.
Qed.
Definition run5 := run gw_id [] page_cfg [a_font; SetFont (B"T") 0 12].
Lemma measure_case : exists w rnd cfg g0 t g, g_start rnd cfg gp0 = Ok g0 /\ runs w g0 t g /\ map (fun x => snd (fst x)) t = [a_font; SetFont (B"T") 0 12] /\
  Forall (fun x => snd x = None) t /\ gstep w g (Measure (B"A")) = Panic.
Proof.
  destruct (r_parts gw_id [] page_cfg [a_font; SetFont (B"T") 0 12] run5 eq_refl ltac:(vm_compute; reflexivity)) as (g0 & S & R & M).
  exists gw_id, [], page_cfg, g0, (r_trace run5), (r_state run5). split; [exact S|]. split; [exact R|]. split; [exact M|]. split; [apply no_errors_ok; vm_compute; reflexivity|vm_compute; reflexivity].
Qed.
