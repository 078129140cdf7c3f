(** The dictionaries of catalog, page tree and pages that GoPdf writes, read by pdft. *)
From Coq Require Import String List ZArith Lia Bool.
From Coq.Floats Require Import SpecFloat.
From Verif Require Import Base BaseProofs Output OutputSpec OutputProofs Props PropsFlat PropsWrite PropsNorm PropsRefs PropsRead PropsSpec PropsFinal PagesEdit PdfData Float64 Parse ParseFind ParseFile ParseTrailer ParseProofs TextNumbers GoPdf.
Open Scope Z_scope.
Open Scope list_scope.

(** ** Blanks *)

Lemma collapse_two : forall a c s, is_ws4 a = true -> is_ws4 c = true -> collapse (a :: c :: s) = collapse (c :: s).
Proof. intros a c s Ha Hc. change (collapse (a :: c :: s)) with (if is_ws4 a then (if is_ws4 c then collapse (c :: s) else 32 :: collapse (c :: s)) else a :: collapse (c :: s)). rewrite Ha, Hc. reflexivity. Qed.

Lemma norm_two : forall a c s, is_ws4 a = true -> is_ws4 c = true -> norm (a :: c :: s) = norm (c :: s).
Proof. intros. unfold norm. rewrite collapse_two by assumption. reflexivity. Qed.

Lemma norm_close : forall c s, is_ws4 c = true -> norm (c :: 93 :: s) = 93 :: norm s.
Proof.
  intros. unfold norm. rewrite collapse_gap by auto.
  change (B"/") with [47]. change (B"[") with [91]. change (B"]") with [93]. change (B"<<") with [60; 60]. change (B">>") with [62; 62].
  rewrite !strip_gap by (auto; discriminate). rewrite strip_hit by auto. rewrite !strip_hd by auto. reflexivity.
Qed.

(** Characters of numbers and the like. *)
Definition wordc (c : Z) : Prop := 43 <= c <= 46 \/ 48 <= c <= 57 \/ 65 <= c <= 90 \/ 97 <= c <= 108 \/ 110 <= c <= 122.
Lemma word_nows : forall w, Forall wordc w -> nows w.
Proof. intros w H. eapply Forall_impl; [|exact H]. intros c Hc. unfold wordc, is_ws4 in *. lia. Qed.
Lemma norm_token : forall c w s, is_ws4 c = true -> w <> [] -> Forall wordc w -> norm (c :: w ++ s) = 32 :: w ++ norm s.
Proof.
  intros c w s Hc N H. pose proof (word_nows w H) as W. destruct w as [|d w]; [congruence|]. inversion H; inversion W; subst. cbn [app].
  rewrite norm_gap; auto; try (unfold wordc in *; lia). now rewrite norm_word.
Qed.
Lemma itoa_word : forall n, Forall wordc (itoa n).
Proof. intros n. eapply Forall_impl; [|apply itoa_chars]. intros c H. unfold num_char, wordc in *. lia. Qed.
Lemma lit_word : forall w, forallb (fun c => (43 <=? c) && (c <=? 46) || (48 <=? c) && (c <=? 57) || (65 <=? c) && (c <=? 90) || (97 <=? c) && (c <=? 122) && negb (c =? 109)) w = true -> Forall wordc w.
Proof. intros w H. apply Forall_forall. intros c Hc. rewrite forallb_forall in H. apply H in Hc. unfold wordc. lia. Qed.
Lemma utoa_word : forall n, 0 <= n -> Forall wordc (utoa n).
Proof. intros n H. eapply Forall_impl; [|apply utoa_Forall; exact H]. intros c Hc. cbv beta in Hc. unfold wordc. lia. Qed.
Lemma fixed2_word : forall n, 0 <= n -> Forall wordc (fixed2 n).
Proof.
  intros n H. unfold fixed2. apply Forall_app. split; [apply utoa_word; apply Z.div_pos; lia|]. apply Forall_app. split; [apply lit_word; reflexivity|].
  unfold pad0. apply Forall_app. split; [|apply utoa_word; apply Z.mod_pos_bound; lia]. apply Forall_forall. intros c Hc. apply repeat_spec in Hc. subst c. unfold wordc. lia.
Qed.
Lemma fmt_chars : forall x, Forall wordc (fmt2 x) /\ fmt2 x <> [].
Proof.
  assert (S : forall s : bool, Forall wordc (if s then B"-" else [])) by (intros []; [apply lit_word; reflexivity|constructor]).
  assert (N : forall n l, l ++ fixed2 n <> []). { intros n l E. apply app_eq_nil in E. destruct E as (_ & E). unfold fixed2 in E. apply app_eq_nil in E. destruct E as (_ & E). discriminate E. }
  intros [s|s| |s m e]; cbn [fmt2].
  - split; [apply Forall_app; split; [apply S|apply fixed2_word; lia]|apply N].
  - destruct s; (split; [apply lit_word; reflexivity|discriminate]).
  - split; [apply lit_word; reflexivity|discriminate].
  - split; [|apply N]. apply Forall_app. split; [apply S|]. apply fixed2_word. destruct (hundredths_near s m e) as (H & _). exact H.
Qed.

(** ** References *)

Definition spaced (l : list Z) : bytes := flat_map (fun i => B" " ++ itoa (i + 1) ++ B" 0 R") l.
Lemma norm_refs : forall l a c s, is_ws4 a = true -> is_ws4 c = true -> (forall d, is_ws4 d = true -> norm (d :: s) = norm s) ->
  norm (a :: flat_map g_ref l ++ c :: s) = spaced l ++ norm s.
Proof.
  induction l as [|i l IH]; intros a c s Ha Hc H.
  - cbn [flat_map spaced app]. rewrite norm_two by assumption. apply H. exact Hc.
  - cbn [flat_map]. unfold g_ref at 1. rewrite <- !app_assoc. change (B" " ++ itoa (i + 1) ++ ?x) with (32 :: itoa (i + 1) ++ x).
    rewrite norm_two by (auto; reflexivity). rewrite norm_num by reflexivity. change (B" 0 R " ++ flat_map g_ref l ++ c :: s) with (B" 0 R" ++ 32 :: flat_map g_ref l ++ c :: s).
    rewrite norm_ref. rewrite IH by (auto; reflexivity). unfold spaced. cbn [flat_map]. rewrite <- !app_assoc. reflexivity.
Qed.
Lemma slash_absorbs : forall s d, is_ws4 d = true -> norm (d :: 47 :: s) = norm (47 :: s).
Proof. intros s d H. rewrite norm_slash, norm_cons by auto. reflexivity. Qed.
Lemma close_absorbs : forall s d, is_ws4 d = true -> norm (d :: 93 :: s) = norm (93 :: s).
Proof. intros s d H. rewrite norm_close, norm_cons by auto. reflexivity. Qed.

(** ** The texts *)

Definition box_text (w h : f64) : bytes := B"[ 0 0 " ++ fmt2 w ++ B" " ++ fmt2 h ++ B"]".
Lemma norm_box : forall w h s, norm (B" [ 0 0 " ++ fmt2 w ++ B" " ++ fmt2 h ++ B" ]" ++ s) = box_text w h ++ norm s.
Proof.
  intros w h s. destruct (fmt_chars w) as (Cw & Nw). destruct (fmt_chars h) as (Ch & Nh).
  change (B" [ 0 0 " ++ fmt2 w ++ B" " ++ fmt2 h ++ B" ]" ++ s) with (32 :: 91 :: 32 :: [48] ++ 32 :: [48] ++ 32 :: fmt2 w ++ 32 :: fmt2 h ++ 32 :: 93 :: s).
  rewrite norm_bracket by reflexivity. rewrite norm_token by (reflexivity || discriminate || (apply lit_word; reflexivity)).
  rewrite norm_token by (reflexivity || discriminate || (apply lit_word; reflexivity)).
  rewrite norm_token by (reflexivity || assumption). rewrite norm_token by (reflexivity || assumption). rewrite norm_close by reflexivity.
  unfold box_text. rewrite <- !app_assoc. reflexivity.
Qed.

Definition catalog_ents : list ent := [mkEnt false (B"Type") []; mkEnt false (B"Catalog") []; mkEnt true (B"Pages") (refText 2)].
Definition pages_ents (w h : f64) (n : Z) (l : list Z) : list ent :=
  [mkEnt false (B"Type") []; mkEnt false (B"Pages") []; mkEnt false (B"MediaBox") (box_text w h); mkEnt true (B"Count") (itoa n);
   mkEnt false (B"Kids") (B"[" ++ spaced l ++ B"]")].
Definition content_ent (c : option Z) : ent := match c with Some i => mkEnt true (B"Contents") (refText (i + 1)) | None => mkEnt false (B"Contents") [] end.
Definition page_ents (c : option Z) (opt : f64 * f64) : list ent :=
  [mkEnt false (B"Type") []; mkEnt false (B"Page") []; mkEnt true (B"Parent") (refText 2); mkEnt true (B"Resources") (refText 3); content_ent c]
  ++ if opt_empty opt then [] else [mkEnt false (B"MediaBox") (box_text (fst opt) (snd opt))].

(** A dictionary between its brackets. *)
Lemma read_between : forall core z es, forallb is_space1 z = true -> ~ In 109 z -> trimmed core -> ~ In 109 core ->
  norm core = rend es -> Forall ent_ascii es -> run_ok es ->
  readProperties ([10] ++ B"<<" ++ [10; 32; 32] ++ core ++ z ++ B">>" ++ [10]) = Ok (map ent_prop es).
Proof.
  intros core z es Hz Nz Tc Nc Nm Ea Er. unfold readProperties. set (raw := [10] ++ B"<<" ++ [10; 32; 32] ++ core ++ z ++ B">>" ++ [10]).
  assert (NS : index stream_kw raw = None).
  { apply index_none. intros k O. apply (occ_in_all _ _ _ 109) in O; [|vm_compute; auto 10]. unfold raw in O.
    rewrite !in_app_iff in O. destruct O as [O|[O|[O|[O|[O|[O|O]]]]]]; try contradiction; vm_compute in O; repeat (destruct O as [O|O]; [discriminate O|]); exact O. }
  rewrite NS.
  assert (I : index (B"<<") raw = Some 1%nat) by reflexivity. rewrite I.
  set (t := [10; 32; 32] ++ core ++ z).
  assert (E : raw = ([10] ++ B"<<" ++ t) ++ B">>" ++ [10]) by (unfold raw, t; rewrite <- !app_assoc; reflexivity).
  assert (LI : last_index (B">>") raw = Some (List.length ([10] ++ B"<<" ++ t))) by (rewrite E; apply last_index_gt).
  rewrite LI. destruct (Nat.ltb_spec (List.length ([10] ++ B"<<" ++ t)) 1) as [L|L].
  { rewrite !app_length in L. change (List.length [10]) with 1%nat in L. change (List.length (B"<<")) with 2%nat in L. lia. }
  assert (SL : slice raw (Z.of_nat 1 + 2) (Z.of_nat (List.length ([10] ++ B"<<" ++ t))) = Ok t).
  { replace raw with (([10] ++ B"<<") ++ t ++ B">>" ++ [10]) by (rewrite E, <- !app_assoc; reflexivity).
    apply slice_app; [reflexivity|]. rewrite <- blen_app. unfold blen. now rewrite <- app_assoc. }
  rewrite SL. cbn [bind]. unfold t.
  rewrite trim_space_pad by (reflexivity || assumption).
  rewrite Nm, parse_props_flat, flat_rend; [reflexivity|left; reflexivity|exact Ea|exact Er].
Qed.

Lemma catalog_props : readProperties ([10] ++ catalog_build) = Ok (map ent_prop catalog_ents).
Proof. vm_compute. reflexivity. Qed.

(** Entries. *)
Lemma key_lit : forall k, forallb (fun c => (65 <=? c) && (c <=? 122) && negb (c =? 91)) k = true -> Forall key_char k.
Proof. intros k H. apply Forall_forall. intros c Hc. rewrite forallb_forall in H. apply H in Hc. unfold key_char, ascii, is_ws4. lia. Qed.
Lemma ref_asc : forall n, Forall ascii (refText n).
Proof.
  intros n. apply Forall_app. split; [|apply Forall_forall; intros c Hc; cbn in Hc; repeat destruct Hc as [<-|Hc]; try destruct Hc; unfold ascii; lia].
  eapply Forall_impl; [|apply itoa_chars]. intros c H. unfold num_char, ascii in *. lia.
Qed.
Lemma word_asc : forall w, Forall wordc w -> Forall ascii w.
Proof. intros w H. eapply Forall_impl; [|exact H]. intros c Hc. unfold wordc, ascii in *. lia. Qed.
Lemma box_asc : forall w h, Forall ascii (box_text w h).
Proof.
  intros w h. unfold box_text. destruct (fmt_chars w) as (Cw & _). destruct (fmt_chars h) as (Ch & _).
  assert (L : forall s, forallb (fun c => (0 <=? c) && (c <? 128)) s = true -> Forall ascii s) by (intros s H; apply Forall_forall; intros c Hc; rewrite forallb_forall in H; apply H in Hc; unfold ascii; lia).
  apply Forall_app. split; [apply L; reflexivity|]. apply Forall_app. split; [apply word_asc; exact Cw|]. apply Forall_app. split; [apply L; reflexivity|].
  apply Forall_app. split; [apply word_asc; exact Ch|apply L; reflexivity].
Qed.
(** What an array of words and blanks is made of. *)
Definition inner (c : Z) : Prop := wordc c \/ c = 32.
Lemma spaced_inner : forall l, Forall inner (spaced l).
Proof.
  intros l. apply Forall_flat_map, Forall_forall. intros i _. apply Forall_app. split; [constructor; [right; reflexivity|constructor]|].
  apply Forall_app. split; [eapply Forall_impl; [|apply itoa_word]; intros; left; assumption|].
  apply Forall_forall; intros c Hc; cbn in Hc; repeat destruct Hc as [<-|Hc]; try destruct Hc; unfold inner, wordc; lia.
Qed.
Lemma box_inner : forall w h, exists u, box_text w h = B"[" ++ u ++ B"]" /\ Forall inner u.
Proof.
  intros w h. exists (B" 0 0 " ++ fmt2 w ++ B" " ++ fmt2 h). split; [unfold box_text; rewrite <- !app_assoc; reflexivity|].
  destruct (fmt_chars w) as (Cw & _). destruct (fmt_chars h) as (Ch & _).
  apply Forall_app. split; [apply Forall_forall; intros c Hc; cbn in Hc; repeat destruct Hc as [<-|Hc]; try destruct Hc; unfold inner, wordc; lia|].
  apply Forall_app. split; [eapply Forall_impl; [|exact Cw]; intros; left; assumption|]. constructor; [right; reflexivity|]. eapply Forall_impl; [|exact Ch]; intros; left; assumption.
Qed.
Lemma arr_run : forall u, Forall inner u -> vrun 0 0 (B"[" ++ u ++ B"]") = VClosed.
Proof.
  intros u H. change (B"[" ++ u ++ B"]") with (91 :: u ++ [93]). cbn [vrun]. change (cnt1 91 0) with 0. change (cnt2 91 0) with 1. cbv zeta. cbn [Z.eqb andb orb Pos.eqb].
  induction H as [|c u H F IH]; [reflexivity|]. cbn [app vrun]. cbv zeta. unfold cnt1, cnt2. unfold inner, wordc in H.
  destruct (Z.eqb_spec c 60); [lia|]. destruct (Z.eqb_spec c 62); [lia|]. destruct (Z.eqb_spec c 91); [lia|]. destruct (Z.eqb_spec c 93); [lia|]. cbn [orb andb Z.eqb]. rewrite andb_false_r. exact IH.
Qed.
Lemma ref_run : forall n, complete (refText n).
Proof.
  intros. right. apply num_run. apply Forall_app. split; [apply itoa_ref_char|].
  apply Forall_forall; intros c Hc; cbn in Hc; repeat destruct Hc as [<-|Hc]; try destruct Hc; unfold ref_char, num_char; lia.
Qed.
Lemma inner_asc : forall u, Forall inner u -> Forall ascii (B"[" ++ u ++ B"]").
Proof.
  intros u H. change (B"[" ++ u ++ B"]") with (91 :: u ++ [93]). constructor; [unfold ascii; lia|]. apply Forall_app. split; [|constructor; [unfold ascii; lia|constructor]].
  eapply Forall_impl; [|exact H]. intros c Hc. unfold inner, wordc, ascii in *. lia.
Qed.
Lemma ent_empty : forall k, forallb (fun c => (65 <=? c) && (c <=? 122) && negb (c =? 91)) k = true -> ent_ascii (mkEnt false k []).
Proof. intros k H. split; [apply key_lit; exact H|]. split; [constructor|]. intros _. left. reflexivity. Qed.
Lemma ent_arr : forall k u, forallb (fun c => (65 <=? c) && (c <=? 122) && negb (c =? 91)) k = true -> Forall inner u -> ent_ascii (mkEnt false k (B"[" ++ u ++ B"]")).
Proof. intros k u H Hu. split; [apply key_lit; exact H|]. split; [apply inner_asc; exact Hu|]. intros _. right. exists 91, (u ++ B"]"). split; [reflexivity|auto]. Qed.
Lemma ent_ref : forall k n, forallb (fun c => (65 <=? c) && (c <=? 122) && negb (c =? 91)) k = true -> ent_ascii (mkEnt true k (refText n)).
Proof. intros k n H. split; [apply key_lit; exact H|]. split; [apply ref_asc|]. intros E. discriminate E. Qed.

Lemma pages_good : forall w h n l, Forall ent_ascii (pages_ents w h n l) /\ run_ok (pages_ents w h n l).
Proof.
  intros w h n l. unfold pages_ents. destruct (box_inner w h) as (u & -> & Hu). split.
  - constructor; [apply ent_empty; reflexivity|]. constructor; [apply ent_empty; reflexivity|]. constructor; [apply ent_arr; [reflexivity|exact Hu]|].
    constructor; [split; [apply key_lit; reflexivity|split; [apply word_asc, itoa_word|intros E; discriminate E]]|]. constructor; [apply ent_arr; [reflexivity|apply spaced_inner]|constructor].
  - constructor; [right; reflexivity|]. constructor; [right; reflexivity|]. constructor; [left; apply arr_run; exact Hu|].
    constructor; [right; apply num_run, itoa_ref_char|]. constructor. unfold not_stop. cbn [eval]. rewrite arr_run by apply spaced_inner. discriminate.
Qed.
Lemma content_good : forall c, ent_ascii (content_ent c) /\ complete (eval (content_ent c)).
Proof. intros [i|]; cbn [content_ent eval]; (split; [|]); [apply ent_ref; reflexivity|apply ref_run|apply ent_empty; reflexivity|right; reflexivity]. Qed.
Lemma page_good : forall c opt, Forall ent_ascii (page_ents c opt) /\ run_ok (page_ents c opt).
Proof.
  intros c opt. unfold page_ents. destruct (content_good c) as (C1 & C2).
  assert (G : forall es, Forall ent_ascii es -> run_ok es -> Forall ent_ascii ([mkEnt false (B"Type") []; mkEnt false (B"Page") []; mkEnt true (B"Parent") (refText 2); mkEnt true (B"Resources") (refText 3); content_ent c] ++ es) /\
    run_ok ([mkEnt false (B"Type") []; mkEnt false (B"Page") []; mkEnt true (B"Parent") (refText 2); mkEnt true (B"Resources") (refText 3); content_ent c] ++ es)).
  { intros es E1 E2. cbn [app]. split.
    - constructor; [apply ent_empty; reflexivity|]. constructor; [apply ent_empty; reflexivity|]. constructor; [apply ent_ref; reflexivity|]. constructor; [apply ent_ref; reflexivity|]. constructor; [exact C1|exact E1].
    - constructor; [right; reflexivity|]. constructor; [right; reflexivity|]. constructor; [apply ref_run|]. constructor; [apply ref_run|]. constructor; [exact C2|exact E2]. }
  destruct (opt_empty opt); [apply G; constructor|]. destruct (box_inner (fst opt) (snd opt)) as (u & -> & Hu).
  apply G; [constructor; [apply ent_arr; [reflexivity|exact Hu]|constructor]|]. constructor. unfold not_stop. cbn [eval]. rewrite arr_run by exact Hu. discriminate.
Qed.

(** ** Page tree and pages *)

Lemma in_word : forall w, Forall wordc w -> ~ In 109 w.
Proof. intros w H Hi. rewrite Forall_forall in H. apply H in Hi. unfold wordc in Hi. lia. Qed.
Ltac no_m := let H := fresh "Hm" in intros H; vm_compute in H; repeat (destruct H as [H|H]; [discriminate H|]); exact H.
Lemma refs_no : forall l, ~ In 109 (flat_map g_ref l).
Proof.
  intros l H. apply in_flat_map in H. destruct H as (i & _ & H). unfold g_ref in H. rewrite !in_app_iff in H.
  destruct H as [H|[H|H]]; [revert H; no_m|exact (in_word _ (itoa_word _) H)|revert H; no_m].
Qed.

Lemma pages_props : forall w h n l, readProperties ([10] ++ pages_build w h n (flat_map g_ref l)) = Ok (map ent_prop (pages_ents w h n l)).
Proof.
  intros w h n l.
  set (core := B"/Type /Pages" ++ [10; 32; 32] ++ B"/MediaBox" ++ B" [ 0 0 " ++ fmt2 w ++ B" " ++ fmt2 h ++ B" ]" ++ [10; 32; 32] ++ B"/Count" ++ B" " ++ itoa n ++ [10; 32; 32] ++ B"/Kids [ " ++ flat_map g_ref l ++ B" ]").
  assert (E : [10] ++ pages_build w h n (flat_map g_ref l) = [10] ++ B"<<" ++ [10; 32; 32] ++ core ++ [10] ++ B">>" ++ [10]).
  { unfold pages_build, media_box, core. rewrite <- !app_assoc. reflexivity. }
  rewrite E. destruct (pages_good w h n l) as (G1 & G2). apply read_between; try assumption; [reflexivity|no_m| | |].
  - unfold core. match goal with |- trimmed (B"/Type /Pages" ++ ?x) => remember x as y end.
    replace (B"/Type /Pages" ++ y) with (47 :: (B"Type /Pages" ++ removelast y) ++ [93]).
    + apply trimmed_ascii; unfold ascii; try lia; reflexivity.
    + assert (Y : y = removelast y ++ [93]).
      { assert (Y : exists x, y = x ++ [93]).
        { subst y. exists ([10; 32; 32] ++ B"/MediaBox" ++ B" [ 0 0 " ++ fmt2 w ++ B" " ++ fmt2 h ++ B" ]" ++ [10; 32; 32] ++ B"/Count" ++ B" " ++ itoa n ++ [10; 32; 32] ++ B"/Kids [ " ++ flat_map g_ref l ++ B" ").
          repeat (rewrite <- app_assoc || rewrite <- app_comm_cons). reflexivity. }
        destruct Y as (x & ->). rewrite removelast_last. reflexivity. }
      rewrite Y at 2. rewrite <- !app_assoc. reflexivity.
  - unfold core. destruct (fmt_chars w) as (Cw & _). destruct (fmt_chars h) as (Ch & _). apply in_word in Cw, Ch. pose proof (in_word _ (itoa_word n)) as Cn. pose proof (refs_no l) as Cl.
    intros H. rewrite !in_app_iff in H.
    repeat (destruct H as [H|H]; [first [contradiction|revert H; no_m]|]). revert H; no_m.
  - unfold core. 
    change (norm (B"/Type" ++ 32 :: 47 :: B"Pages" ++ 10 :: 32 :: 32 :: 47 :: B"MediaBox" ++ B" [ 0 0 " ++ fmt2 w ++ B" " ++ fmt2 h ++ B" ]" ++ 10 :: 32 :: 32 :: 47 :: B"Count" ++ 32 :: itoa n ++ 10 :: 32 :: 32 :: 47 :: B"Kids" ++ 32 :: 91 :: 32 :: flat_map g_ref l ++ 32 :: 93 :: []) = rend (pages_ents w h n l)).
    rewrite norm_word by lit_nows. rewrite norm_slash by reflexivity. rewrite norm_word by lit_nows. rewrite !norm_two by reflexivity. rewrite norm_slash by reflexivity.
    rewrite norm_word by lit_nows. rewrite norm_box. rewrite !norm_two by reflexivity. rewrite norm_slash by reflexivity. rewrite norm_word by lit_nows. rewrite norm_num by reflexivity.
    rewrite !norm_two by reflexivity. rewrite norm_slash by reflexivity. rewrite norm_word by lit_nows. rewrite norm_bracket by reflexivity.
    rewrite norm_refs by (reflexivity || (intros; apply close_absorbs; assumption)). rewrite norm_cons by reflexivity.
    unfold rend, pages_ents, rend1. cbn [flat_map efl ekey eval]. repeat (rewrite <- app_assoc || rewrite <- app_comm_cons). reflexivity.
Qed.

Definition one (c : option Z) : list Z := match c with Some i => [i] | None => [] end.
Definition page_start : bytes := B"/Type /Page" ++ [10; 32; 32] ++ B"/Parent 2 0 R" ++ [10; 32; 32] ++ B"/Resources 3 0 R" ++ [10; 32; 32] ++ B"/Contents".
Lemma norm_start : forall s, norm (page_start ++ s) = B"/Type/Page/Parent 2 0 R/Resources 3 0 R/Contents" ++ norm s.
Proof.
  intros s. unfold page_start. rewrite <- !app_assoc.
  change (norm (B"/Type" ++ 32 :: 47 :: B"Page" ++ 10 :: 32 :: 32 :: 47 :: B"Parent" ++ 32 :: [50] ++ B" 0 R" ++ 10 :: 32 :: 32 :: 47 :: B"Resources" ++ 32 :: [51] ++ B" 0 R" ++ 10 :: 32 :: 32 :: 47 :: B"Contents" ++ s)
    = B"/Type/Page/Parent 2 0 R/Resources 3 0 R/Contents" ++ norm s).
  rewrite norm_word by lit_nows. rewrite norm_slash by reflexivity. rewrite norm_word by lit_nows. rewrite !norm_two by reflexivity. rewrite norm_slash by reflexivity.
  rewrite norm_word by lit_nows. rewrite norm_token by (reflexivity || discriminate || (apply lit_word; reflexivity)). rewrite norm_ref. rewrite !norm_two by reflexivity. rewrite norm_slash by reflexivity.
  rewrite norm_word by lit_nows. rewrite norm_token by (reflexivity || discriminate || (apply lit_word; reflexivity)). rewrite norm_ref. rewrite !norm_two by reflexivity. rewrite norm_slash by reflexivity.
  rewrite norm_word by lit_nows. reflexivity.
Qed.
Lemma start_trimmed : forall x y, ascii y -> is_space1 y = false -> trimmed (page_start ++ x ++ [y]).
Proof.
  intros x y H1 H2. replace (page_start ++ x ++ [y]) with (47 :: (B"Type /Page" ++ [10; 32; 32] ++ B"/Parent 2 0 R" ++ [10; 32; 32] ++ B"/Resources 3 0 R" ++ [10; 32; 32] ++ B"/Contents" ++ x) ++ [y]).
  - apply trimmed_ascii; unfold ascii in *; try lia; try reflexivity; exact H2.
  - unfold page_start. repeat (rewrite <- app_assoc || rewrite <- app_comm_cons). reflexivity.
Qed.

Lemma page_props : forall c opt, readProperties ([10] ++ page_build (flat_map g_ref (one c)) (B"3 0 R") opt) = Ok (map ent_prop (page_ents c opt)).
Proof.
  assert (NM : nows (B"MediaBox")) by lit_nows. intros c opt. pose proof (page_good c opt) as G. unfold page_build, page_ents in *. destruct (opt_empty opt).
  - destruct G as (G1 & G2). destruct c as [i|]; cbn [one flat_map].
    + set (core := page_start ++ ([32; 32] ++ itoa (i + 1) ++ B" 0 ") ++ [82]).
      match goal with |- readProperties ?t = _ => assert (E : t = [10] ++ B"<<" ++ [10; 32; 32] ++ core ++ [32; 10] ++ B">>" ++ [10]) end.
      { unfold core, page_start, g_ref. rewrite <- !app_assoc. reflexivity. }
      rewrite E. apply read_between; try assumption; [reflexivity|no_m|apply start_trimmed; [unfold ascii; lia|reflexivity]| |].
      * unfold core. intros H. rewrite !in_app_iff in H. destruct H as [H|[[H|[H|H]]|H]]; [revert H; no_m|revert H; no_m|exact (in_word _ (itoa_word _) H)|revert H; no_m|revert H; no_m].
      * unfold core. rewrite norm_start. rewrite <- !app_assoc. change (norm ([32; 32] ++ itoa (i + 1) ++ B" 0 " ++ [82])) with (norm (32 :: 32 :: itoa (i + 1) ++ B" 0 R" ++ [])).
        rewrite norm_two by reflexivity. rewrite norm_num by reflexivity. rewrite norm_ref. unfold rend, rend1, content_ent, refText. cbn [flat_map app efl ekey eval]. repeat (rewrite <- app_assoc || rewrite <- app_comm_cons). reflexivity.
    + rewrite app_nil_l.
      match goal with |- readProperties ?t = _ => assert (E : t = [10] ++ B"<<" ++ [10; 32; 32] ++ page_start ++ [32; 10] ++ B">>" ++ [10]) by reflexivity end.
      rewrite E. apply read_between; try assumption; [reflexivity|no_m| |no_m|].
      * apply (trimmed_ascii 47 (B"Type /Page" ++ [10; 32; 32] ++ B"/Parent 2 0 R" ++ [10; 32; 32] ++ B"/Resources 3 0 R" ++ [10; 32; 32] ++ B"/Content") 115); unfold ascii; try lia; reflexivity.
      * rewrite <- (app_nil_r page_start) at 1. rewrite norm_start. reflexivity.
  - destruct G as (G1 & G2). destruct opt as (w, h). cbn [fst snd] in *.
    set (core := page_start ++ ([32] ++ flat_map g_ref (one c) ++ [10; 32] ++ B"/MediaBox" ++ B" [ 0 0 " ++ fmt2 w ++ B" " ++ fmt2 h ++ B" ") ++ [93]).
    match goal with |- readProperties ?t = _ => assert (E : t = [10] ++ B"<<" ++ [10; 32; 32] ++ core ++ [10] ++ B">>" ++ [10]) end.
    { unfold core, page_start, media_box. rewrite <- !app_assoc. reflexivity. }
    rewrite E. apply read_between; try assumption; [reflexivity|no_m|apply start_trimmed; [unfold ascii; lia|reflexivity]| |].
    + unfold core. destruct (fmt_chars w) as (Cw & _). destruct (fmt_chars h) as (Ch & _). apply in_word in Cw, Ch. pose proof (refs_no (one c)) as Cl.
      intros H. rewrite !in_app_iff in H. destruct H as [H|[[H|[H|[H|[H|[H|[H|[H|[H|H]]]]]]]]|H]]; first [contradiction|revert H; no_m].
    + unfold core. rewrite norm_start. rewrite <- !app_assoc.
      match goal with |- _ ++ norm ?t = _ => change (norm t) with (norm (32 :: flat_map g_ref (one c) ++ 10 :: 32 :: 47 :: B"MediaBox" ++ B" [ 0 0 " ++ fmt2 w ++ B" " ++ fmt2 h ++ B" ]" ++ [])) end.
      rewrite (norm_refs (one c) 32 10 (32 :: 47 :: B"MediaBox" ++ B" [ 0 0 " ++ fmt2 w ++ B" " ++ fmt2 h ++ B" ]" ++ [])); [|reflexivity|reflexivity|intros d Hd; rewrite norm_two by (exact Hd || reflexivity); reflexivity].
      rewrite norm_slash by reflexivity. rewrite norm_word by exact NM. rewrite norm_box.
      unfold rend, rend1, content_ent, refText, spaced. destruct c as [i|]; cbn [one flat_map app efl ekey eval]; repeat (rewrite <- app_assoc || rewrite <- app_comm_cons || rewrite app_nil_r); reflexivity.
Qed.

(** ** The values *)

Lemma spaced_refs : forall l, l <> [] -> spaced l = 32 :: refs_text (map (fun i => i + 1) l).
Proof.
  induction l as [|i l IH]; intros H; [congruence|]. unfold spaced. cbn [flat_map map]. fold (spaced l). destruct l as [|j l].
  - unfold spaced. cbn [flat_map map]. rewrite app_nil_r. reflexivity.
  - rewrite IH by discriminate. unfold refs_text. change (ref_tokens (i + 1 :: map (fun i => i + 1) (j :: l))) with ([itoa (i + 1); B"0"; B"R"] ++ ref_tokens (map (fun i => i + 1) (j :: l))).
    rewrite join1_app by discriminate. rewrite <- !app_assoc. change (join1 32 [itoa (i + 1); B"0"; B"R"]) with (itoa (i + 1) ++ B" 0 R"). rewrite <- app_assoc. reflexivity.
Qed.

Lemma kids_ids : forall l, l <> [] -> Forall in_int (map (fun i => i + 1) l) -> readObjIDs (B"[" ++ spaced l ++ B"]") = Ok (map (fun i => i + 1) l).
Proof.
  intros l H F. rewrite spaced_refs by exact H. set (ids := map (fun i => i + 1) l) in *. assert (Hn : ids <> []) by (unfold ids; destruct l; [congruence|discriminate]).
  clearbody ids. unfold readObjIDs.
  assert (R : Forall (fun c => c <> 91 /\ c <> 93) (refs_text ids)).
  { eapply Forall_impl; [|apply refs_chars]. intros a Ha. unfold ref_char, num_char in Ha. lia. }
  change (B"[" ++ (32 :: refs_text ids) ++ B"]") with (B"[ " ++ refs_text ids ++ B"]"). rewrite !replace1_app.
  change (replace1 93 [] (replace1 91 [] (B"[ "))) with [32].
  change (replace1 93 [] (replace1 91 [] (B"]"))) with (@nil Z).
  rewrite !(replace1_none 91), !(replace1_none 93); try (eapply Forall_impl; [|eassumption]; intros a [? ?]; auto).
  rewrite trim_space_pad by (try reflexivity; apply refs_trimmed; exact Hn).
  unfold refs_text. rewrite split1_join.
  - apply readObjIDs_tokens. auto.
  - destruct ids; [congruence|discriminate].
  - apply ref_tokens_nosp.
Qed.

Lemma fields_last : forall w f, Forall (fun c => ascii c /\ is_space1 c = false) w -> w <> [] -> fields_aux (List.length w + S f) [] w = [w].
Proof.
  intros w f H N. rewrite <- (app_nil_r w) at 2. rewrite fields_word by exact H. rewrite app_nil_r. cbn [fields_aux].
  destruct (rev w) as [|c t] eqn:E; [apply (f_equal (@rev Z)) in E; rewrite rev_involutive in E; cbn in E; congruence|].
  rewrite <- E, rev_involutive. reflexivity.
Qed.
Lemma fields_next : forall w f s, Forall (fun c => ascii c /\ is_space1 c = false) w -> w <> [] -> fields_aux (List.length w + S f) [] (w ++ 32 :: s) = w :: fields_aux f [] s.
Proof.
  intros w f s H N. rewrite fields_word by exact H. rewrite app_nil_r. 
  destruct (rev w) as [|c t] eqn:E; [apply (f_equal (@rev Z)) in E; rewrite rev_involutive in E; cbn in E; congruence|].
  rewrite <- (rev_involutive w), E. reflexivity.
Qed.
Lemma word_field : forall w, Forall wordc w -> Forall (fun c => ascii c /\ is_space1 c = false) w.
Proof. intros w H. eapply Forall_impl; [|exact H]. intros c Hc. unfold wordc, ascii, is_space1 in *. split; [lia|]. lia. Qed.

Lemma box_floats : forall float w h, propertyType (box_text w h) = PArray /\ parseFloatSlice float (box_text w h) = parse_all float [B"0"; B"0"; fmt2 w; fmt2 h].
Proof.
  intros float w h. destruct (fmt_chars w) as (Cw & Nw). destruct (fmt_chars h) as (Ch & Nh).
  assert (T : trim_space (box_text w h) = box_text w h).
  { apply trim_space_id. replace (box_text w h) with (91 :: (B" 0 0 " ++ fmt2 w ++ B" " ++ fmt2 h) ++ [93]) by (unfold box_text; rewrite <- !app_assoc; reflexivity).
    apply trimmed_ascii; unfold ascii; try lia; reflexivity. }
  split.
  - unfold propertyType. cbv zeta. rewrite T. assert (L : 2 < blen (box_text w h)) by (unfold box_text; rewrite blen_app; change (blen (B"[ 0 0 ")) with 6; pose proof (blen_nonneg (fmt2 w ++ B" " ++ fmt2 h ++ B"]")); lia).
    replace (2 <? blen (box_text w h)) with true by lia. replace (1 <? blen (box_text w h)) with true by lia. reflexivity.
  - unfold parseFloatSlice. rewrite T. f_equal.
    assert (E : trim_suffix1 93 (trim_prefix1 91 (box_text w h)) = 32 :: [48] ++ 32 :: [48] ++ 32 :: fmt2 w ++ 32 :: fmt2 h).
    { change (trim_prefix1 91 (box_text w h)) with (B" 0 0 " ++ fmt2 w ++ B" " ++ fmt2 h ++ B"]"). unfold trim_suffix1.
      replace (B" 0 0 " ++ fmt2 w ++ B" " ++ fmt2 h ++ B"]") with ((B" 0 0 " ++ fmt2 w ++ B" " ++ fmt2 h) ++ [93]) by (rewrite <- !app_assoc; reflexivity).
      rewrite rev_app_distr. change (rev [93]) with [93]. cbn [app trim_prefix1]. change (93 =? 93) with true. cbv iota. rewrite rev_involutive. reflexivity. }
    rewrite E. unfold fields.
    assert (L : S (List.length (32 :: [48] ++ 32 :: [48] ++ 32 :: fmt2 w ++ 32 :: fmt2 h)) = S (1 + S (1 + S (List.length (fmt2 w) + S (List.length (fmt2 h) + 1))))%nat).
    { cbn [List.length app]. rewrite app_length. cbn [List.length]. lia. }
    rewrite L. change (fields_aux (S ?f) [] (32 :: ?s)) with (fields_aux f [] s).
    assert (Z1 : forall f u, fields_aux (1 + S f) [] ([48] ++ 32 :: u) = [48] :: fields_aux f [] u) by (intros f u; apply (fields_next [48]); [apply word_field, lit_word; reflexivity|discriminate]).
    rewrite !Z1.
    rewrite (fields_next (fmt2 w) (List.length (fmt2 h) + 1) (fmt2 h)) by (assumption || (apply word_field; assumption)).
    rewrite fields_last by (assumption || (apply word_field; assumption)). reflexivity.
Qed.
