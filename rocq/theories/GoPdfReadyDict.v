(** The resources that GoPdf writes, read by pdft. *)
From Coq Require Import String List ZArith Lia Bool.
From Coq.Floats Require Import SpecFloat.
From Verif Require Import Base BaseProofs Output OutputSpec OutputProofs Props PropsFlat PropsWrite PropsNorm PropsRefs PropsRead PropsSpec PropsFinal PagesEdit PdfData PagesSpec InjectSpec ImgSpec ImgLists ImgFinal Float64 Parse ParseFind ParseFile ParseTrailer ParseProofs GoPdf GoPdfOpenDict.
From Verif Require ContentProofs.
Open Scope Z_scope.
Open Scope list_scope.

(** ** Blanks around angle brackets *)

Lemma strip_hit2 : forall p s, is_ws4 p = false -> strip [p; p] (32 :: p :: p :: s) = p :: p :: strip [p; p] s.
Proof. 
  intros p s H. change (strip [p; p] (32 :: p :: p :: s)) with (if is_ws4 32 && prefixb [p; p] (skip_ws (p :: p :: s)) then strip [p; p] (p :: p :: s) else 32 :: strip [p; p] (p :: p :: s)).
  cbn [skip_ws]. rewrite H. cbn [prefixb]. rewrite Z.eqb_refl. cbn [andb]. change (is_ws4 32) with true. cbv iota. cbn [andb]. now rewrite !strip_hd by exact H.
Qed.
Lemma norm_lt : forall c s, is_ws4 c = true -> norm (c :: 60 :: 60 :: s) = 60 :: 60 :: norm s.
Proof.
  intros. unfold norm. rewrite collapse_gap by auto. rewrite collapse_hd by auto.
  change (B"/") with [47]. change (B"[") with [91]. change (B"]") with [93]. change (B"<<") with [60; 60]. change (B">>") with [62; 62].
  do 3 (rewrite strip_gap by (auto; discriminate); rewrite (strip_hd _ 60) by auto).
  rewrite strip_hit2 by auto. rewrite !strip_hd by auto. reflexivity.
Qed.
Lemma norm_gt : forall c s, is_ws4 c = true -> norm (c :: 62 :: 62 :: s) = 62 :: 62 :: norm s.
Proof.
  intros. unfold norm. rewrite collapse_gap by auto. rewrite collapse_hd by auto.
  change (B"/") with [47]. change (B"[") with [91]. change (B"]") with [93]. change (B"<<") with [60; 60]. change (B">>") with [62; 62].
  do 4 (rewrite strip_gap by (auto; discriminate); rewrite (strip_hd _ 62) by auto).
  rewrite strip_hit2 by auto. reflexivity.
Qed.
Lemma norm_pad : forall pad c s, is_ws4 c = true -> Forall (fun x => is_ws4 x = true) pad -> exists d, is_ws4 d = true /\ norm (c :: pad ++ s) = norm (d :: s).
Proof.
  induction pad as [|x pad IH]; intros c s Hc H; [exists c; auto|]. inversion H; subst. destruct (IH x s) as (d & Hd & E); auto. exists d. split; [exact Hd|].
  cbn [app]. rewrite norm_two by assumption. exact E.
Qed.

(** ** Names with references *)

Definition name_ref (e : bytes * Z) : ent := mkEnt true (fst e) (refText (snd e)).
Definition named (l : list (bytes * Z)) : bytes := rend (map name_ref l).
Definition props_of_names (l : list (bytes * Z)) : list prop := map (fun e => mkProp (fst e) (refText (snd e))) l.
Definition lines (pad : bytes) (l : list (bytes * Z)) : bytes := flat_map (fun e => pad ++ B"/" ++ fst e ++ B" " ++ itoa (snd e) ++ B" 0 R" ++ [10]) l.
Definition font_names (fs : list relfont) : list (bytes * Z) := map (fun r => (B"F" ++ itoa (r_count r + 1), r_obj r + 1)) fs.
Fixpoint image_names (xs : list Z) (l : Z) : list (bytes * Z) := match xs with [] => [] | x :: xs => (B"I" ++ itoa (l + 1), x + 1) :: image_names xs (l + 1) end.

Lemma image_lines : forall xs l, xobj_lines xs l = lines [] (image_names xs l).
Proof. induction xs as [|x xs IH]; intros l; [reflexivity|]. cbn [xobj_lines image_names]. unfold lines. cbn [flat_map fst snd]. rewrite IH, <- !app_assoc. reflexivity. Qed.
Lemma font_lines : forall fs, flat_map (fun r => B"      /F" ++ itoa (r_count r + 1) ++ B" " ++ itoa (r_obj r + 1) ++ B" 0 R" ++ [10]) fs = lines (B"      ") (font_names fs).
Proof. induction fs as [|r fs IH]; [reflexivity|]. cbn [flat_map font_names map]. unfold lines. cbn [flat_map fst snd]. fold (lines (B"      ") (font_names fs)). rewrite IH, <- !app_assoc. reflexivity. Qed.

(** A letter and a number. *)
Definition lettered (e : bytes * Z) : Prop := exists c n, fst e = [c] ++ itoa n /\ (c = 70 \/ c = 73).
Lemma fonts_lettered : forall fs, Forall lettered (font_names fs).
Proof. intros fs. unfold font_names. apply Forall_map, Forall_forall. intros r _. exists 70, (r_count r + 1). auto. Qed.
Lemma images_lettered : forall xs l, Forall lettered (image_names xs l).
Proof. induction xs as [|x xs IH]; intros l; constructor; [exists 73, (l + 1); auto|apply IH]. Qed.
Lemma lettered_word : forall e, lettered e -> Forall (fun c => wordc c /\ c <> 115) (fst e).
Proof.
  intros e (c & n & -> & Hc). constructor; [unfold wordc; lia|]. eapply Forall_impl; [|apply itoa_chars]. intros d Hd. unfold num_char, wordc in *. lia.
Qed.

Lemma norm_lines : forall pad l c s, Forall (fun x => is_ws4 x = true) pad -> Forall lettered l -> is_ws4 c = true -> norm (c :: lines pad l ++ B">>" ++ s) = named l ++ B">>" ++ norm s.
Proof.
  intros pad l c s Hp H. revert c. induction H as [|e l He H IH]; intros c Hc.
  - cbn [lines flat_map app named map rend]. change (B">>" ++ s) with (62 :: 62 :: s). rewrite norm_gt by exact Hc. reflexivity.
  - change (lines pad (e :: l)) with ((pad ++ B"/" ++ fst e ++ B" " ++ itoa (snd e) ++ B" 0 R" ++ [10]) ++ lines pad l). rewrite <- !app_assoc.
    destruct (norm_pad pad c (B"/" ++ fst e ++ B" " ++ itoa (snd e) ++ B" 0 R" ++ [10] ++ lines pad l ++ B">>" ++ s) Hc Hp) as (d & Hd & ->).
    change (B"/" ++ ?x) with (47 :: x). rewrite norm_slash by exact Hd.
    assert (W : nows (fst e)). { apply word_nows. eapply Forall_impl; [|apply lettered_word; exact He]. cbv beta. tauto. }
    change (B" " ++ ?x) with (32 :: x). rewrite norm_entry by exact W. rewrite norm_ref. change ([10] ++ ?x) with (10 :: x). rewrite IH by reflexivity.
    unfold named. cbn [map rend flat_map]. unfold rend1, name_ref at 2 3 4. cbn [efl ekey eval]. unfold refText. rewrite <- !app_assoc. reflexivity.
Qed.

(** ** The resource dictionary *)

Definition proc_text : bytes := B"[/PDF/Text/ImageB/ImageC/ImageI]".
Definition res_ents (fl xl : list (bytes * Z)) : list ent :=
  [mkEnt false (B"ProcSet") proc_text; mkEnt false (B"Font") (B"<<" ++ named fl ++ B">>"); mkEnt false (B"XObject") (B"<<" ++ named xl ++ B">>")].
Definition res_core (fl xl : list (bytes * Z)) : bytes :=
  B"/ProcSet [/PDF /Text /ImageB /ImageC /ImageI]" ++ [10] ++ B"/Font <<" ++ [10] ++ lines (B"      ") fl ++ B">>" ++ [10] ++ B"/XObject <<" ++ [10] ++ lines [] xl ++ B">>".

Lemma norm_core : forall fl xl, Forall lettered fl -> Forall lettered xl -> norm (res_core fl xl) = rend (res_ents fl xl).
Proof.
  intros fl xl Hf Hx. unfold res_core.
  change (B"/ProcSet [/PDF /Text /ImageB /ImageC /ImageI]" ++ ?x) with (B"/ProcSet" ++ 32 :: 91 :: B"/PDF" ++ 32 :: 47 :: B"Text" ++ 32 :: 47 :: B"ImageB" ++ 32 :: 47 :: B"ImageC" ++ 32 :: 47 :: B"ImageI]" ++ x).
  rewrite norm_word by lit_nows. rewrite norm_bracket by reflexivity. rewrite norm_word by lit_nows. do 4 (rewrite norm_slash by reflexivity; rewrite norm_word by lit_nows).
  change ([10] ++ B"/Font <<" ++ [10] ++ ?x) with (10 :: 47 :: B"Font" ++ 32 :: 60 :: 60 :: 10 :: x).
  rewrite norm_slash by reflexivity. rewrite norm_word by lit_nows. rewrite norm_lt by reflexivity.
  rewrite norm_lines; [|repeat constructor|exact Hf|reflexivity].
  change ([10] ++ B"/XObject <<" ++ [10] ++ ?x) with (10 :: 47 :: B"XObject" ++ 32 :: 60 :: 60 :: 10 :: x).
  rewrite norm_slash by reflexivity. rewrite norm_word by lit_nows. rewrite norm_lt by reflexivity.
  rewrite <- (app_nil_r (B">>")) at 2. rewrite norm_lines; [|constructor|exact Hx|reflexivity]. change (norm []) with (@nil Z). rewrite app_nil_r.
  unfold rend, res_ents, rend1, proc_text. cbn [flat_map efl ekey eval]. rewrite app_nil_r. cbn [app]. rewrite <- !app_assoc. reflexivity.
Qed.

(** No s, no m: no stream begins. *)
Lemma no_stream : forall s, ~ In 115 s -> index stream_kw s = None.
Proof. intros s H. apply index_none. intros k O. apply (occ_in_all _ _ _ 115) in O; [auto|]. vm_compute. auto. Qed.

Lemma read_before : forall y core z es rest, forallb is_space1 y = true -> forallb is_space1 z = true -> trimmed core -> ~ In 115 (y ++ core ++ z) ->
  norm core = rend es -> Forall ent_ascii es -> run_ok es -> rest = [] \/ (exists r, rest = B"stream" ++ r) ->
  readProperties (([10] ++ B"<<" ++ y ++ core ++ z ++ B">>" ++ [10]) ++ rest) = Ok (map ent_prop es).
Proof.
  intros y core z es rest Hy Hz Tc N Nm Ea Er R. unfold readProperties. set (raw := [10] ++ B"<<" ++ y ++ core ++ z ++ B">>" ++ [10]).
  set (t := y ++ core ++ z).
  assert (E : raw = ([10] ++ B"<<" ++ t) ++ B">>" ++ [10]) by (unfold raw, t; rewrite <- !app_assoc; reflexivity).
  assert (NS : ~ In 115 raw).
  { rewrite E. rewrite !in_app_iff. fold t in N. intros [[O|[O|O]]|[O|O]]; try contradiction; vm_compute in O; repeat (destruct O as [O|O]; [discriminate O|]); exact O. }
  assert (T0 : match index stream_kw (raw ++ rest) with Some n => firstn n (raw ++ rest) | None => raw ++ rest end = raw).
  { destruct R as [->|(r & ->)]; [rewrite app_nil_r, no_stream by exact NS; reflexivity|].
    change stream_kw with (115 :: B"tream"). rewrite ContentProofs.index_skip; [|apply Forall_forall; intros c Hc X; subst c; contradiction|reflexivity].
    rewrite firstn_app, firstn_all, Nat.sub_diag. cbn [firstn]. apply app_nil_r. }
  rewrite T0.
  assert (I1 : index (B"<<") raw = Some 1%nat) by reflexivity. rewrite I1.
  assert (LI : last_index (B">>") raw = Some (List.length ([10] ++ B"<<" ++ t))) by (rewrite E; apply last_index_gt).
  rewrite LI. destruct (Nat.ltb_spec (List.length ([10] ++ B"<<" ++ t)) 1) as [L|L].
  { rewrite !app_length in L. change (List.length [10]) with 1%nat in L. change (List.length (B"<<")) with 2%nat in L. lia. }
  assert (SL : slice (raw ++ rest) (Z.of_nat 1 + 2) (Z.of_nat (List.length ([10] ++ B"<<" ++ t))) = Ok t).
  { replace (raw ++ rest) with (([10] ++ B"<<") ++ t ++ B">>" ++ [10] ++ rest) by (rewrite E, <- !app_assoc; reflexivity).
    apply slice_app; [reflexivity|]. rewrite <- blen_app. unfold blen. now rewrite <- app_assoc. }
  rewrite SL. cbn [bind]. unfold t.
  rewrite trim_space_pad by assumption.
  rewrite Nm, parse_props_flat, flat_rend; [reflexivity|left; reflexivity|exact Ea|exact Er].
Qed.
Lemma read_around : forall y core z es, forallb is_space1 y = true -> forallb is_space1 z = true -> trimmed core -> ~ In 115 (y ++ core ++ z) ->
  norm core = rend es -> Forall ent_ascii es -> run_ok es ->
  readProperties ([10] ++ B"<<" ++ y ++ core ++ z ++ B">>" ++ [10]) = Ok (map ent_prop es).
Proof.
  intros y core z es Hy Hz Tc N Nm Ea Er. rewrite <- (app_nil_r ([10] ++ _)). apply read_before; auto.
Qed.

(** What the names consist of. *)
Definition refc (c : Z) : Prop := 32 <= c < 115 /\ c <> 60 /\ c <> 62 /\ c <> 91 /\ c <> 93.
Lemma ref_refc : forall n, Forall refc (refText n).
Proof.
  intros n. apply Forall_app. split; [eapply Forall_impl; [|apply itoa_chars]; intros c H; unfold num_char, refc in *; lia|].
  apply Forall_forall; intros c Hc; cbn in Hc; repeat destruct Hc as [<-|Hc]; try destruct Hc; unfold refc; lia.
Qed.
Lemma key_refc : forall e, lettered e -> Forall (fun c => 33 <= c < 115 /\ c <> 47 /\ c <> 60 /\ c <> 62 /\ c <> 91 /\ c <> 93) (fst e).
Proof. intros e (c & n & -> & Hc). constructor; [lia|]. eapply Forall_impl; [|apply itoa_chars]. intros d Hd. unfold num_char in *. lia. Qed.
Lemma named_cons : forall e l, named (e :: l) = B"/" ++ fst e ++ B" " ++ refText (snd e) ++ named l.
Proof. intros e l. unfold named. cbn [map rend flat_map]. unfold rend1, name_ref at 1 2 3. cbn [efl ekey eval]. rewrite <- !app_assoc. reflexivity. Qed.
Lemma named_refc : forall l, Forall lettered l -> Forall refc (named l).
Proof.
  intros l H. induction H as [|e l He H IH]; [constructor|]. rewrite named_cons. change (B"/" ++ ?x) with (47 :: x). change (B" " ++ ?x) with (32 :: x). constructor; [unfold refc; lia|]. apply Forall_app. split.
  - eapply Forall_impl; [|apply key_refc; exact He]. intros c Hc. cbv beta in Hc. unfold refc. lia.
  - constructor; [unfold refc; lia|]. apply Forall_app. split; [apply ref_refc|exact IH].
Qed.
Lemma refc_no : forall s c, Forall refc s -> ~ (32 <= c < 115) \/ c = 60 \/ c = 62 \/ c = 91 \/ c = 93 -> ~ In c s.
Proof. intros s c H Hc O. rewrite Forall_forall in H. apply H in O. unfold refc in O. lia. Qed.
Lemma refc_ascii : forall s, Forall refc s -> Forall ascii s.
Proof. intros s H. eapply Forall_impl; [|exact H]. intros c Hc. unfold refc, ascii in *. lia. Qed.

Lemma run_refc : forall s c1 c2 t, Forall refc s -> 0 < c1 -> vrun c1 c2 (s ++ t) = vrun c1 c2 t.
Proof.
  intros s c1 c2 t H Hc. induction H as [|c s H F IH]; [reflexivity|]. cbn [app vrun]. cbv zeta. unfold cnt1, cnt2. unfold refc in H.
  destruct (Z.eqb_spec c 60); [lia|]. destruct (Z.eqb_spec c 62); [lia|]. destruct (Z.eqb_spec c 91); [lia|]. destruct (Z.eqb_spec c 93); [lia|]. cbn [orb andb].
  destruct (Z.eqb_spec c1 0); [lia|]. rewrite ?andb_false_r. cbn [andb]. exact IH.
Qed.
Lemma dict_run : forall l, Forall lettered l -> complete (B"<<" ++ named l ++ B">>").
Proof.
  intros l H. left. change (B"<<" ++ named l ++ B">>") with (60 :: 60 :: named l ++ B">>"). 
  change (vrun 0 0 (60 :: 60 :: named l ++ B">>")) with (vrun 2 0 (named l ++ B">>")). rewrite (run_refc (named l) 2 0) by (try lia; apply named_refc; exact H). reflexivity.
Qed.
Lemma res_good : forall fl xl, Forall lettered fl -> Forall lettered xl -> Forall ent_ascii (res_ents fl xl) /\ run_ok (res_ents fl xl).
Proof.
  intros fl xl Hf Hx. assert (D : forall k l, Forall lettered l -> forallb (fun c => (65 <=? c) && (c <=? 122) && negb (c =? 91)) k = true -> ent_ascii (mkEnt false k (B"<<" ++ named l ++ B">>"))).
  { intros k l Hl Hk. split; [apply key_lit; exact Hk|]. split; [|intros _; right; exists 60, (60 :: named l ++ B">>"); auto].
    change (B"<<" ++ named l ++ B">>") with (60 :: 60 :: named l ++ [62; 62]). do 2 (constructor; [unfold ascii; lia|]). apply Forall_app. split; [apply refc_ascii, named_refc; exact Hl|].
    repeat (constructor; [unfold ascii; lia|]). constructor. }
  split.
  - constructor; [|constructor; [apply D; [exact Hf|reflexivity]|constructor; [apply D; [exact Hx|reflexivity]|constructor]]].
    split; [apply key_lit; reflexivity|]. split; [|intros _; right; eexists 91, _; split; [reflexivity|auto]].
    apply Forall_forall; intros c Hc; vm_compute in Hc; repeat destruct Hc as [<-|Hc]; try destruct Hc; unfold ascii; lia.
  - apply ro_cons; [left; reflexivity|]. apply ro_cons; [apply dict_run; exact Hf|]. apply ro_cons; [apply dict_run; exact Hx|apply ro_nil].
Qed.

Lemma lines_no : forall pad l, Forall lettered l -> ~ In 115 pad -> ~ In 115 (lines pad l).
Proof.
  intros pad l H Hp. unfold lines. intros O. apply in_flat_map in O. destruct O as (e & He & O). rewrite Forall_forall in H. specialize (H e He).
  rewrite !in_app_iff in O. destruct O as [O|[O|[O|[O|[O|[O|O]]]]]]; try contradiction; try (vm_compute in O; repeat (destruct O as [O|O]; [discriminate O|]); exact O).
  - pose proof (key_refc e H) as K. rewrite Forall_forall in K. apply K in O. lia.
  - pose proof (itoa_chars (snd e)) as K. rewrite Forall_forall in K. apply K in O. unfold num_char in O. lia.
Qed.
Lemma core_no : forall fl xl, Forall lettered fl -> Forall lettered xl -> ~ In 115 (res_core fl xl).
Proof.
  intros fl xl Hf Hx O. unfold res_core in O. rewrite !in_app_iff in O.
  destruct O as [O|[O|[O|[O|[O|[O|[O|[O|[O|[O|O]]]]]]]]]]; try (vm_compute in O; repeat (destruct O as [O|O]; [discriminate O|]); exact O); revert O; apply lines_no; try assumption;
  intros O; vm_compute in O; repeat (destruct O as [O|O]; [discriminate O|]); exact O.
Qed.
Lemma procset_is : forall fs xs l, [10] ++ procset_build fs xs l = [10] ++ B"<<" ++ [10] ++ res_core (font_names fs) (image_names xs l) ++ [10] ++ B">>" ++ [10].
Proof. intros fs xs l. unfold procset_build, res_core. rewrite font_lines, image_lines, <- !app_assoc. reflexivity. Qed.

Definition res_props (fl xl : list (bytes * Z)) : list prop := map ent_prop (res_ents fl xl).
Lemma procset_props : forall fs xs l, readProperties ([10] ++ procset_build fs xs l) = Ok (res_props (font_names fs) (image_names xs l)).
Proof.
  intros fs xs l. rewrite procset_is. pose proof (fonts_lettered fs) as Hf. pose proof (images_lettered xs l) as Hx. destruct (res_good _ _ Hf Hx) as (G1 & G2).
  apply read_around; [reflexivity|reflexivity| | |apply norm_core; assumption|exact G1|exact G2].
  - unfold res_core. change (B"/ProcSet [/PDF /Text /ImageB /ImageC /ImageI]" ++ ?x) with (47 :: B"ProcSet [/PDF /Text /ImageB /ImageC /ImageI]" ++ x).
    change (B">>") with ([62] ++ [62]). rewrite !app_assoc. apply trimmed_ascii; auto; unfold ascii; lia.
  - rewrite !in_app_iff. intros [O|[O|O]]; [|exact (core_no _ _ Hf Hx O)|]; vm_compute in O; repeat (destruct O as [O|O]; [discriminate O|]); exact O.
Qed.

(** The dictionaries in it. *)
Lemma norm_named : forall l, Forall lettered l -> norm (named l) = named l.
Proof.
  intros l H. induction H as [|e l He H IH]; [reflexivity|]. rewrite named_cons. change (B"/" ++ ?x) with (47 :: x). rewrite norm_cons by reflexivity.
  unfold refText. rewrite <- !app_assoc. change (B" " ++ ?x) with (32 :: x). rewrite norm_entry.
  2:{ apply word_nows. eapply Forall_impl; [|apply lettered_word; exact He]. cbv beta. tauto. }
  rewrite norm_ref, IH. reflexivity.
Qed.
Lemma named_trimmed : forall l, Forall lettered l -> trim_space (named l) = named l.
Proof.
  intros l H. destruct l as [|e l _] using rev_ind; [reflexivity|]. apply trim_space_id. unfold named. rewrite map_app. unfold rend. rewrite flat_map_app. cbn [map flat_map]. rewrite app_nil_r.
  unfold rend1 at 2. unfold name_ref at 2 3 4. cbn [efl ekey eval]. unfold refText.
  assert (X : exists u, flat_map rend1 (map name_ref l) ++ [47] ++ fst e ++ [32] ++ itoa (snd e) ++ B" 0 R" = 47 :: u ++ [82]).
  { destruct l as [|d l]; cbn [map flat_map app].
    - exists (fst e ++ [32] ++ itoa (snd e) ++ B" 0 "). rewrite <- !app_assoc. reflexivity.
    - unfold rend1 at 1. unfold name_ref at 1 2 3. cbn [efl ekey eval app]. eexists ((fst d ++ 32 :: refText (snd d)) ++ flat_map rend1 (map name_ref l) ++ [47] ++ fst e ++ [32] ++ itoa (snd e) ++ B" 0 "). rewrite <- !app_assoc. reflexivity. }
  destruct X as (u & ->). apply trimmed_ascii; auto; unfold ascii; lia.
Qed.
Lemma names_props : forall l, Forall lettered l -> readProperties (B"<<" ++ named l ++ B">>") = Ok (props_of_names l).
Proof.
  intros l H. unfold readProperties. rewrite no_stream.
  2:{ rewrite !in_app_iff. intros [O|[O|O]]; [| |]; try (vm_compute in O; repeat (destruct O as [O|O]; [discriminate O|]); exact O). revert O. apply refc_no; [apply named_refc; exact H|lia]. }
  assert (I1 : index (B"<<") (B"<<" ++ named l ++ B">>") = Some 0%nat) by reflexivity. rewrite I1.
  assert (LI : last_index (B">>") (B"<<" ++ named l ++ B">>") = Some (List.length (B"<<" ++ named l))).
  { apply last_index_intro.
    - exists (B"<<" ++ named l), []. rewrite <- !app_assoc, app_nil_r. auto.
    - intros m Hm O. apply occ_len in O. rewrite !app_length in *. change (List.length (B"<<")) with 2%nat in *. change (List.length (B">>")) with 2%nat in *. lia. }
  rewrite LI. cbn [Nat.ltb Nat.leb]. 
  destruct (Nat.ltb_spec (List.length (B"<<" ++ named l)) 0) as [L|L]; [lia|].
  rewrite (slice_app (B"<<") (named l)); [|reflexivity|rewrite <- blen_app; reflexivity]. cbn [bind].
  rewrite named_trimmed, norm_named by exact H. unfold named. rewrite parse_props_flat, flat_rend.
  - cbn [app]. unfold props_of_names. rewrite map_map. reflexivity.
  - left. reflexivity.
  - apply Forall_map. eapply Forall_impl; [|exact H]. intros e He. split; [|split; [apply ref_asc|intros E; discriminate E]]. cbn [name_ref ekey].
    eapply Forall_impl; [|apply key_refc; exact He]. intros c Hc. cbv beta in Hc. unfold key_char, ascii, is_ws4. lia.
  - clear. induction l as [|e l IH]; cbn [map]; constructor; [apply ref_run|exact IH].
Qed.
Lemma dict_type : forall s, propertyType (B"<<" ++ s ++ B">>") = PObject.
Proof.
  intros s. unfold propertyType. rewrite trim_space_id.
  - change (B"<<" ++ s ++ B">>") with (60 :: 60 :: s ++ B">>"). unfold blen. cbn [List.length]. rewrite app_length. change (List.length (B">>")) with 2%nat.
    replace (2 <? Z.of_nat (Datatypes.S (Datatypes.S (List.length s + 2)))) with true by lia. reflexivity.
  - change (B"<<" ++ s ++ B">>") with (60 :: (60 :: s) ++ [62; 62]). change [62; 62] with ([62] ++ [62]). rewrite app_assoc. apply trimmed_ascii; auto; unfold ascii; lia.
Qed.

(** ** What can be written anew *)

Inductive paired : bytes -> Prop :=
| pa_nil : paired []
| pa_other : forall c s, c <> 60 -> c <> 62 -> paired s -> paired (c :: s)
| pa_lt : forall s, paired s -> paired (60 :: 60 :: s)
| pa_gt : forall s, paired s -> paired (62 :: 62 :: s).
Lemma paired_app : forall a c, paired a -> paired c -> paired (a ++ c).
Proof. intros a c Ha Hc. induction Ha; cbn [app]; [exact Hc|apply pa_other; auto|apply pa_lt; auto|apply pa_gt; auto]. Qed.
Lemma paired_plain : forall s, ~ In 60 s -> ~ In 62 s -> paired s.
Proof. induction s as [|c s IH]; intros H1 H2; [constructor|]. cbn [In] in *. apply pa_other; [intuition lia|intuition lia|apply IH; tauto]. Qed.
Lemma paired_lone : forall s, paired s -> no_lone_angle s.
Proof.
  intros s H a w1 x w2 b E W1 W2. revert a E. induction H as [|c s N1 N2 H IH|s H IH|s H IH]; intros a E.
  - destruct a; discriminate E.
  - destruct a as [|d a]; [|assert (E' : s = a ++ w1 :: x :: w2 :: b) by (cbn [app] in E; congruence); exact (IH a E')].
    assert (E' : s = x :: w2 :: b) by (cbn [app] in E; congruence). rewrite E' in H. unfold white in W2. inversion H; subst; split; lia.
  - unfold white in W1. destruct a as [|d [|d' a]]; [assert (w1 = 60) by (cbn [app] in E; congruence); lia|assert (w1 = 60) by (cbn [app] in E; congruence); lia|].
    apply (IH a). cbn [app] in E. congruence.
  - unfold white in W1. destruct a as [|d [|d' a]]; [assert (w1 = 62) by (cbn [app] in E; congruence); lia|assert (w1 = 62) by (cbn [app] in E; congruence); lia|].
    apply (IH a). cbn [app] in E. congruence.
Qed.
Lemma lines_chars : forall pad l, Forall lettered l -> forall c, In c (lines pad l) -> In c pad \/ c = 10 \/ refc c.
Proof.
  intros pad l H c O. unfold lines in O. apply in_flat_map in O. destruct O as (e & He & O). rewrite Forall_forall in H. specialize (H e He).
  rewrite !in_app_iff in O. destruct O as [O|[O|[O|[O|[O|[O|O]]]]]]; [left; exact O| | | | | |]; right.
  - right. cbn in O. destruct O as [<-|[]]. unfold refc. lia.
  - right. pose proof (key_refc e H) as K. rewrite Forall_forall in K. apply K in O. unfold refc. lia.
  - right. cbn in O. destruct O as [<-|[]]. unfold refc. lia.
  - right. pose proof (itoa_chars (snd e)) as K. rewrite Forall_forall in K. apply K in O. unfold num_char, refc in *. lia.
  - right. pose proof (ref_refc 0) as K. rewrite Forall_forall in K. apply K. unfold refText. apply in_app_iff. right. exact O.
  - left. cbn in O. destruct O as [<-|[]]. reflexivity.
Qed.
Lemma lines_paired : forall pad l, Forall lettered l -> pad = [] \/ pad = B"      " -> paired (lines pad l).
Proof.
  intros pad l H Hp. apply paired_plain; intros O; apply lines_chars in O; auto; unfold refc in O; destruct O as [O|O]; try lia; destruct Hp as [-> | ->]; cbn in O; intuition discriminate.
Qed.
Lemma procset_writable : forall fs xs l, rewritable ([10] ++ procset_build fs xs l).
Proof.
  intros fs xs l. rewrite procset_is. pose proof (fonts_lettered fs) as Hf. pose proof (images_lettered xs l) as Hx. unfold res_core. eexists. split; [left; split; [reflexivity|]|split].
  - intros a b E. apply (core_no _ _ Hf Hx). unfold res_core. assert (O : In 115 (a ++ B"stream" ++ b)) by (rewrite !in_app_iff; right; left; vm_compute; auto).
    rewrite <- E in O. rewrite !in_app_iff in O. rewrite !in_app_iff. clear E.
    repeat (destruct O as [O|O]; [try (left; exact O); try (exfalso; vm_compute in O; repeat (destruct O as [O|O]; [discriminate O|]); exact O); tauto|]). exfalso; vm_compute in O; repeat (destruct O as [O|O]; [discriminate O|]); exact O.
  - assert (L : forall s, forallb (fun c => (0 <=? c) && (c <? 128)) s = true -> Forall (fun c => 0 <= c < 128) s) by (intros s H; apply Forall_forall; intros c Hc; rewrite forallb_forall in H; apply H in Hc; lia).
    assert (LL : forall pad l', Forall lettered l' -> pad = [] \/ pad = B"      " -> Forall (fun c => 0 <= c < 128) (lines pad l')).
    { intros pad l' Hl Hp. apply Forall_forall. intros c Hc. apply lines_chars in Hc; auto. unfold refc in Hc. destruct Hc as [Hc|Hc]; [|lia]. destruct Hp as [-> | ->]; cbn in Hc; [contradiction|]. repeat (destruct Hc as [<-|Hc]; [lia|]). destruct Hc. }
    unfold is_ascii. rewrite <- !app_assoc. repeat (apply Forall_app; split); try (apply L; reflexivity); apply LL; auto.
  - apply paired_lone. rewrite <- !app_assoc.
    assert (P : forall s, forallb (fun c => negb (c =? 60) && negb (c =? 62)) s = true -> paired s) by (intros s H; apply paired_plain; intros O; rewrite forallb_forall in H; apply H in O; lia).
    assert (LT : paired (B"<<")) by (apply (pa_lt []); constructor). assert (GT : paired (B">>")) by (apply (pa_gt []); constructor).
    change (B"/Font <<") with (B"/Font " ++ B"<<"). change (B"/XObject <<") with (B"/XObject " ++ B"<<").
    repeat (apply paired_app; [first [exact LT|exact GT|apply P; reflexivity|apply paired_app; [apply P; reflexivity|exact LT]|apply lines_paired; auto]|]). apply P. reflexivity.
Qed.

Lemma dict_seen : forall s, trim_space (B"<<" ++ s ++ B">>") <> [].
Proof.
  intros s. rewrite trim_space_id; [discriminate|]. change (B"<<" ++ s ++ B">>") with (60 :: (60 :: s) ++ [62; 62]). change [62; 62] with ([62] ++ [62]). rewrite app_assoc. apply trimmed_ascii; auto; unfold ascii; lia.
Qed.
Lemma res_seen : forall fl xl, Forall seen_value (res_props fl xl).
Proof. intros fl xl. unfold res_props, res_ents. cbn [map]. constructor; [right; vm_compute; discriminate|]. constructor; [right; apply dict_seen|]. constructor; [right; apply dict_seen|constructor]. Qed.

Lemma balanced_refc : forall s a c t, Forall refc s -> 0 <= a -> 0 <= c -> balanced a c (s ++ t) = balanced a c t.
Proof.
  intros s a c t H Ha Hc. induction H as [|x s H F IH]; [reflexivity|]. cbn [app balanced]. cbv zeta. unfold refc in H.
  destruct (Z.eqb_spec x 60); [lia|]. destruct (Z.eqb_spec x 62); [lia|]. destruct (Z.eqb_spec x 91); [lia|]. destruct (Z.eqb_spec x 93); [lia|].
  replace (0 <=? a) with true by lia. replace (0 <=? c) with true by lia. cbn [andb]. exact IH.
Qed.
Lemma res_balanced : forall fl xl, Forall lettered fl -> Forall lettered xl -> Forall (fun q => balanced 0 0 (pval q) = true) (res_props fl xl).
Proof.
  intros fl xl Hf Hx. assert (D : forall l, Forall lettered l -> balanced 0 0 (B"<<" ++ named l ++ B">>") = true).
  { intros l H. change (balanced 0 0 (B"<<" ++ named l ++ B">>")) with (balanced 2 0 (named l ++ B">>")). rewrite balanced_refc by (try lia; apply named_refc; exact H). reflexivity. }
  unfold res_props, res_ents. cbn [map]. constructor; [reflexivity|]. constructor; [apply D; exact Hf|]. constructor; [apply D; exact Hx|constructor].
Qed.
Lemma lettered_regular : forall e, lettered e -> regular_name (fst e).
Proof.
  intros e H. pose proof (key_refc e H) as K. split; [eapply Forall_impl; [|exact K]; intros c Hc; cbv beta in *; lia|].
  intros a b E. assert (O : In 115 (fst e)) by (rewrite E, !in_app_iff; right; left; vm_compute; auto). rewrite Forall_forall in K. apply K in O. lia.
Qed.
Lemma lettered_pages : forall e a b, lettered e -> fst e <> a ++ B"Pages" ++ b.
Proof.
  intros e a b H E. pose proof (key_refc e H) as K. assert (O : In 115 (fst e)) by (rewrite E, !in_app_iff; right; left; vm_compute; auto 10). rewrite Forall_forall in K. apply K in O. lia.
Qed.
Lemma names_regular : forall l, Forall lettered l -> Forall (fun q => regular_name (pkey q)) (props_of_names l).
Proof. intros l H. unfold props_of_names. apply Forall_map. eapply Forall_impl; [|exact H]. intros e He. apply lettered_regular. exact He. Qed.
Lemma res_mentions : forall fl xl, Forall lettered fl -> Forall lettered xl -> ~ mentions (res_props fl xl) (B"/Pages").
Proof.
  intros fl xl Hf Hx (a & b & E). assert (O : In 115 (text_of (res_props fl xl))) by (rewrite E, !in_app_iff; right; left; vm_compute; auto 10).
  assert (F : Forall (fun c => c <> 115) (text_of (res_props fl xl))).
  { assert (L : forall s, forallb (fun c => negb (c =? 115)) s = true -> Forall (fun c => c <> 115) s) by (intros s H; apply Forall_forall; intros c Hc; rewrite forallb_forall in H; apply H in Hc; lia).
    assert (N : forall l, Forall lettered l -> Forall (fun c => c <> 115) (named l)) by (intros l H; eapply Forall_impl; [|apply named_refc; exact H]; intros c Hc; unfold refc in Hc; lia).
    unfold text_of, res_props, res_ents. cbn [map flat_map ent_prop ekey eval pkey pval].
    repeat (apply Forall_app; split); try (apply L; reflexivity); apply N; assumption. }
  rewrite Forall_forall in F. exact (F _ O eq_refl).
Qed.

(** ** Images *)

Lemma image_names_at : forall xs l e, In e (image_names xs l) -> exists k, (k < List.length xs)%nat /\ fst e = B"I" ++ itoa (l + 1 + Z.of_nat k) /\ nth_error (map (fun x => x + 1) xs) k = Some (snd e).
Proof.
  induction xs as [|x xs IH]; intros l e O; [destruct O|]. destruct O as [<-|O].
  - exists 0%nat. cbn [List.length nth_error map fst snd]. split; [lia|]. split; [|reflexivity]. f_equal. f_equal. lia.
  - destruct (IH _ _ O) as (k & Hk & E1 & E2). exists (Datatypes.S k). cbn [List.length nth_error map]. split; [lia|]. split; [|exact E2]. rewrite E1. f_equal. f_equal. lia.
Qed.
Lemma image_names_last : forall xs l a e, image_names xs l = a ++ [e] -> fst e = B"I" ++ itoa (l + Z.of_nat (List.length xs)).
Proof.
  induction xs as [|x xs IH]; intros l a e E; [destruct a; discriminate E|]. cbn [image_names] in E. destruct a as [|d a].
  - assert (image_names xs (l + 1) = []) by (cbn [app] in E; congruence). destruct xs; [|discriminate]. assert (X : (B"I" ++ itoa (l + 1), x + 1) = e) by (cbn [app] in E; congruence). rewrite <- X. reflexivity.
  - assert (E' : image_names xs (l + 1) = a ++ [e]) by (cbn [app] in E; congruence). rewrite (IH _ _ _ E'). cbn [List.length]. f_equal. f_equal. lia.
Qed.
Lemma images_numbered : forall xs, Z.of_nat (List.length xs) < 2 ^ 62 -> Forall (fun x => 0 <= x < 2 ^ 62) xs -> numbered_images (props_of_names (image_names xs 0)) /\ last_greatest (props_of_names (image_names xs 0)).
Proof.
  intros xs Hl Hx. assert (NUM : forall e, In e (image_names xs 0) -> exists n, image_number (fst e) n /\ n <= Z.of_nat (List.length xs)).
  { intros e O. destruct (image_names_at _ _ _ O) as (k & Hk & E & _). exists (0 + 1 + Z.of_nat k). split; [rewrite E; apply image_check; [lia|reflexivity]|lia]. }
  split.
  - intros q Hq. unfold props_of_names in Hq. apply in_map_iff in Hq. destruct Hq as (e & <- & He). cbn [pkey pval]. split; [|split].
    + apply lettered_regular. pose proof (images_lettered xs 0) as X. rewrite Forall_forall in X. apply X. exact He.
    + destruct (NUM e He) as (n & H & _). eauto.
    + destruct (image_names_at _ _ _ He) as (k & Hk & _ & E). exists (snd e). apply readObjID_ref. apply nth_error_In in E. apply in_map_iff in E. destruct E as (x & <- & Hx').
      rewrite Forall_forall in Hx. specialize (Hx x Hx'). unfold in_int, int64_min, int64_max. lia.
  - intros a q q' m n E Hq' Hm Hn. unfold props_of_names in *. apply in_map_iff in Hq'. destruct Hq' as (e & <- & He). cbn [pkey] in *.
    destruct (NUM e He) as (k & Hk & Lk). assert (m = k) by (eapply number_fun; eauto). subst m.
    apply map_eq_app in E. destruct E as (l1 & l2 & E & _ & E2). destruct l2 as [|d [|? ?]]; try discriminate E2. assert (Eq : mkProp (fst d) (refText (snd d)) = q) by (cbn [map] in E2; congruence). subst q. cbn [pkey] in Hn.
    apply image_names_last in E. assert (X : image_number (fst d) (Z.of_nat (List.length xs))) by (rewrite E; apply image_check; [lia|reflexivity]).
    assert (n = Z.of_nat (List.length xs)) by (eapply number_fun; eauto). lia.
Qed.
