(** Opening a file that was just written: C05. *)
From Coq Require Import String List ZArith Lia Bool.
From Coq.Floats Require Import SpecFloat.
From Verif Require Import Base BaseProofs Output OutputSpec OutputProofs Props PropsFlat PropsWrite PropsNorm PropsRefs PropsSpec PropsFinal PdfData Float64 Parse ParseFind ParseFile ParseTrailer.
Open Scope Z_scope.
Open Scope list_scope.

(** ** One object *)
Lemma fields_word : forall w f cur s, Forall (fun c => ascii c /\ is_space1 c = false) w ->
  fields_aux (List.length w + f) cur (w ++ s) = fields_aux f (rev w ++ cur) s.
Proof.
  induction w as [|c w IH]; intros f cur s H; [reflexivity|]. inversion H as [|? ? [H1 H2] H3]; subst.
  cbn [List.length app Nat.add fields_aux]. rewrite space_len_cons by auto.
  rewrite IH by auto. cbn [rev]. rewrite <- app_assoc. reflexivity.
Qed.

Lemma itoa_digits : forall n, 0 <= n -> forallb is_digit (itoa n) = true.
Proof. intros. rewrite itoa_nonneg by auto. now apply utoa_digits. Qed.

Lemma line_id : forall n, 0 <= n <= int64_max -> objIDFromStartObjLine (itoa n ++ B" 0 obj") = Ok n.
Proof.
  intros n H. unfold objIDFromStartObjLine, fields. rewrite app_length. change (List.length (B" 0 obj")) with 6%nat.
  replace (S (List.length (itoa n) + 6)) with (List.length (itoa n) + 7)%nat by lia.
  rewrite fields_word.
  - assert (Hn : exists c t, rev (itoa n) ++ [] = c :: t).
    { rewrite app_nil_r. destruct (rev (itoa n)) as [|c t] eqn:E; [|eauto].
      apply (f_equal (@rev Z)) in E. rewrite rev_involutive in E. now apply itoa_nonnil in E. }
    destruct Hn as (c & t & E). rewrite E.
    change (fields_aux 7 (c :: t) (B" 0 obj")) with (rev (c :: t) :: [B"0"; B"obj"]).
    cbv iota beta. rewrite <- E, app_nil_r, rev_involutive. rewrite digit_trimmed; [|apply itoa_nonnil|apply itoa_digits; lia].
    apply atoi_itoa. unfold int64_min. lia.
  - apply Forall_forall. intros c Hc. pose proof (itoa_digits n ltac:(lia)) as D. rewrite forallb_forall in D. apply D in Hc.
    unfold is_digit, ascii, is_space1 in *. lia.
Qed.

Lemma startobj_match : forall n w, 0 <= n -> m_startobj (itoa n ++ B" 0 obj" ++ w) = Some (6 + List.length (itoa n))%nat.
Proof.
  intros n w H. unfold m_startobj. cbv zeta.
  assert (R : run_len is_digit (itoa n ++ B" 0 obj" ++ w) = List.length (itoa n)).
  { rewrite run_digits by (apply itoa_digits; auto). change (run_len is_digit (B" 0 obj" ++ w)) with O. lia. }
  rewrite R. rewrite skipn_app, skipn_all, Nat.sub_diag.
  change ([] ++ skipn 0 (B" 0 obj" ++ w)) with (32 :: 48 :: 32 :: B"obj" ++ w). cbv iota beta.
  assert (P : prefixb (B"obj") (B"obj" ++ w) = true) by apply prefixb_app. rewrite P.
  destruct (itoa n) as [|c t] eqn:E; [now apply itoa_nonnil in E|]. reflexivity.
Qed.

Lemma find_start : forall n w, 0 <= n ->
  find_first m_startobj (10 :: itoa n ++ B" 0 obj" ++ w) = Some (1, 7 + List.length (itoa n))%nat.
Proof.
  intros n w H. unfold find_first, find_all.
  assert (E : m_startobj (10 :: itoa n ++ B" 0 obj" ++ w) = None).
  { unfold m_startobj. cbn [run_len]. change (is_digit 10) with false. cbn iota.
    change (skipn 0 (10 :: itoa n ++ B" 0 obj" ++ w)) with (10 :: itoa n ++ B" 0 obj" ++ w).
    destruct (itoa n) as [|c [|d t]]; reflexivity. }
  cbn [find_all_aux]. rewrite E.
  pose proof (startobj_match n w H) as M.
  destruct (itoa n ++ B" 0 obj" ++ w) as [|c t] eqn:El.
  { apply (f_equal (@List.length Z)) in El. rewrite !app_length in El. change (List.length (B" 0 obj")) with 6%nat in El. cbn [List.length] in El. lia. }
  cbn [find_all_aux]. rewrite M. cbn [Nat.add hd_error]. reflexivity.
Qed.

Definition reread (o : obj) : obj := mkObj (oid o) ([10] ++ trim_space (odata o) ++ [10]).

Lemma obj_reread : forall pre o post, 0 <= oid o <= int64_max -> kw_free (B"endobj") o ->
  obj_parse (pre ++ obj_text o ++ post) (blen pre) = Ok (reread o).
Proof.
  intros pre o post Hid Hk. unfold obj_parse.
  assert (F : from (pre ++ obj_text o ++ post) (blen pre) = Ok (obj_text o ++ post)).
  { unfold from. unfold blen. rewrite !app_length.
    replace ((0 <=? Z.of_nat (List.length pre)) && (Z.of_nat (List.length pre) <=? Z.of_nat (List.length pre + (List.length (obj_text o) + List.length post)))) with true by lia.
    rewrite Nat2Z.id, skipn_app, skipn_all, Nat.sub_diag. reflexivity. }
  rewrite F. cbn [bind]. rewrite find_lit by discriminate.
  set (A := [10] ++ itoa (oid o) ++ B" 0 obj" ++ [10] ++ trim_space (odata o)).
  assert (E : obj_text o ++ post = (A ++ [10]) ++ B"endobj" ++ [10] ++ post).
  { unfold obj_text, obj_header, A. rewrite <- !app_assoc. reflexivity. }
  assert (NA : no_occ (B"endobj") (A ++ [10])).
  { unfold A. replace (([10] ++ itoa (oid o) ++ B " 0 obj" ++ [10] ++ trim_space (odata o)) ++ [10])
      with (([] : bytes) ++ 10 :: (itoa (oid o) ++ B" 0 obj") ++ 10 :: trim_space (odata o) ++ 10 :: []) by (rewrite <- !app_assoc; reflexivity).
    assert (N10 : ~ In 10 (B"endobj")) by (intros Hc; cbn in Hc; repeat destruct Hc as [Hc|Hc]; try lia; auto).
    repeat (apply no_occ_sep; [discriminate|exact N10| |]).
    - change (B"endobj") with (101 :: B"ndobj"). apply no_occ_hd. constructor.
    - change (B"endobj") with (101 :: B"ndobj"). apply no_occ_hd. apply Forall_app. split; [apply numch_ne; [lia|apply itoa_numch]|apply lit_without_spec; reflexivity].
    - apply trim_no_occ. exact Hk.
    - change (B"endobj") with (101 :: B"ndobj"). apply no_occ_hd. constructor. }
  assert (IX : index (B"endobj") (obj_text o ++ post) = Some (List.length (A ++ [10]))).
  { rewrite E. rewrite (index_skip (B"endobj") A 10 (B"endobj" ++ [10] ++ post) 0).
    - f_equal. lia.
    - intros Hc; cbn in Hc; repeat destruct Hc as [Hc|Hc]; try lia; auto.
    - discriminate.
    - exact NA.
    - reflexivity. }
  rewrite IX. cbv iota beta.
  assert (FA : firstn (List.length (A ++ [10])) (obj_text o ++ post) = A ++ [10]).
  { rewrite E, firstn_app, firstn_all, Nat.sub_diag. apply app_nil_r. }
  rewrite FA. clear FA IX NA E.
  assert (EA : A ++ [10] = 10 :: itoa (oid o) ++ B" 0 obj" ++ [10] ++ trim_space (odata o) ++ [10]) by (unfold A; rewrite <- !app_assoc; reflexivity).
  rewrite EA. rewrite find_start by lia. unfold sub.
  set (W := [10] ++ trim_space (odata o) ++ [10]).
  assert (E1 : firstn (7 + List.length (itoa (oid o)) - 1) (skipn 1 (10 :: itoa (oid o) ++ B" 0 obj" ++ W)) = itoa (oid o) ++ B" 0 obj").
  { change (skipn 1 (10 :: itoa (oid o) ++ B" 0 obj" ++ W)) with (itoa (oid o) ++ B" 0 obj" ++ W).
    replace (7 + List.length (itoa (oid o)) - 1)%nat with (List.length (itoa (oid o) ++ B" 0 obj")) by (rewrite app_length; change (List.length (B" 0 obj")) with 6%nat; lia).
    rewrite app_assoc, firstn_app, firstn_all, Nat.sub_diag. apply app_nil_r. }
  assert (E2 : skipn (7 + List.length (itoa (oid o))) (10 :: itoa (oid o) ++ B" 0 obj" ++ W) = W).
  { replace (7 + List.length (itoa (oid o)))%nat with (List.length (10 :: itoa (oid o) ++ B" 0 obj")) by (cbn [List.length]; rewrite app_length; change (List.length (B" 0 obj")) with 6%nat; lia).
    rewrite (app_assoc (itoa (oid o))).
    change (10 :: (itoa (oid o) ++ B" 0 obj") ++ W) with ((10 :: itoa (oid o) ++ B" 0 obj") ++ W).
    rewrite skipn_app, skipn_all, Nat.sub_diag. reflexivity. }
  rewrite E1, E2, line_id by lia. reflexivity.
Qed.

(** ** The whole file *)
Definition current (os : list obj) (j : Z) : option obj := find (fun o => oid o =? j) (rev os).

Lemma current_split : forall os j o, current os j = Some o <->
  exists pre post, os = pre ++ o :: post /\ oid o = j /\ Forall (fun o' => oid o' <> j) post.
Proof.
  intros os j o. unfold current. split.
  - intros H. revert H. induction os as [|x os IH] using rev_ind; intros H; [discriminate|].
    rewrite rev_app_distr in H. cbn [rev app find] in H. destruct (Z.eqb_spec (oid x) j) as [E|E].
    + injection H as <-. exists os, []. auto.
    + destruct (IH H) as (pre & post & -> & Ho & Hp). exists pre, (post ++ [x]). rewrite <- app_assoc. repeat split; auto.
      apply Forall_app. auto.
  - intros (pre & post & -> & Ho & Hp). rewrite rev_app_distr. cbn [rev]. rewrite <- app_assoc.
    assert (G : forall l s, Forall (fun o' => oid o' <> j) l -> find (fun o => oid o =? j) (l ++ s) = find (fun o => oid o =? j) s).
    { induction l as [|y l IHl]; intros s F; [reflexivity|]. inversion F; subst. cbn [app find]. destruct (Z.eqb_spec (oid y) (oid o)); [congruence|auto]. }
    rewrite G by (apply Forall_rev; auto). cbn [app find]. subst j. rewrite Z.eqb_refl. reflexivity.
Qed.

Lemma current_none : forall os j, current os j = None <-> ~ In j (map oid os).
Proof.
  intros os j. unfold current. split.
  - intros H Hin. apply in_map_iff in Hin. destruct Hin as (o & <- & Ho).
    apply in_rev in Ho. apply (find_none _ _ H) in Ho. lia.
  - intros H. destruct (find _ (rev os)) as [o|] eqn:E; auto. apply find_some in E. destruct E as [E1 E2]. exfalso. apply H.
    apply in_map_iff. exists o. split; [lia|]. now apply in_rev.
Qed.

(** What reading finds: one object for each number in use, in numerical order. *)
Definition listing (os : list obj) (last : Z) : list obj :=
  flat_map (fun k => match current os (Z.of_nat k) with Some o => [reread o] | None => [] end) (seq 1 (Z.to_nat last)).

Section File.
Variables (os : list obj) (last rt : Z) (enc : option Z).
Hypothesis Hlast : 0 <= last.
Hypothesis Hroot : 0 <= rt <= int64_max.
Hypothesis Henc : match enc with Some e => 0 <= e | None => True end.
Let F := write_file os last rt enc.
Hypothesis Hlen : blen F < 10 ^ 10.
Hypothesis Hx : Forall (kw_free (B"xref")) os.
Hypothesis Ht : Forall (kw_free (B"trailer")) os.
Hypothesis He : Forall (kw_free (B"endobj")) os.

Let bd := pdf_header ++ concat (map obj_text os).
Let ll := snd (write_objs os pdf_header []).
Let rows := xref_rows ll last.
Let m := Z.to_nat last.

Lemma F_parts : F = bd ++ xref_head last ++ concat (map row_text rows) ++ trailer_text last rt enc (blen bd).
Proof. exact (F_eq os last rt enc). Qed.

Lemma rows_good : Forall good_row rows.
Proof.
  unfold rows. rewrite (xref_rows_spec ll last Hlast). apply Forall_forall. intros r Hr. apply in_map_iff in Hr.
  destruct Hr as (k & <- & Hk). apply in_seq in Hk. unfold row_spec.
  destruct (is_free ll k) eqn:E.
  - split; [|left; auto]. cbn [xr_off]. pose proof (m_range os last rt enc Hlast Hlen) as M.
    assert (G : forall js, (forall j, In j js -> (j <= Z.to_nat last)%nat) -> 0 <= next_free ll js < 10 ^ 10).
    { induction js as [|j js IH]; intros Hj; cbn [next_free]; [lia|].
      destruct (map_get ll (Z.of_nat j)); [apply IH; intros; apply Hj; right; auto|].
      specialize (Hj j (or_introl eq_refl)). lia. }
    apply G. intros j Hj. apply in_seq in Hj. lia.
  - unfold is_free in E. apply orb_false_iff in E. destruct E as [_ E].
    destruct (map_get ll (Z.of_nat k)) as [off|] eqn:G; [|discriminate].
    split; [|right; auto]. cbn [xr_off]. exact (ll_range os last rt enc Hlen _ _ G).
Qed.

Lemma xref_at : find_first (m_lit (B"xref")) F = Some ((List.length bd + 1)%nat, (List.length bd + 5)%nat).
Proof.
  rewrite find_lit by discriminate. rewrite F_parts. destruct (body_ends os) as [a Ea]. fold bd in Ea.
  assert (N10 : ~ In 10 (B"xref")) by (intros Hc; cbn in Hc; repeat destruct Hc as [Hc|Hc]; try lia; auto).
  assert (NB : no_occ (B"xref") bd) by (apply (body_no 120 (B"ref")); auto; lia).
  rewrite Ea in NB |- *.
  rewrite (index_skip (B"xref") a 10 _ 1); auto; try discriminate; try reflexivity.
  change (List.length (B"xref")) with 4%nat. f_equal. f_equal. lia.
Qed.

Lemma trailer_quiet : quiet m_xrefline (trailer_text last rt enc (blen bd)) [].
Proof.
  assert (D : forall n, 0 <= n -> forallb is_digit (itoa n) = true) by (intros; apply itoa_digits; auto).
  assert (R : forall s, quiet m_xrefline (B" 0 R") (10 :: s)).
  { intros s. change (B" 0 R") with ([32] ++ [48] ++ B" R"). apply quiet_app; [apply quiet_text; reflexivity|].
    apply quiet_app; [|apply quiet_text; reflexivity]. split; [reflexivity|exact I]. }
  assert (Nn : forall n s, 0 <= n -> quiet m_xrefline (itoa n) (10 :: s)) by (intros; apply quiet_num; auto).
  unfold trailer_text.
  apply quiet_app; [apply quiet_text; reflexivity|]. apply quiet_app; [apply quiet_text; reflexivity|].
  apply quiet_app; [apply quiet_text; reflexivity|]. apply quiet_app; [apply quiet_text; reflexivity|].
  apply quiet_app; [apply quiet_text; reflexivity|].
  apply quiet_app; [apply Nn; lia|].
  apply quiet_app; [apply quiet_text; reflexivity|]. apply quiet_app; [apply quiet_text; reflexivity|].
  apply quiet_app; [rewrite <- (app_assoc (B" 0 R")); apply quiet_ref; apply D; lia|].
  apply quiet_app; [apply R|].
  apply quiet_app; [apply quiet_text; reflexivity|].
  apply quiet_app.
  { destruct enc as [e|]; [|exact I].
    apply quiet_app; [apply quiet_text; reflexivity|].
    apply quiet_app; [rewrite <- (app_assoc (B" 0 R")); apply quiet_ref; apply D; auto|].
    apply quiet_app; [apply R|].
    apply quiet_text; reflexivity. }
  apply quiet_app; [apply quiet_text; reflexivity|]. apply quiet_app; [apply quiet_text; reflexivity|].
  apply quiet_app; [apply quiet_text; reflexivity|]. apply quiet_app; [apply quiet_text; reflexivity|].
  apply quiet_app; [apply Nn; apply blen_nonneg|].
  apply quiet_text; reflexivity.
Qed.

Lemma parseXref_file : parseXref F [] = (map (fun r => (xr_off r, xr_flag r)) rows, Ok tt).
Proof.
  unfold parseXref. rewrite xref_at. unfold find_all.
  set (hd := B"xref" ++ [10] ++ B"0 " ++ itoa (last + 1) ++ [13; 10]).
  set (tl := concat (map row_text rows) ++ trailer_text last rt enc (blen bd)).
  assert (E : F = (bd ++ [10]) ++ hd ++ tl).
  { rewrite F_parts. unfold xref_head, hd, tl. rewrite <- !app_assoc. reflexivity. }
  rewrite E. change (hd ++ tl) with (120 :: (B"ref" ++ [10] ++ B"0 " ++ itoa (last + 1) ++ [13; 10]) ++ tl).
  rewrite rows_after by (rewrite ?app_length; cbn [List.length]; lia).
  change (120 :: (B"ref" ++ [10] ++ B"0 " ++ itoa (last + 1) ++ [13; 10]) ++ tl) with (hd ++ tl).
  rewrite quiet_skip.
  2:{ unfold hd. apply quiet_app; [apply quiet_text; reflexivity|]. apply quiet_app; [apply quiet_text; reflexivity|].
      apply quiet_app.
      { change (B"0 ") with ([48] ++ [32]). apply quiet_app; [|apply quiet_text; reflexivity].
        split; [|exact I]. unfold m_xrefline. change (run_len is_digit ([48] ++ [32] ++ (itoa (last + 1) ++ [13; 10]) ++ tl)) with 1%nat. reflexivity. }
      apply quiet_app; [|apply quiet_text; reflexivity].
      apply quiet_num; auto. apply itoa_digits. lia. }
  unfold tl at 2. rewrite find_rows.
  2:{ apply Forall_map. eapply Forall_impl; [|apply rows_good]. intros; now apply good_is_row. }
  rewrite map_length.
  replace (0 + List.length (bd ++ [10%Z]) + List.length hd)%nat with (List.length ((bd ++ [10]) ++ hd)) by (rewrite !app_length; lia).
  rewrite (rows_parse rows _ _ ((bd ++ [10]) ++ hd) (trailer_text last rt enc (blen bd))).
  - rewrite <- (app_nil_r (trailer_text last rt enc (blen bd))).
    rewrite quiet_skip by apply trailer_quiet. reflexivity.
  - unfold tl. now rewrite <- !app_assoc.
  - apply rows_good.
  - rewrite !app_length. unfold hd. rewrite !app_length. change (List.length (B"xref")) with 4%nat. cbn [List.length]. lia.
Qed.

(** The catalog. *)
Lemma rows_chars : forall x, 57 < x -> x <> 102 -> x <> 110 -> Forall (fun c => c <> x) (concat (map row_text rows)).
Proof.
  intros x Hc H1 H2. apply Forall_concat, Forall_map. eapply Forall_impl; [|apply rows_good].
  intros r [G1 G2]. unfold row_text.
  destruct (format_digits _ G1) as [D _].
  assert (Forall (fun c => c <> x) (formatXrefline (xr_off r))).
  { apply Forall_forall. intros c Hcin. rewrite forallb_forall in D. apply D in Hcin. unfold is_digit in Hcin. lia. }
  apply Forall_app. split; auto.
  destruct G2 as [[-> ->]|[-> ->]]; apply lit_without_spec;
  [change ([32] ++ B"65535" ++ [32] ++ B"f" ++ [32; 10]) with [32; 54; 53; 53; 51; 53; 32; 102; 32; 10]
  |change ([32] ++ B"00000" ++ [32] ++ B"n" ++ [32; 10]) with [32; 48; 48; 48; 48; 48; 32; 110; 32; 10]]; unfold lit_without; cbn [forallb]; lia.
Qed.

Lemma head_chars : forall x, 57 < x -> lit_without x (B"xref") = true -> Forall (fun c => c <> x) (xref_head last).
Proof.
  intros x Hc H. unfold xref_head.
  apply Forall_app. split; [constructor; [lia|constructor]|]. apply Forall_app. split; [now apply lit_without_spec|].
  apply Forall_app. split; [constructor; [lia|constructor]|]. apply Forall_app. split.
  - change (B"0 ") with [48; 32]. constructor; [lia|]. constructor; [lia|constructor].
  - apply Forall_app. split; [apply numch_ne; [lia|apply itoa_numch]|]. constructor; [lia|]. constructor; [lia|constructor].
Qed.

Lemma trailer_eq : exists rest, trailer_text last rt enc (blen bd) = B"trailer" ++ trailer_dict last rt enc ++ B"startxref" ++ rest.
Proof.
  exists ([10] ++ itoa (blen bd) ++ [10] ++ B"%%EOF" ++ [10]). unfold trailer_text, trailer_dict, words.
  destruct enc; rewrite <- !app_assoc; reflexivity.
Qed.

Lemma parseTrailer_file : parseTrailer F = Ok rt.
Proof.
  unfold parseTrailer. rewrite !find_lit by discriminate.
  destruct trailer_eq as [rest Er].
  set (A := bd ++ xref_head last ++ concat (map row_text rows)).
  assert (E : F = A ++ B"trailer" ++ trailer_dict last rt enc ++ B"startxref" ++ rest).
  { rewrite F_parts, Er. unfold A. rewrite <- !app_assoc. reflexivity. }
  destruct (body_ends os) as [a Ea]. fold bd in Ea.
  assert (I1 : index (B"trailer") F = Some (List.length A)).
  { rewrite E. unfold A. rewrite <- app_assoc. rewrite Ea.
    assert (N10 : ~ In 10 (B"trailer")) by (intros Hc; cbn in Hc; repeat destruct Hc as [Hc|Hc]; try lia; auto).
    assert (NB : no_occ (B"trailer") bd) by (apply (body_no 116 (B"railer")); auto; lia).
    rewrite Ea in NB.
    rewrite (index_skip (B"trailer") a 10 _ (List.length (xref_head last ++ concat (map row_text rows)))); auto; try discriminate.
    - rewrite !app_length. f_equal.
    - rewrite (index_hd 116 (B"railer") (xref_head last ++ concat (map row_text rows)) _ 0).
      + f_equal. lia.
      + apply Forall_app. split; [apply head_chars; [lia|reflexivity]|apply rows_chars; lia].
      + reflexivity. }
  rewrite I1.
  set (C := B"trailer" ++ trailer_dict last rt enc).
  assert (I2 : index (B"startxref") F = Some (List.length (A ++ C))).
  { rewrite E. unfold A. rewrite <- !app_assoc. rewrite Ea.
    assert (N10 : ~ In 10 (B"startxref")) by (intros Hc; cbn in Hc; repeat destruct Hc as [Hc|Hc]; try lia; auto).
    assert (NB : no_occ (B"startxref") bd).
    { apply (body_no 115 (B"tartxref")); auto; try lia. eapply Forall_impl; [|exact Hx].
      intros o Ho n (u & v & E1 & L). apply (Ho (List.length (u ++ B"start"))). exists (u ++ B"start"), v. split; auto.
      rewrite E1, <- app_assoc. reflexivity. }
    rewrite Ea in NB.
    rewrite (index_skip (B"startxref") a 10 _ (List.length (xref_head last ++ concat (map row_text rows) ++ C))); auto; try discriminate.
    - rewrite !app_length. f_equal.
    - rewrite !app_assoc. rewrite <- app_assoc.
      rewrite (index_hd 115 (B"tartxref") (((xref_head last ++ concat (map row_text rows)) ++ B"trailer") ++ trailer_dict last rt enc) _ 0).
      + f_equal. unfold C. rewrite !app_length. lia.
      + apply Forall_app. split; [apply Forall_app; split; [apply Forall_app; split|]|].
        * apply head_chars; [lia|reflexivity].
        * apply rows_chars; lia.
        * apply lit_without_spec; reflexivity.
        * unfold trailer_dict.
          apply Forall_app. split; [apply lit_without_spec; reflexivity|]. apply Forall_app. split; [apply lit_without_spec; reflexivity|].
          apply Forall_app. split; [apply lit_without_spec; reflexivity|]. apply Forall_app. split; [apply words_no; [lia|reflexivity]|].
          apply lit_without_spec; reflexivity.
      + reflexivity. }
  rewrite I2.
  assert (SL : slice F (Z.of_nat (List.length A + List.length (B"trailer"))) (Z.of_nat (List.length (A ++ C))) = Ok (trailer_dict last rt enc)).
  { rewrite E. rewrite app_assoc. apply slice_app.
    - unfold blen. now rewrite app_length.
    - unfold blen, C. rewrite !app_length. lia. }
  rewrite SL. cbn [bind]. rewrite trailer_read. cbn [bind]. rewrite trailer_root. cbn [pval].
  apply ref_roundtrip. unfold is_int. unfold int64_max in *. lia.
Qed.

Lemma objs_reread : forall k p, (k <= m)%nat ->
  parseObjs F (map (fun r => (xr_off r, xr_flag r)) (map (row_spec ll m) (seq (S m - k) k))) p =
  (mkPdf (root p) (objs p ++ flat_map (fun k => match current os (Z.of_nat k) with Some o => [reread o] | None => [] end) (seq (S m - k) k)), Ok tt).
Proof.
  induction k as [|k IH]; intros p Hk.
  - cbn [seq map flat_map parseObjs]. rewrite app_nil_r. destruct p; reflexivity.
  - replace (S m - S k)%nat with (m - k)%nat by lia. cbn [seq map flat_map parseObjs].
    replace (S (m - k)) with (S m - k)%nat by lia.
    set (j := (m - k)%nat) in *. assert (Hj : (1 <= j <= m)%nat) by lia.
    assert (RS : row_spec ll m j = match map_get ll (Z.of_nat j) with
                                   | Some off => mkRow off (B"00000") (B"n")
                                   | None => mkRow (next_free ll (seq (S j) (m - j))) (B"65535") (B"f") end).
    { unfold row_spec, is_free. replace (j =? 0)%nat with false by (symmetry; apply Nat.eqb_neq; lia).
      cbn [orb]. destruct (map_get ll (Z.of_nat j)); reflexivity. }
    rewrite RS.
    destruct (map_get ll (Z.of_nat j)) as [off|] eqn:G.
    + cbn [xr_off xr_flag]. change (beqb (B"n") (B"n")) with true. cbv iota.
      pose proof G as G0. apply (ll_get os) in G0. destruct G0 as (pre & o & post & Eo & Eid & Hp & Eoff).
      assert (C : current os (Z.of_nat j) = Some o) by (apply current_split; eauto).
      rewrite C.
      assert (OP : obj_parse F off = Ok (reread o)).
      { rewrite F_parts. unfold bd. rewrite Eo, map_app, concat_app. cbn [map concat]. subst off.
        rewrite <- !app_assoc. rewrite (app_assoc pdf_header). apply obj_reread.
        - pose proof (m_range os last rt enc Hlast Hlen) as M. fold m in M. unfold int64_max. lia.
        - rewrite Forall_forall in He. apply He. rewrite Eo. apply in_app_iff. right; left; auto. }
      rewrite OP. rewrite IH by lia. unfold put. cbn [root objs]. rewrite <- app_assoc. reflexivity.
    + cbn [xr_off xr_flag]. change (beqb (B"f") (B"n")) with false. cbv iota.
      apply (ll_none os) in G. apply current_none in G. rewrite G. cbn [app]. apply IH. lia.
Qed.

Lemma parseObjs_file : forall p, objs p = [] -> parseObjs F (map (fun r => (xr_off r, xr_flag r)) rows) p =
  (mkPdf (root p) (listing os last), Ok tt).
Proof.
  intros p Hp. unfold rows. rewrite (xref_rows_spec ll last Hlast). fold m.
  change (seq 0 (S m)) with (0%nat :: seq 1 m). cbn [map parseObjs].
  unfold row_spec at 1 2. unfold is_free at 1 2. cbn [Nat.eqb orb xr_off xr_flag].
  change (beqb (B"f") (B"n")) with false. cbv iota.
  pose proof (objs_reread m p (Nat.le_refl m)) as H.
  replace (S m - m)%nat with 1%nat in H by lia. rewrite H, Hp. reflexivity.
Qed.

End File.
