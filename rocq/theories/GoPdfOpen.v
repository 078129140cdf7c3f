(** Opening a document of the writer GoPdf with pdft: C84. *)
From Coq Require Import String List ZArith Lia Bool.
From Coq.Floats Require Import SpecFloat.
From Verif Require Import Base BaseProofs Output OutputSpec OutputProofs Props PropsFlat PropsWrite PropsNorm PropsRefs PropsSpec PropsFinal PdfData Float64 Parse ParseFind ParseFile ParseTrailer ParseProofs ParseSpec PdfSyntax PdfSyntaxProofs GoPdf GoPdfSpec GoPdfFile GoPdfOpenSpec GoPdfOpenInfo.
Open Scope Z_scope.
Open Scope list_scope.

(** ** Words across a border *)

(** One of two texts starts with the other. *)
Fixpoint meets (a b : bytes) : bool :=
  match a, b with x :: a, y :: b => (x =? y) && meets a b | _, _ => true end.
(** No proper end of [p] can be the start of a text that starts with [s]. *)
Definition no_bridge (p s : bytes) : bool := forallb (fun k => negb (meets (skipn k p) s)) (seq 1 (List.length p - 1)).

Lemma meets_app : forall a b x y, a ++ x = b ++ y -> meets a b = true.
Proof.
  induction a as [|c a IH]; intros [|d b] x y E; try reflexivity. cbn [app] in E. injection E as -> E. cbn [meets]. rewrite Z.eqb_refl. eapply IH. exact E.
Qed.

Lemma bridge : forall p a s r k, no_bridge p s = true -> (k < List.length a)%nat -> occ p (a ++ s ++ r) k -> occ p a k.
Proof.
  intros p a s r k H Hk (u & v & E & L).
  destruct (Nat.le_gt_cases (List.length (u ++ p)) (List.length a)) as [Le|Gt].
  - assert (X : a = (u ++ p) ++ skipn (List.length (u ++ p)) a).
    { rewrite <- (firstn_skipn (List.length (u ++ p)) a) at 1. f_equal.
      apply (f_equal (firstn (List.length (u ++ p)))) in E. rewrite firstn_app in E.
      replace (List.length (u ++ p) - List.length a)%nat with 0%nat in E by lia. cbn [firstn] in E. rewrite app_nil_r in E.
      rewrite app_assoc, firstn_app, firstn_all, Nat.sub_diag in E. cbn [firstn] in E. rewrite app_nil_r in E. exact E. }
    exists u, (skipn (List.length (u ++ p)) a). split; [rewrite app_assoc; exact X|exact L].
  - exfalso. rewrite app_length in Gt. set (j := (List.length a - List.length u)%nat).
    assert (Ea : a = u ++ firstn j p).
    { apply (f_equal (firstn (List.length a))) in E. rewrite firstn_app, firstn_all, Nat.sub_diag in E. cbn [firstn] in E. rewrite app_nil_r in E.
      rewrite E at 1. rewrite firstn_app. rewrite (firstn_all2 u) by lia. f_equal. fold j. rewrite firstn_app.
      replace (j - List.length p)%nat with 0%nat by (unfold j; lia). cbn [firstn]. apply app_nil_r. }
    rewrite <- (firstn_skipn j p) in E. rewrite <- !app_assoc in E. rewrite app_assoc in E. rewrite Ea in E at 1. rewrite (app_assoc u) in E.
    rewrite <- !app_assoc in E. apply app_inv_head in E. apply app_inv_head in E. symmetry in E. apply meets_app in E.
    unfold no_bridge in H. rewrite forallb_forall in H. specialize (H j). rewrite E in H. discriminate H. apply in_seq. unfold j. lia.
Qed.

Lemma no_occ_bridge : forall p a s r, no_bridge p s = true -> no_occ p a -> no_occ p (s ++ r) -> no_occ p (a ++ s ++ r).
Proof.
  intros p a s r H Ha Hs k O. destruct (Nat.lt_ge_cases k (List.length a)) as [Lt|Ge].
  - apply (Ha k). eapply bridge; eauto.
  - replace k with (List.length a + (k - List.length a))%nat in O by lia. apply (proj1 (occ_skip p a (s ++ r) _)) in O. exact (Hs _ O).
Qed.

Lemma index_bridge : forall p a s r n, p <> [] -> no_bridge p s = true -> no_occ p a -> index p (s ++ r) = Some n -> index p (a ++ s ++ r) = Some (List.length a + n)%nat.
Proof. intros p a s r n Hp H Ha Hi. apply index_after; auto. intros k Hk O. eapply bridge; eauto. Qed.

Lemma free_no_occ : forall p s, free_of p s -> no_occ p s.
Proof. intros p s H n (a & b & E & _). exact (H _ _ E). Qed.

(** ** One object *)

Lemma find_start0 : forall n w, 0 <= n -> find_first m_startobj (itoa n ++ B" 0 obj" ++ w) = Some (0, 6 + List.length (itoa n))%nat.
Proof.
  intros n w H. unfold find_first, find_all. pose proof (startobj_match n w H) as M.
  destruct (itoa n ++ B" 0 obj" ++ w) as [|c t] eqn:El.
  { apply (f_equal (@List.length Z)) in El. rewrite !app_length in El. change (List.length (B" 0 obj")) with 6%nat in El. cbn [List.length] in El. lia. }
  cbn [find_all_aux]. rewrite M. cbn [Nat.add hd_error]. reflexivity.
Qed.

Lemma itoa_no : forall x p n, 57 < x -> no_occ (x :: p) (itoa n).
Proof. intros x p n H. apply no_occ_hd, numch_ne; [lia|apply itoa_numch]. Qed.

Lemma head_no : forall n, no_occ (B"endobj") (itoa n ++ B" 0 obj" ++ [10]).
Proof.
  intros n. change (B"endobj") with (101 :: B"ndobj"). apply no_occ_hd.
  apply Forall_app. split; [apply numch_ne; [lia|apply itoa_numch]|apply lit_without_spec; reflexivity].
Qed.

Lemma body_no_end : forall n s, no_occ (B"endobj") s -> no_occ (B"endobj") ((itoa n ++ B" 0 obj" ++ [10]) ++ s).
Proof.
  intros n s H. replace ((itoa n ++ B" 0 obj" ++ [10]) ++ s) with ((itoa n ++ B" 0 obj") ++ [10] ++ s) by (rewrite <- !app_assoc; reflexivity).
  apply no_occ_bridge; [reflexivity| |].
  - change (B"endobj") with (101 :: B"ndobj"). apply no_occ_hd. apply Forall_app. split; [apply numch_ne; [lia|apply itoa_numch]|apply lit_without_spec; reflexivity].
  - intros k O. destruct k as [|k]; [apply occ_0 in O; discriminate O|]. apply (occ_cons (B"endobj") 10 s k) in O. exact (H _ O).
Qed.

Lemma obj_at : forall pre id b post, 0 <= id <= int64_max -> no_occ (B"endobj") b ->
  obj_parse (pre ++ wrapped id b ++ post) (blen pre) = Ok (mkObj id ([10] ++ b)).
Proof.
  intros pre id b post Hid Hb. unfold obj_parse.
  assert (F : from (pre ++ wrapped id b ++ post) (blen pre) = Ok (wrapped id b ++ post)).
  { unfold from, blen. rewrite !app_length.
    replace ((0 <=? Z.of_nat (List.length pre)) && (Z.of_nat (List.length pre) <=? Z.of_nat (List.length pre + (List.length (wrapped id b) + List.length post)))) with true by lia.
    rewrite Nat2Z.id, skipn_app, skipn_all, Nat.sub_diag. reflexivity. }
  rewrite F. cbn [bind]. rewrite find_lit by discriminate.
  set (A := (itoa id ++ B" 0 obj" ++ [10]) ++ b).
  assert (E : wrapped id b ++ post = A ++ B"endobj" ++ ([10; 10] ++ post)) by (unfold wrapped, A; rewrite <- !app_assoc; reflexivity).
  assert (IX : index (B"endobj") (wrapped id b ++ post) = Some (List.length A)).
  { rewrite E. rewrite (index_bridge (B"endobj") A (B"endobj") _ 0); [f_equal; lia|discriminate|reflexivity|apply body_no_end; exact Hb|].
    apply index_intro; [apply occ_0, prefixb_app|lia]. }
  rewrite IX. cbv iota beta.
  assert (FA : firstn (List.length A) (wrapped id b ++ post) = A) by (rewrite E, firstn_app, firstn_all, Nat.sub_diag; apply app_nil_r).
  rewrite FA. clear FA IX E F.
  assert (EA : A = itoa id ++ B" 0 obj" ++ [10] ++ b) by (unfold A; rewrite <- !app_assoc; reflexivity).
  rewrite EA. rewrite find_start0 by lia. unfold sub.
  set (W := [10] ++ b).
  assert (L : List.length (itoa id ++ B" 0 obj") = (6 + List.length (itoa id))%nat) by (rewrite app_length; change (List.length (B" 0 obj")) with 6%nat; lia).
  assert (E1 : firstn (6 + List.length (itoa id) - 0) (skipn 0 (itoa id ++ B" 0 obj" ++ W)) = itoa id ++ B" 0 obj").
  { rewrite Nat.sub_0_r, <- L. change (skipn 0 ?x) with x. rewrite app_assoc, firstn_app, firstn_all, Nat.sub_diag. apply app_nil_r. }
  assert (E2 : skipn (6 + List.length (itoa id)) (itoa id ++ B" 0 obj" ++ W) = W).
  { rewrite <- L, app_assoc, skipn_app, skipn_all, Nat.sub_diag. reflexivity. }
  rewrite E1, E2, line_id by lia. reflexivity.
Qed.

(** ** The file *)

Section File.
Variables (bs : list bytes) (enc : option Z) (info : option ginfo).
Let F := file bs enc info.
Let n := Z.of_nat (List.length bs).
Let body := pdf_header ++ texts 1 bs.
Let offs := offsets 1 (blen pdf_header) bs.
Let head := B"xref" ++ [10] ++ B"0 " ++ itoa (n + 1) ++ [10].
Let rows := mkRow 0 (B"65535") (B"f") :: map (fun o => mkRow o (B"00000") (B"n")) offs.
Let tl := [10] ++ itoa (blen body) ++ [10] ++ B"%%EOF" ++ [10].
Hypothesis small : blen F < 10 ^ 10.
Hypothesis Henc : match enc with Some e => 0 <= e | None => True end.
Hypothesis Hinfo : real info.
Hypothesis He : Forall (no_occ (B"endobj")) bs.
Hypothesis Hx : Forall (no_occ (B"xref")) bs.
Hypothesis Ht : Forall (no_occ (B"trailer")) bs.

Lemma parts : F = body ++ head ++ concat (map row_text rows) ++ B"trailer" ++ full_dict n enc info ++ B"startxref" ++ tl.
Proof.
  unfold F. rewrite file_parts. fold n body offs head. unfold GoPdfFile.trailer_dict, full_dict, itext, words, rows, tl. cbn [map concat].
  replace (concat (map row_text (map (fun o => mkRow o (B"00000") (B"n")) offs))) with (flat_map row_of offs).
  2:{ induction offs as [|o l IH]; [reflexivity|]. cbn [map concat flat_map]. rewrite IH. unfold row_of, row_text. cbn [xr_off xr_gen xr_flag]. rewrite <- !app_assoc. reflexivity. }
  change (row_text (mkRow 0 (B"65535") (B"f"))) with (B"0000000000 65535 f " ++ [10]). destruct enc; rewrite <- !app_assoc; reflexivity.
Qed.

Lemma good_rows : Forall good_row rows.
Proof.
  unfold rows. constructor; [split; [cbn [xr_off]; lia|left; auto]|]. apply Forall_map. pose proof (offs_range bs enc info small) as R. fold offs in R.
  eapply Forall_impl; [|exact R]. intros o H. cbv beta in H. split; [exact H|right; auto].
Qed.

(** A word that starts with a letter, in texts. *)
Lemma texts_no : forall x p l id, 57 < x -> no_bridge (x :: p) (B"endobj" ++ [10; 10]) = true -> no_bridge (x :: p) (B" 0 obj" ++ [10]) = true ->
  no_occ (x :: p) (B"endobj" ++ [10; 10]) -> no_occ (x :: p) (B" 0 obj" ++ [10]) -> ~ In 10 p -> x <> 10 ->
  Forall (no_occ (x :: p)) l -> no_occ (x :: p) (texts id l).
Proof.
  intros x p l id Hx0 B1 B2 N1 N2 P10 X10 H. revert id. induction H as [|b l Hb _ IH]; intros id; cbn [texts].
  - apply no_occ_hd. constructor.
  - assert (N10 : ~ In 10 (x :: p)) by (intros [?|?]; [congruence|auto]).
    assert (Sep : forall a s, no_occ (x :: p) (a ++ [10]) -> no_occ (x :: p) s -> no_occ (x :: p) ((a ++ [10]) ++ s)).
    { intros a s Ha Hs k Oc. destruct (Nat.lt_ge_cases k (List.length (a ++ [10]))) as [Lt|Ge].
      - apply (Ha k). eapply occ_no_straddle; eauto.
      - replace k with (List.length (a ++ [10%Z]) + (k - List.length (a ++ [10%Z])))%nat in Oc by lia.
        apply (proj1 (occ_skip (x :: p) (a ++ [10]) s _)) in Oc. exact (Hs _ Oc). }
    unfold wrapped.
    replace ((itoa id ++ B" 0 obj" ++ [10] ++ b ++ B"endobj" ++ [10; 10]) ++ texts (id + 1) l)
      with (((itoa id ++ B" 0 obj") ++ [10]) ++ ((b ++ B"endobj" ++ [10]) ++ [10]) ++ texts (id + 1) l) by (rewrite <- !app_assoc; reflexivity).
    apply Sep; [|apply Sep; [|apply IH]].
    + rewrite <- app_assoc. rewrite <- (app_nil_r (B" 0 obj" ++ [10])). apply no_occ_bridge; [exact B2|apply itoa_no; exact Hx0|rewrite app_nil_r; exact N2].
    + replace ((b ++ B"endobj" ++ [10]) ++ [10]) with (b ++ (B"endobj" ++ [10; 10]) ++ []) by (rewrite app_nil_r, <- !app_assoc; reflexivity).
      apply no_occ_bridge; [exact B1|exact Hb|rewrite app_nil_r; exact N1].
Qed.

Lemma no_occ_compute : forall p s, contains p s = false -> no_occ p s.
Proof. intros p s H. apply contains_false. exact H. Qed.

Lemma body_no_word : forall x p, 57 < x -> no_bridge (x :: p) (B"endobj" ++ [10; 10]) = true -> no_bridge (x :: p) (B" 0 obj" ++ [10]) = true ->
  contains (x :: p) (B"endobj" ++ [10; 10]) = false -> contains (x :: p) (B" 0 obj" ++ [10]) = false -> ~ In 10 p -> x <> 10 ->
  contains (x :: p) pdf_header = false -> Forall (no_occ (x :: p)) bs -> no_occ (x :: p) body.
Proof.
  intros x p Hx0 B1 B2 N1 N2 P10 X10 Hh H. unfold body.
  assert (N10 : ~ In 10 (x :: p)) by (intros [?|?]; [congruence|auto]).
  assert (exists a, pdf_header = a ++ [10]) as (a & Ea). { destruct (exists_last (l := pdf_header)) as (a & y & Ey); [discriminate|]. exists a. rewrite Ey.
    assert (last pdf_header 0 = 10) as L10 by reflexivity. rewrite Ey, last_last in L10. subst y. reflexivity. }
  apply no_occ_compute in Hh. rewrite Ea in Hh |- *.
  intros k Oc. destruct (Nat.lt_ge_cases k (List.length (a ++ [10]))) as [Lt|Ge].
  - apply (Hh k). eapply occ_no_straddle; eauto.
  - replace k with (List.length (a ++ [10%Z]) + (k - List.length (a ++ [10%Z])))%nat in Oc by lia.
    apply (proj1 (occ_skip (x :: p) (a ++ [10]) (texts 1 bs) _)) in Oc. revert Oc. apply texts_no; auto; apply no_occ_compute; assumption.
Qed.

Ltac no_ten := let H := fresh in intros H; vm_compute in H; repeat (destruct H as [H|H]; [discriminate H|]); exact H.

Lemma body_no_xref : no_occ (B"xref") body.
Proof. apply (body_no_word 120 (B"ref")); try reflexivity; [no_ten|discriminate|exact Hx]. Qed.
Lemma body_no_trailer : no_occ (B"trailer") body.
Proof. apply (body_no_word 116 (B"railer")); try reflexivity; [no_ten|discriminate|exact Ht]. Qed.

Lemma xref_here : find_first (m_lit (B"xref")) F = Some ((List.length body)%nat, (List.length body + 4)%nat).
Proof.
  rewrite find_lit by discriminate. rewrite parts. unfold head. rewrite <- (app_assoc (B"xref")).
  rewrite (index_bridge (B"xref") body (B"xref") _ 0); [|discriminate|reflexivity|apply body_no_xref|apply index_intro; [apply occ_0, prefixb_app|lia]].
  change (List.length (B"xref")) with 4%nat. rewrite Nat.add_0_r. reflexivity.
Qed.

Lemma trailer_part_quiet : quiet m_xrefline (B"trailer" ++ full_dict n enc info ++ B"startxref" ++ tl) [].
Proof.
  assert (D : forall n, 0 <= n -> forallb is_digit (itoa n) = true) by (intros; apply itoa_digits; auto).
  assert (R : forall s, quiet m_xrefline (B" 0 R") (10 :: s)).
  { intros s. change (B" 0 R") with ([32] ++ [48] ++ B" R"). apply quiet_app; [apply quiet_text; reflexivity|].
    apply quiet_app; [|apply quiet_text; reflexivity]. split; [reflexivity|exact Logic.I]. }
  assert (Nn : forall n s, 0 <= n -> quiet m_xrefline (itoa n) (10 :: s)) by (intros; apply quiet_num; auto).
  unfold full_dict, words, tl. rewrite <- !app_assoc.
  apply quiet_app; [apply quiet_text; reflexivity|]. apply quiet_app; [apply quiet_text; reflexivity|].
  apply quiet_app; [apply quiet_text; reflexivity|]. apply quiet_app; [apply quiet_text; reflexivity|].
  apply quiet_app; [apply quiet_text; reflexivity|].
  apply quiet_app; [apply Nn; lia|].
  apply quiet_app; [apply quiet_text; reflexivity|]. apply quiet_app; [apply quiet_text; reflexivity|].
  apply quiet_app; [rewrite <- (app_assoc (B" 0 R")); apply quiet_ref; apply D; lia|].
  destruct enc as [e|].
  - apply quiet_app; [apply R|]. rewrite <- !app_assoc.
    apply quiet_app; [apply quiet_text; reflexivity|]. apply quiet_app; [apply quiet_text; reflexivity|].
    apply quiet_app; [rewrite <- (app_assoc (B" 0 R")); apply quiet_ref; apply D; auto|].
    apply quiet_app; [apply R|].
    apply quiet_app; [apply quiet_text; reflexivity|]. apply quiet_app; [apply quiet_text; reflexivity|].
    apply quiet_app; [apply quiet_text; reflexivity|]. apply quiet_app; [apply itext_quiet; exact Hinfo|].
    apply quiet_app; [apply quiet_text; reflexivity|].
    apply quiet_app; [apply quiet_text; reflexivity|]. apply quiet_app; [apply quiet_text; reflexivity|].
    apply quiet_app; [apply quiet_text; reflexivity|].
    apply quiet_app; [apply Nn; apply blen_nonneg|].
    apply quiet_text; reflexivity.
  - rewrite app_nil_l. apply quiet_app; [apply R|].
    apply quiet_app; [apply quiet_text; reflexivity|]. apply quiet_app; [apply itext_quiet; exact Hinfo|]. apply quiet_app; [apply quiet_text; reflexivity|].
    apply quiet_app; [apply quiet_text; reflexivity|]. apply quiet_app; [apply quiet_text; reflexivity|].
    apply quiet_app; [apply quiet_text; reflexivity|].
    apply quiet_app; [apply Nn; apply blen_nonneg|].
    apply quiet_text; reflexivity.
Qed.

Lemma reads_rows : parseXref F [] = (map (fun r => (xr_off r, xr_flag r)) rows, Ok tt).
Proof.
  unfold parseXref. rewrite xref_here. unfold find_all.
  set (tr := B"trailer" ++ full_dict n enc info ++ B"startxref" ++ tl). set (rs := concat (map row_text rows) ++ tr).
  assert (E : F = body ++ head ++ rs) by (rewrite parts; reflexivity).
  rewrite E. change (head ++ rs) with (120 :: (B"ref" ++ [10] ++ B"0 " ++ itoa (n + 1) ++ [10]) ++ rs).
  rewrite rows_after by lia.
  change (120 :: (B"ref" ++ [10] ++ B"0 " ++ itoa (n + 1) ++ [10]) ++ rs) with (head ++ rs).
  rewrite quiet_skip.
  2:{ unfold head. apply quiet_app; [apply quiet_text; reflexivity|]. apply quiet_app; [apply quiet_text; reflexivity|].
      apply quiet_app.
      { change (B"0 ") with ([48] ++ [32]). apply quiet_app; [|apply quiet_text; reflexivity].
        split; [|exact Logic.I]. unfold m_xrefline. change (run_len is_digit ([48] ++ [32] ++ (itoa (n + 1) ++ [10]) ++ rs)) with 1%nat. reflexivity. }
      apply quiet_app; [|apply quiet_text; reflexivity].
      apply quiet_num; auto. apply itoa_digits. lia. }
  unfold rs at 2. rewrite find_rows.
  2:{ apply Forall_map. eapply Forall_impl; [|apply good_rows]. intros; now apply good_is_row. }
  rewrite map_length.
  replace (0 + List.length body + List.length head)%nat with (List.length (body ++ head)) by (rewrite !app_length; lia).
  rewrite (rows_parse rows _ _ (body ++ head) tr).
  - rewrite <- (app_nil_r tr). rewrite quiet_skip by apply trailer_part_quiet. reflexivity.
  - unfold rs. now rewrite <- !app_assoc.
  - apply good_rows.
  - rewrite !app_length. unfold head. rewrite !app_length. change (List.length (B"xref")) with 4%nat. lia.
Qed.

Lemma row_chars : forall x, 57 < x -> x <> 102 -> x <> 110 -> Forall (fun c => c <> x) (concat (map row_text rows)).
Proof.
  intros x Hc H1 H2. apply Forall_concat, Forall_map. eapply Forall_impl; [|apply good_rows].
  intros r [G1 G2]. unfold row_text.
  destruct (format_digits _ G1) as [D _].
  assert (Forall (fun c => c <> x) (formatXrefline (xr_off r))).
  { apply Forall_forall. intros c Hcin. rewrite forallb_forall in D. apply D in Hcin. unfold is_digit in Hcin. lia. }
  apply Forall_app. split; auto.
  destruct G2 as [[-> ->]|[-> ->]]; apply lit_without_spec;
  [change ([32] ++ B"65535" ++ [32] ++ B"f" ++ [32; 10]) with [32; 54; 53; 53; 51; 53; 32; 102; 32; 10]
  |change ([32] ++ B"00000" ++ [32] ++ B"n" ++ [32; 10]) with [32; 48; 48; 48; 48; 48; 32; 110; 32; 10]]; unfold lit_without; cbn [forallb]; lia.
Qed.

Lemma head_without : forall x, 57 < x -> lit_without x (B"xref") = true -> Forall (fun c => c <> x) head.
Proof.
  intros x Hc H. unfold head.
  apply Forall_app. split; [now apply lit_without_spec|].
  apply Forall_app. split; [constructor; [lia|constructor]|]. apply Forall_app. split.
  - change (B"0 ") with [48; 32]. constructor; [lia|]. constructor; [lia|constructor].
  - apply Forall_app. split; [apply numch_ne; [lia|apply itoa_numch]|]. constructor; [lia|constructor].
Qed.

Lemma texts_end : forall l id, l <> [] -> exists a, texts id l = a ++ [10].
Proof.
  induction l as [|b l IH]; intros id H; [congruence|]. cbn [texts]. destruct l as [|c l].
  - exists (itoa id ++ B" 0 obj" ++ [10] ++ b ++ B"endobj" ++ [10]). cbn [texts]. rewrite app_nil_r. unfold wrapped. rewrite <- !app_assoc. reflexivity.
  - destruct (IH (id + 1)) as (a & ->); [discriminate|]. exists (wrapped id b ++ a). rewrite <- app_assoc. reflexivity.
Qed.
Lemma body_end : exists a, body = a ++ [10].
Proof.
  unfold body. destruct bs as [|b l].
  - exists (removelast pdf_header). reflexivity.
  - destruct (texts_end (b :: l) 1) as (a & ->); [discriminate|]. exists (pdf_header ++ a). rewrite <- app_assoc. reflexivity.
Qed.

Lemma reads_trailer : parseTrailer F = Ok 1.
Proof.
  unfold parseTrailer. rewrite !find_lit by discriminate.
  set (A := body ++ head ++ concat (map row_text rows)).
  assert (E : F = A ++ B"trailer" ++ full_dict n enc info ++ B"startxref" ++ tl) by (rewrite parts; unfold A; rewrite <- !app_assoc; reflexivity).
  assert (Hd : exists h, head = B"xref" ++ h) by (unfold head; eauto). destruct Hd as (h & Eh).
  assert (I1 : index (B"trailer") F = Some (List.length A)).
  { rewrite E. unfold A. rewrite <- !app_assoc. rewrite Eh, <- app_assoc.
    rewrite (index_bridge (B"trailer") body (B"xref") _ (List.length (head ++ concat (map row_text rows)))); [rewrite Eh, !app_length; f_equal|discriminate|reflexivity|apply body_no_trailer|].
    rewrite app_assoc, <- Eh, app_assoc.
    rewrite (index_hd 116 (B"railer") (head ++ concat (map row_text rows)) _ 0).
    + f_equal. lia.
    + apply Forall_app. split; [apply head_without; [lia|reflexivity]|apply row_chars; lia].
    + reflexivity. }
  rewrite I1.
  set (C := B"trailer" ++ full_dict n enc info).
  assert (I2 : index (B"startxref") F = Some (List.length (A ++ C))).
  { rewrite E. unfold A. rewrite <- !app_assoc. rewrite Eh, <- app_assoc.
    assert (NB : no_occ (B"startxref") body).
    { intros k (u & v & E1 & L). apply (body_no_xref (List.length (u ++ B"start"))). exists (u ++ B"start"), v. split; auto. rewrite E1, <- app_assoc. reflexivity. }
    destruct body_end as (a & Ea). rewrite Ea in NB |- *.
    rewrite (index_skip (B"startxref") a 10 _ (List.length (head ++ concat (map row_text rows) ++ C))); [rewrite Eh, !app_length; f_equal|no_ten|discriminate|exact NB|].
    rewrite app_assoc, <- Eh.
    replace (head ++ concat (map row_text rows) ++ B"trailer" ++ full_dict n enc info ++ B"startxref" ++ tl)
      with ((((head ++ concat (map row_text rows)) ++ B"trailer") ++ full_dict n enc info) ++ B"startxref" ++ tl) by (rewrite <- !app_assoc; reflexivity).
    rewrite (index_hd 115 (B"tartxref") (((head ++ concat (map row_text rows)) ++ B"trailer") ++ full_dict n enc info) _ 0).
    + f_equal. unfold C. rewrite !app_length. lia.
    + apply Forall_app. split; [apply Forall_app; split; [apply Forall_app; split|]|].
      * apply head_without; [lia|reflexivity].
      * apply row_chars; lia.
      * apply lit_without_spec; reflexivity.
      * unfold full_dict.
        apply Forall_app. split; [apply lit_without_spec; reflexivity|]. apply Forall_app. split; [apply lit_without_spec; reflexivity|].
        apply Forall_app. split; [apply lit_without_spec; reflexivity|]. apply Forall_app. split; [apply words_no; [lia|reflexivity]|].
        apply Forall_app. split; [apply lit_without_spec; reflexivity|]. apply Forall_app. split; [apply itext_no; exact Hinfo|].
        apply lit_without_spec; reflexivity.
    + reflexivity. }
  rewrite I2.
  assert (SL : slice F (Z.of_nat (List.length A + List.length (B"trailer"))) (Z.of_nat (List.length (A ++ C))) = Ok (full_dict n enc info)).
  { rewrite E. rewrite app_assoc. apply slice_app.
    - unfold blen. now rewrite app_length.
    - unfold blen, C. rewrite !app_length. lia. }
  rewrite SL. cbn [bind]. destruct (full_read n enc info Hinfo) as (more & ->). cbn [bind].
  change (getPropByKey (B"Root") (map ent_prop (ents n 1 enc) ++ more)) with (Some (mkProp (B"Root") (refText 1))). cbv iota. cbn [pval].
  apply ref_roundtrip. unfold is_int. lia.
Qed.

(** The objects. *)
Definition opened (l : list bytes) : list obj := map (fun p => mkObj (Z.of_nat (fst p)) ([10] ++ snd p)) (combine (seq 1 (List.length l)) l).

Lemma objs_at : forall done todo p, bs = done ++ todo ->
  parseObjs F (map (fun r => (xr_off r, xr_flag r)) (map (fun o => mkRow o (B"00000") (B"n")) (skipn (List.length done) offs))) p =
  (mkPdf (root p) (objs p ++ map (fun q => mkObj (Z.of_nat (fst q)) ([10] ++ snd q)) (combine (seq (S (List.length done)) (List.length todo)) todo)), Ok tt).
Proof.
  intros done todo. revert done. induction todo as [|b todo IH]; intros done p E.
  - rewrite skipn_all2 by (unfold offs; rewrite offsets_len, E, app_length; cbn [List.length]; lia).
    cbn [map parseObjs combine List.length seq]. rewrite app_nil_r. destruct p; reflexivity.
  - assert (Nb : nth_error bs (List.length done) = Some b) by (rewrite E, nth_error_app2, Nat.sub_diag by lia; reflexivity).
    destruct (offs_ok bs enc info small _ _ Nb) as (a & q & Eb & Eo & Ra). fold offs body in Eo, Eb.
    rewrite (skipn_nth _ offs (List.length done) (blen a) Eo). cbn [map parseObjs xr_off xr_flag]. change (beqb (B"n") (B"n")) with true. cbv iota.
    assert (OP : obj_parse F (blen a) = Ok (mkObj (1 + Z.of_nat (List.length done)) ([10] ++ b))).
    { rewrite parts, Eb. rewrite <- !app_assoc. apply obj_at.
      - split; [lia|]. assert (Z.of_nat (List.length done) <= blen a).
        { assert (X : forall l id, Z.of_nat (List.length l) <= blen (texts id l)).
          { induction l as [|x l IHl]; intros id; cbn [texts List.length]; [unfold blen; lia|]. rewrite blen_app. specialize (IHl (id + 1)).
            assert (1 <= blen (wrapped id x)); [|lia]. unfold wrapped. rewrite !blen_app. pose proof (blen_nonneg (itoa id)). pose proof (blen_nonneg x).
            change (blen (B" 0 obj")) with 6. pose proof (blen_nonneg [10]). pose proof (blen_nonneg (B"endobj")). pose proof (blen_nonneg [10; 10]). lia. }
          assert (Ty : forall l l' id, texts id (l ++ l') = texts id l ++ texts (id + Z.of_nat (List.length l)) l').
          { induction l as [|x l IHl]; intros l' id; cbn [app texts List.length]; [rewrite Z.add_0_r; reflexivity|].
            rewrite IHl, <- app_assoc. replace (id + Z.of_nat (S (List.length l))) with (id + 1 + Z.of_nat (List.length l)) by lia. reflexivity. }
          assert (Oy : forall l l' id a0, nth_error (offsets id a0 (l ++ l')) (List.length l) = match l' with [] => None | _ => Some (a0 + blen (texts id l)) end).
          { induction l as [|x l IHl]; intros l' id a0; cbn [app offsets texts List.length nth_error].
            - destruct l'; cbn [offsets nth_error]; [reflexivity|]. f_equal. unfold blen. cbn [List.length]. lia.
            - rewrite IHl. destruct l'; [reflexivity|]. f_equal. rewrite blen_app. lia. }
          unfold offs in Eo. rewrite E, Oy in Eo. cbv iota in Eo. assert (Eo2 : blen pdf_header + blen (texts 1 done) = blen a) by congruence. rewrite <- Eo2. pose proof (blen_nonneg pdf_header). specialize (X done 1). lia. }
        unfold int64_max. lia.
      - rewrite Forall_forall in He. apply He. rewrite E. apply in_app_iff. right; left; reflexivity. }
    rewrite OP. specialize (IH (done ++ [b]) (put p (mkObj (1 + Z.of_nat (List.length done)) ([10] ++ b)))). rewrite app_length in IH. cbn [List.length] in IH.
    replace (List.length done + 1)%nat with (S (List.length done)) in IH by lia. rewrite IH by (rewrite E, <- app_assoc; reflexivity).
    cbn [List.length seq combine map]. unfold put. cbn [root objs fst snd]. rewrite <- app_assoc.
    replace (Z.of_nat (S (List.length done))) with (1 + Z.of_nat (List.length done)) by lia. reflexivity.
Qed.

Lemma reads_objs : forall p, objs p = [] -> parseObjs F (map (fun r => (xr_off r, xr_flag r)) rows) p = (mkPdf (root p) (opened bs), Ok tt).
Proof.
  intros p Hp. unfold rows. cbn [map parseObjs xr_off xr_flag]. change (beqb (B"f") (B"n")) with false. cbv iota.
  pose proof (objs_at [] bs p eq_refl) as H. cbn [List.length skipn] in H. change (skipn 0 offs) with offs in H. rewrite H, Hp. reflexivity.
Qed.

(** ** What the objects are *)
Lemma file_body : forall k b, nth_error bs k = Some b -> body_of F (1 + Z.of_nat k) b.
Proof.
  intros k b Nb. destruct (offs_ok bs enc info small k b Nb) as (p & q & Eb & Eo & Rp).
  assert (Lk : (k < List.length bs)%nat) by (apply nth_error_Some; congruence).
  exists (blen p), (blen (p ++ wrapped (1 + Z.of_nat k) b)), (itoa (1 + Z.of_nat k)). split; [|split; [apply numeral_itoa; lia|]].
  - exists (n + 1), (base_ bs). split; [apply file_table|]. split; [unfold n; lia|]. split; [apply (file_row bs enc info small); exact Eo|].
    destruct (Nat.lt_ge_cases (S k) (List.length bs)) as [Lt|Ge].
    + left. split; [unfold n; lia|]. destruct (nth_error bs (S k)) as [b2|] eqn:N2; [|apply nth_error_None in N2; lia].
      replace (1 + Z.of_nat k + 1) with (1 + Z.of_nat (S k)) by lia. apply (file_row bs enc info small).
      clear - Nb N2 Eo Lt.
      assert (G : forall l id a0 k p b b2, nth_error l k = Some b -> nth_error l (S k) = Some b2 -> nth_error (offsets id a0 l) k = Some p ->
        nth_error (offsets id a0 l) (S k) = Some (p + blen (wrapped (id + Z.of_nat k) b))).
      { induction l as [|x l IH]; intros id a0 k' p' c c2 H1 H2 H3; [destruct k'; discriminate|]. destruct k' as [|k'].
        - cbn [nth_error offsets] in *. injection H1 as ->. injection H3 as ->. destruct l; [discriminate|]. cbn [offsets nth_error]. replace (id + Z.of_nat 0) with id by lia. reflexivity.
        - change (nth_error l k' = Some c) in H1. change (nth_error l (S k') = Some c2) in H2. change (nth_error (offsets (id + 1) (a0 + blen (wrapped id x)) l) k' = Some p') in H3.
          change (nth_error (offsets id a0 (x :: l)) (S (S k'))) with (nth_error (offsets (id + 1) (a0 + blen (wrapped id x)) l) (S k')). rewrite (IH _ _ _ _ _ _ H1 H2 H3). replace (id + Z.of_nat (S k')) with (id + 1 + Z.of_nat k') by lia. reflexivity. }
      rewrite (G _ _ _ _ _ _ _ Nb N2 Eo), blen_app. reflexivity.
    + right. split; [unfold n; lia|].
      assert (Eq : q = []).
      { clear - Nb Eb Ge Lk Eo. 
        assert (G : forall l id a0 k p b, nth_error l k = Some b -> (S k >= List.length l)%nat -> nth_error (offsets id a0 l) k = Some p ->
          a0 + blen (texts id l) = p + blen (wrapped (id + Z.of_nat k) b)).
        { induction l as [|x l IH]; intros id a0 k' p' c H1 H2 H3; [destruct k'; discriminate|]. destruct k' as [|k'].
          - cbn [nth_error offsets] in *. injection H1 as ->. injection H3 as ->. destruct l; [|cbn [List.length] in H2; lia]. cbn [texts]. rewrite app_nil_r. replace (id + Z.of_nat 0) with id by lia. reflexivity.
          - cbn [nth_error offsets texts] in H1, H3 |- *. cbn [List.length] in H2. rewrite blen_app. specialize (IH (id + 1) (a0 + blen (wrapped id x)) k' p' c H1 ltac:(lia) H3).
            replace (id + Z.of_nat (S k')) with (id + 1 + Z.of_nat k') by lia. lia. }
        specialize (G bs 1 (blen pdf_header) k (blen p) b Nb ltac:(lia) Eo). apply (f_equal blen) in Eb. rewrite !blen_app in Eb. unfold blen in Eb at 5. 
        assert (List.length q = 0%nat) by lia. destruct q; [reflexivity|discriminate]. }
      subst q. rewrite app_nil_r in Eb. rewrite <- Eb. apply file_startxref.
  - split; [rewrite blen_app; pose proof (blen_nonneg p); pose proof (blen_nonneg (wrapped (1 + Z.of_nat k) b)); lia|].
    rewrite blen_app. replace (blen p + blen (wrapped (1 + Z.of_nat k) b) - blen p) with (blen (wrapped (1 + Z.of_nat k) b)) by lia.
    fold body in Eb. rewrite parts, Eb. unfold blen. rewrite !Nat2Z.id. rewrite <- !app_assoc. rewrite skipn_app, skipn_all, Nat.sub_diag. rewrite app_nil_l. change (skipn 0 ?x) with x.
    rewrite firstn_app, firstn_all, Nat.sub_diag. cbn [firstn]. rewrite app_nil_r. reflexivity.
Qed.

Lemma opened_nth : forall k o, nth_error (opened bs) k = Some o -> exists b, nth_error bs k = Some b /\ o = mkObj (1 + Z.of_nat k) ([10] ++ b).
Proof.
  unfold opened. intros k o H. rewrite nth_error_map in H.
  assert (G : forall l j k, nth_error (combine (seq j (List.length l)) l) k = option_map (fun b : bytes => ((j + k)%nat, b)) (nth_error l k)).
  { induction l as [|x l IH]; intros j k'; [destruct k'; reflexivity|]. destruct k' as [|k']; cbn [List.length seq combine nth_error option_map]; [f_equal; f_equal; lia|].
    rewrite IH. destruct (nth_error l k'); cbn [option_map]; [|reflexivity]. f_equal. f_equal. lia. }
  rewrite G in H. destruct (nth_error bs k) as [b|]; cbn [option_map fst snd] in H; [|discriminate]. injection H as <-. exists b. split; [reflexivity|]. f_equal. lia.
Qed.
Lemma opened_len : List.length (opened bs) = List.length bs.
Proof. unfold opened. rewrite map_length, combine_length, seq_length. lia. Qed.

Lemma opened_all : all_objects F (opened bs).
Proof.
  exists (base_ bs). split; [rewrite opened_len; rewrite Z.add_comm; apply file_table|].
  intros k o H. apply opened_nth in H. destruct H as (b & Nb & ->). cbn [oid odata]. split; [reflexivity|]. exists b. split; [apply file_body; exact Nb|reflexivity].
Qed.
End File.
