(** Opening a file that was just written: the cross-reference rows, the trailer
    and the objects. *)
From Coq Require Import String List ZArith Lia Bool.
From Coq.Floats Require Import SpecFloat.
From Verif Require Import Base BaseProofs Output OutputSpec OutputProofs Props PropsFlat PropsWrite PropsNorm PropsRefs PdfData Float64 Parse ParseFind.
Open Scope Z_scope.
Open Scope list_scope.

Lemma no_occ_hd : forall x p s, Forall (fun c => c <> x) s -> no_occ (x :: p) s.
Proof.
  intros x p s H n O. pose proof (occ_len _ _ _ O) as L. cbn [List.length] in L.
  apply (no_occ_start x p s [] n H); [lia|]. now rewrite app_nil_r.
Qed.

Lemma index_hd : forall x p a s n, Forall (fun c => c <> x) a -> index (x :: p) s = Some n ->
  index (x :: p) (a ++ s) = Some (List.length a + n)%nat.
Proof.
  intros x p a s n Ha H. apply index_some in H. destruct H as [H1 H2]. apply index_intro.
  - apply occ_skip. exact H1.
  - intros m Hm O. destruct (Nat.lt_ge_cases m (List.length a)) as [L|L].
    + exact (no_occ_start x p a s m Ha L O).
    + replace m with (List.length a + (m - List.length a))%nat in O by lia.
      apply (proj1 (occ_skip _ _ _ _)) in O. apply (H2 (m - List.length a)%nat); [lia|exact O].
Qed.

(** ** Characters *)
Definition numch (c : Z) : Prop := 45 <= c <= 57.
Lemma itoa_numch : forall n, Forall numch (itoa n).
Proof.
  intros n. unfold itoa. destruct (Z.ltb_spec n 0).
  - constructor; [unfold numch; lia|]. eapply Forall_impl; [|apply utoa_Forall; lia]. unfold numch. cbn beta. intros; lia.
  - eapply Forall_impl; [|apply utoa_Forall; lia]. unfold numch. cbn beta. intros; lia.
Qed.

Definition lit_without (x : Z) (s : bytes) : bool := forallb (fun c => negb (c =? x)) s.
Lemma lit_without_spec : forall x s, lit_without x s = true -> Forall (fun c => c <> x) s.
Proof. intros x s H. apply Forall_forall. intros c Hc. unfold lit_without in H. rewrite forallb_forall in H. apply H in Hc. lia. Qed.

Lemma numch_ne : forall x s, 57 < x -> Forall numch s -> Forall (fun c => c <> x) s.
Proof. intros x s Hx H. eapply Forall_impl; [|exact H]. unfold numch. cbn beta. intros; lia. Qed.

(** ** The body *)
Definition kw_free (p : bytes) (o : obj) : Prop := no_occ p (odata o).

Lemma trim_no_occ : forall p s, no_occ p s -> no_occ p (trim_space s).
Proof.
  intros p s H. destruct (trim_space_sub s) as (a & b & E). rewrite E in H.
  apply no_occ_suffix in H. apply no_occ_pre in H. exact H.
Qed.

Lemma obj_text_no : forall x p o, 57 < x -> x <> 98 -> x <> 106 -> x <> 101 -> x <> 110 -> x <> 100 -> x <> 111 -> ~ In 10 (x :: p) ->
  kw_free (x :: p) o -> no_occ (x :: p) (obj_text o).
Proof.
  intros x p o Hx H1 H2 H3 H4 H5 H6 Hn Hk. unfold obj_text, obj_header.
  replace (([10] ++ itoa (oid o) ++ B " 0 obj" ++ [10]) ++ trim_space (odata o) ++ [10] ++ B "endobj" ++ [10])
    with (([] : bytes) ++ 10 :: (itoa (oid o) ++ B" 0 obj") ++ 10 :: trim_space (odata o) ++ 10 :: B"endobj" ++ 10 :: [])
    by (rewrite <- !app_assoc; reflexivity).
  repeat (apply no_occ_sep; [discriminate|exact Hn| |]).
  - apply no_occ_hd. constructor.
  - apply no_occ_hd. apply Forall_app. split; [apply numch_ne; [lia|apply itoa_numch]|].
    apply lit_without_spec. change (B" 0 obj") with [32; 48; 32; 111; 98; 106]. unfold lit_without. cbn [forallb]. lia.
  - apply trim_no_occ. exact Hk.
  - apply no_occ_hd. apply lit_without_spec. change (B"endobj") with [101; 110; 100; 111; 98; 106]. unfold lit_without. cbn [forallb]. lia.
  - apply no_occ_hd. constructor.
Qed.

Lemma objs_no : forall x p os, 57 < x -> x <> 98 -> x <> 106 -> x <> 101 -> x <> 110 -> x <> 100 -> x <> 111 -> ~ In 10 (x :: p) ->
  Forall (kw_free (x :: p)) os -> no_occ (x :: p) (concat (map obj_text os)) .
Proof.
  intros x p os Hx H1 H2 H3 H4 H5 H6 Hn H. induction H as [|o os Ho H IH].
  - apply no_occ_hd. constructor.
  - cbn [map concat].
    assert (E : exists w, obj_text o = w ++ [10]).
    { exists (obj_header (oid o) ++ trim_space (odata o) ++ [10] ++ B"endobj"). unfold obj_text. rewrite <- !app_assoc. reflexivity. }
    destruct E as [w E]. pose proof (obj_text_no x p o Hx H1 H2 H3 H4 H5 H6 Hn Ho) as N. rewrite E in N |- *.
    rewrite <- app_assoc. cbn [app]. apply no_occ_sep; [discriminate|exact Hn|exact (no_occ_pre _ _ _ N)|exact IH].
Qed.

Lemma body_no : forall x p os, 57 < x -> x <> 98 -> x <> 106 -> x <> 101 -> x <> 110 -> x <> 100 -> x <> 111 ->
  x <> 80 -> x <> 68 -> x <> 70 -> ~ In 10 (x :: p) ->
  Forall (kw_free (x :: p)) os -> no_occ (x :: p) (pdf_header ++ concat (map obj_text os)).
Proof.
  intros. unfold pdf_header.
  replace ((B"%PDF-1.7" ++ [10; 10]) ++ concat (map obj_text os)) with ((B"%PDF-1.7" ++ [10]) ++ 10 :: concat (map obj_text os))
    by (rewrite <- !app_assoc; reflexivity).
  apply no_occ_sep; [discriminate|auto| |apply objs_no; auto].
  apply no_occ_hd, lit_without_spec. change (B"%PDF-1.7" ++ [10]) with [37; 80; 68; 70; 45; 49; 46; 55; 10]. unfold lit_without. cbn [forallb].
  assert (x <> 80 /\ x <> 68 /\ x <> 70) by auto. lia.
Qed.

Lemma body_ends : forall os, exists a, pdf_header ++ concat (map obj_text os) = a ++ [10].
Proof.
  intros os. destruct os as [|o os] using rev_ind.
  - exists (B"%PDF-1.7" ++ [10]). reflexivity.
  - rewrite map_app, concat_app. cbn [map concat]. rewrite app_nil_r. unfold obj_text.
    exists (pdf_header ++ concat (map obj_text os) ++ obj_header (oid o) ++ trim_space (odata o) ++ [10] ++ B"endobj").
    rewrite <- !app_assoc. reflexivity.
Qed.

(** ** Rows *)
Definition good_row (r : xrefrow) : Prop := 0 <= xr_off r < 10 ^ 10 /\
  ((xr_gen r = B"65535" /\ xr_flag r = B"f") \/ (xr_gen r = B"00000" /\ xr_flag r = B"n")).

Lemma format_digits : forall n, 0 <= n < 10 ^ 10 -> forallb is_digit (formatXrefline n) = true /\ List.length (formatXrefline n) = 10%nat.
Proof.
  intros n H. destruct (formatXrefline_numeral n H) as [(_ & N & _) L]. split; auto.
  apply forallb_forall. intros c Hc. rewrite Forall_forall in N. apply N in Hc. unfold is_digit. lia.
Qed.

Lemma good_is_row : forall r, good_row r -> is_row (row_text r).
Proof.
  intros r [H1 H2]. destruct (format_digits _ H1) as [D L].
  destruct H2 as [[G F]|[G F]].
  - exists (formatXrefline (xr_off r)), (B"65535"), 102. unfold row_text. rewrite G, F. repeat split; auto.
  - exists (formatXrefline (xr_off r)), (B"00000"), 110. unfold row_text. rewrite G, F. repeat split; auto.
Qed.

Lemma digit_trimmed : forall d, d <> [] -> forallb is_digit d = true -> trim_space d = d.
Proof.
  intros d Hn H. apply trim_space_id.
  assert (G : forall c, In c d -> ascii c /\ is_space1 c = false).
  { intros c Hc. rewrite forallb_forall in H. apply H in Hc. unfold is_digit, ascii, is_space1 in *. lia. }
  split.
  - destruct d as [|c d]; [congruence|]. apply space_len_cons; apply G; left; auto.
  - destruct (rev d) as [|c w] eqn:E; [apply (f_equal (@rev Z)) in E; rewrite rev_involutive in E; cbn in E; congruence|].
    apply rspace_len_cons; apply G; apply in_rev; rewrite E; left; auto.
Qed.

Lemma split_digits : forall d s, forallb is_digit d = true -> split1 32 (d ++ 32 :: s) = d :: split1 32 s.
Proof.
  induction d as [|c d IH]; intros s H; [reflexivity|]. cbn [forallb] in H. apply andb_true_iff in H. destruct H as [H1 H2].
  cbn [app split1]. destruct (Z.eqb_spec c 32) as [->|]; [discriminate|]. rewrite IH by auto. reflexivity.
Qed.

Lemma atoi_digits : forall d, d <> [] -> forallb is_digit d = true -> dec_value 0 d <= int64_max -> 0 <= dec_value 0 d -> atoi d = Ok (dec_value 0 d).
Proof.
  intros d Hn H Hm H0. unfold atoi. destruct d as [|c d]; [congruence|].
  assert (is_digit c = true) by (cbn [forallb] in H; apply andb_true_iff in H; tauto).
  destruct (Z.eqb_spec c 43) as [->|]; [discriminate|]. destruct (Z.eqb_spec c 45) as [->|]; [discriminate|].
  unfold atou. rewrite H. unfold int64_min. 
  destruct (Z.leb_spec (- 9223372036854775808) (dec_value 0 (c :: d))); [|lia].
  destruct (Z.leb_spec (dec_value 0 (c :: d)) int64_max); [reflexivity|lia].
Qed.

Lemma row_parse : forall r, good_row r ->
  xref_parse (formatXrefline (xr_off r) ++ [32] ++ xr_gen r ++ [32] ++ xr_flag r) = Ok (xr_off r, xr_flag r).
Proof.
  intros r [H1 H2]. destruct (format_digits _ H1) as [D L]. destruct (formatXrefline_numeral _ H1) as [(NN & _ & NV) _].
  rewrite fold_dec in NV. set (d := formatXrefline (xr_off r)) in *.
  assert (T : forall g fl, forallb is_digit g = true -> List.length g = 5%nat -> (fl = 102 \/ fl = 110) -> dec_value 0 g <= int64_max -> 0 <= dec_value 0 g ->
    xref_parse (d ++ [32] ++ g ++ [32] ++ [fl]) = Ok (xr_off r, [fl])).
  { intros g fl Dg Lg Hf Vm V0. unfold xref_parse.
    assert (E : trim_space (d ++ [32] ++ g ++ [32] ++ [fl]) = d ++ [32] ++ g ++ [32] ++ [fl]).
    { destruct d as [|c d']; [discriminate|]. cbn [app].
      replace (c :: d' ++ 32 :: g ++ [32; fl]) with (c :: (d' ++ 32 :: g ++ [32]) ++ [fl]) by (rewrite <- !app_assoc; cbn [app]; rewrite <- !app_assoc; reflexivity).
      apply trim_space_id. cbn [forallb] in D. apply andb_true_iff in D. destruct D as [D _].
      unfold is_digit in D. apply trimmed_ascii; unfold ascii, is_space1; lia. }
    rewrite E. cbn [app]. rewrite split_digits by auto. rewrite split_digits by auto.
    replace (split1 32 [fl]) with [[fl]] by (destruct Hf as [-> | ->]; reflexivity).
    cbv iota beta.
    rewrite (digit_trimmed d) by auto. rewrite (digit_trimmed g) by (auto; destruct g; discriminate).
    rewrite (atoi_digits d) by (auto; rewrite NV; unfold int64_max; lia).
    rewrite (atoi_digits g) by (auto; destruct g; discriminate). rewrite NV. cbn [bind].
    destruct Hf as [-> | ->]; reflexivity. }
  destruct H2 as [[G F]|[G F]]; rewrite G, F.
  - apply (T (B"65535") 102); auto; unfold int64_max; cbn; lia.
  - apply (T (B"00000") 110); auto; unfold int64_max; cbn; lia.
Qed.

Lemma row_len20 : forall r, good_row r -> List.length (row_text r) = 20%nat.
Proof.
  intros r H. pose proof H as H'. destruct H' as [H1 H2]. destruct (format_digits _ H1) as [D L]. unfold row_text.
  rewrite !app_length, L. destruct H2 as [[-> ->]|[-> ->]]; reflexivity.
Qed.

Lemma row_sub : forall pre r post, good_row r -> sub (pre ++ row_text r ++ post) (List.length pre) (List.length pre + 18) =
  formatXrefline (xr_off r) ++ [32] ++ xr_gen r ++ [32] ++ xr_flag r.
Proof.
  intros pre r post H. unfold sub. rewrite skipn_app, skipn_all, Nat.sub_diag. cbn [app].
  change (skipn 0 (row_text r ++ post)) with (row_text r ++ post).
  replace (List.length pre + 18 - List.length pre)%nat with 18%nat by lia.
  set (w := formatXrefline (xr_off r) ++ [32] ++ xr_gen r ++ [32] ++ xr_flag r).
  assert (E : row_text r = w ++ [32; 10]) by (unfold row_text, w; rewrite <- !app_assoc; reflexivity).
  assert (Lw : List.length w = 18%nat).
  { pose proof (row_len20 r H) as L. rewrite E, app_length in L. cbn [List.length] in L. lia. }
  rewrite E, <- app_assoc, <- Lw. rewrite firstn_app, firstn_all, Nat.sub_diag. apply app_nil_r.
Qed.

Lemma rows_parse : forall rs raw start pre post ms acc,
  raw = pre ++ concat (map row_text rs) ++ post -> Forall good_row rs -> (start <= List.length pre)%nat ->
  xref_rows_of raw start (row_spans (List.length pre) (List.length rs) ++ ms) acc =
  xref_rows_of raw start ms (acc ++ map (fun r => (xr_off r, xr_flag r)) rs).
Proof.
  induction rs as [|r rs IH]; intros raw start pre post ms acc E G Hs.
  - cbn [List.length row_spans app map]. now rewrite app_nil_r.
  - inversion G; subst. cbn [List.length row_spans app map concat xref_rows_of].
    destruct (Nat.ltb_spec (List.length pre) start); [lia|].
    rewrite <- (app_assoc (row_text r)). rewrite row_sub by auto. rewrite row_parse by auto.
    replace (List.length pre + 20)%nat with (List.length (pre ++ row_text r)) by (rewrite app_length, row_len20; auto).
    rewrite (IH _ start (pre ++ row_text r) post).
    + now rewrite <- app_assoc.
    + now rewrite <- !app_assoc.
    + auto.
    + rewrite app_length. lia.
Qed.
