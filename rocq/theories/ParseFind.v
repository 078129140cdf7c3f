(** Searching a file that was put together from pieces. *)
From Coq Require Import String List ZArith Lia Bool.
From Coq.Floats Require Import SpecFloat.
From Verif Require Import Base BaseProofs Output OutputSpec OutputProofs Props PropsFlat PropsWrite PropsNorm PropsRefs PdfData Float64 Parse.
Open Scope Z_scope.
Open Scope list_scope.

(** ** Literals *)
Lemma find_lit_aux : forall p s pos, p <> [] ->
  hd_error (find_all_aux (m_lit p) pos 0 s) =
  match index p s with Some n => Some ((pos + n)%nat, (pos + n + List.length p)%nat) | None => None end.
Proof.
  intros p s. induction s as [|c s IH]; intros pos Hp.
  - cbn [find_all_aux index]. destruct p; [congruence|reflexivity].
  - cbn [find_all_aux index]. unfold m_lit at 1. destruct (prefixb p (c :: s)) eqn:E.
    + destruct (List.length p) as [|n] eqn:L; [destruct p; [congruence|discriminate]|].
      cbn [hd_error]. now rewrite Nat.add_0_r.
    + rewrite IH by auto. destruct (index p s); cbn [option_map]; [|reflexivity].
      replace (S pos + n)%nat with (pos + S n)%nat by lia. reflexivity.
Qed.

Lemma find_lit : forall p s, p <> [] ->
  find_first (m_lit p) s = match index p s with Some n => Some (n, (n + List.length p)%nat) | None => None end.
Proof. intros. unfold find_first, find_all. rewrite find_lit_aux by auto. reflexivity. Qed.

(** The first occurrence after a part without one, when the part ends with a
    character that is not in the word. *)
Lemma index_after : forall p a s n, p <> [] -> no_occ p a -> (forall k, (k < List.length a)%nat -> occ p (a ++ s) k -> occ p a k) ->
  index p s = Some n -> index p (a ++ s) = Some (List.length a + n)%nat.
Proof.
  intros p a s n Hp Ha Hs H. apply index_some in H. destruct H as [H1 H2]. apply index_intro.
  - apply occ_skip. exact H1.
  - intros m Hm O. destruct (Nat.lt_ge_cases m (List.length a)) as [L|L].
    + apply (Ha m). apply Hs; auto.
    + replace m with (List.length a + (m - List.length a))%nat in O by lia.
      apply (proj1 (occ_skip _ _ _ _)) in O. apply (H2 (m - List.length a)%nat); [lia|exact O].
Qed.

Lemma occ_no_straddle : forall p a x s k, ~ In x p -> (k < List.length (a ++ [x]))%nat ->
  occ p ((a ++ [x]) ++ s) k -> occ p (a ++ [x]) k.
Proof.
  intros p a x s k Hx Hk (u & v & E & L).
  destruct (Nat.le_gt_cases (List.length (u ++ p)) (List.length (a ++ [x]))) as [Le|Gt].
  - assert (exists w, a ++ [x] = (u ++ p) ++ w) as [w Ew].
    { exists (skipn (List.length (u ++ p)) (a ++ [x])).
      rewrite <- (firstn_skipn (List.length (u ++ p)) (a ++ [x])) at 1. f_equal.
      apply (f_equal (firstn (List.length (u ++ p)))) in E. rewrite (app_assoc u) in E.
      rewrite (firstn_app _ (a ++ [x])) in E. replace (List.length (u ++ p) - List.length (a ++ [x]))%nat with O in E by lia.
      change (firstn 0 s) with (@nil Z) in E. rewrite app_nil_r in E. rewrite E.
      rewrite firstn_app, firstn_all, Nat.sub_diag. cbn [firstn]. apply app_nil_r. }
    exists u, w. rewrite app_assoc. auto.
  - exfalso. apply Hx. rewrite !app_length in Gt. rewrite !app_length in Hk. cbn [List.length] in *.
    assert (N : nth_error ((a ++ [x]) ++ s) (List.length a) = Some x).
    { rewrite <- app_assoc, nth_error_app2 by lia. now rewrite Nat.sub_diag. }
    rewrite E in N. rewrite nth_error_app2 in N by lia. rewrite nth_error_app1 in N by lia.
    eapply nth_error_In; eauto.
Qed.

Lemma index_skip : forall p a x s n, ~ In x p -> p <> [] -> no_occ p (a ++ [x]) -> index p s = Some n ->
  index p ((a ++ [x]) ++ s) = Some (List.length (a ++ [x]) + n)%nat.
Proof. intros. apply index_after; auto. intros. eapply occ_no_straddle; eauto. Qed.

(** ** Rows *)
Fixpoint quiet (m : bytes -> option nat) (a s : bytes) : Prop :=
  match a with [] => True | c :: a' => m (a ++ s) = None /\ quiet m a' s end.

Lemma quiet_app : forall m a b s, quiet m a (b ++ s) -> quiet m b s -> quiet m (a ++ b) s.
Proof.
  intros m a b s Ha Hb. induction a as [|c a IH]; auto. destruct Ha as [H1 H2]. split; auto.
  cbn [app] in *. rewrite <- app_assoc. auto.
Qed.

Lemma quiet_skip : forall m a s pos, quiet m a s -> find_all_aux m pos 0 (a ++ s) = find_all_aux m (pos + List.length a) 0 s.
Proof.
  induction a as [|c a IH]; intros s pos H.
  - cbn [app List.length]. now rewrite Nat.add_0_r.
  - destruct H as [H1 H2]. cbn [app find_all_aux List.length] in *. rewrite H1, IH by auto. f_equal. lia.
Qed.

Lemma run_digits : forall d s, forallb is_digit d = true -> run_len is_digit (d ++ s) = (List.length d + run_len is_digit s)%nat.
Proof.
  induction d as [|c d IH]; intros s H; [reflexivity|]. cbn [forallb] in H. apply andb_true_iff in H. destruct H as [H1 H2].
  cbn [app run_len List.length]. rewrite H1, IH by auto. reflexivity.
Qed.

Lemma xref_nodigit : forall c s, is_digit c = false -> m_xrefline (c :: s) = None.
Proof. intros. unfold m_xrefline. cbn [run_len]. rewrite H. reflexivity. Qed.

Lemma quiet_text : forall a s, forallb (fun c => negb (is_digit c)) a = true -> quiet m_xrefline a s.
Proof.
  induction a as [|c a IH]; intros s H; [exact I|]. cbn [forallb] in H. apply andb_true_iff in H. destruct H as [H1 H2].
  split; auto. apply xref_nodigit. now apply negb_true_iff.
Qed.

(** A number followed by something that is not a blank. *)
Lemma quiet_num : forall d c s, forallb is_digit d = true -> is_digit c = false -> is_blank c = false ->
  quiet m_xrefline d (c :: s).
Proof.
  induction d as [|x d IH]; intros c s H Hc Hb; [exact I|]. pose proof H as H0. cbn [forallb] in H. apply andb_true_iff in H. destruct H as [H1 H2].
  split; auto. unfold m_xrefline. rewrite run_digits by auto.
  replace (run_len is_digit (c :: s)) with O by (cbn [run_len]; now rewrite Hc).
  destruct (Nat.leb_spec 10 (List.length (x :: d) + 0)); [|reflexivity].
  rewrite skipn_app.
  destruct (skipn 10 (x :: d)) as [|y t] eqn:E.
  - assert (L : (List.length (skipn 10 (x :: d)) = 0)%nat) by (now rewrite E). rewrite skipn_length in L.
    replace (10 - List.length (x :: d))%nat with O by lia. cbn [app skipn run_len]. rewrite Hb. reflexivity.
  - assert (Dy : is_digit y = true).
    { rewrite forallb_forall in H0. apply H0. rewrite <- (firstn_skipn 10 (x :: d)). apply in_or_app. right. rewrite E. left; auto. }
    cbn [app run_len]. replace (is_blank y) with false; [reflexivity|].
    unfold is_digit, is_blank in *. lia.
Qed.

(** A number followed by " 0 R". *)
Lemma quiet_ref : forall d s, forallb is_digit d = true -> quiet m_xrefline d (B" 0 R" ++ s).
Proof.
  induction d as [|x d IH]; intros s H; [exact I|]. pose proof H as H0. cbn [forallb] in H. apply andb_true_iff in H. destruct H as [H1 H2].
  split; [|apply IH; auto]. unfold m_xrefline. rewrite run_digits by auto.
  replace (run_len is_digit (B" 0 R" ++ s)) with O by reflexivity.
  destruct (Nat.leb_spec 10 (List.length (x :: d) + 0)); [|reflexivity].
  rewrite skipn_app.
  destruct (skipn 10 (x :: d)) as [|y t] eqn:E.
  - assert (L : (List.length (skipn 10 (x :: d)) = 0)%nat) by (now rewrite E). rewrite skipn_length in L.
    replace (10 - List.length (x :: d))%nat with O by lia. reflexivity.
  - assert (Dy : is_digit y = true).
    { rewrite forallb_forall in H0. apply H0. rewrite <- (firstn_skipn 10 (x :: d)). apply in_or_app. right. rewrite E. left; auto. }
    cbn [app run_len]. replace (is_blank y) with false; [reflexivity|].
    unfold is_digit, is_blank in *. lia.
Qed.

(** A row of twenty bytes is one match of eighteen. *)
Lemma row_match : forall dn dg fl s, forallb is_digit dn = true -> List.length dn = 10%nat ->
  forallb is_digit dg = true -> List.length dg = 5%nat -> (fl = 102 \/ fl = 110) ->
  m_xrefline (dn ++ [32] ++ dg ++ [32; fl] ++ s) = Some 18%nat.
Proof.
  intros dn dg fl s D1 L1 D2 L2 Hf. unfold m_xrefline. cbv zeta.
  rewrite run_digits by auto. cbn [app]. rewrite L1.
  replace (10 <=? 10 + run_len is_digit (32%Z :: dg ++ 32%Z :: fl :: s))%nat with true by (symmetry; apply Nat.leb_le; lia).
  assert (S1 : skipn 10 (dn ++ 32 :: dg ++ 32 :: fl :: s) = 32 :: dg ++ 32 :: fl :: s)
    by (rewrite <- L1, skipn_app, skipn_all, Nat.sub_diag; reflexivity).
  assert (S2 : skipn 5 (dg ++ 32 :: fl :: s) = 32 :: fl :: s)
    by (rewrite <- L2, skipn_app, skipn_all, Nat.sub_diag; reflexivity).
  rewrite S1.
  assert (K : run_len is_blank (32 :: dg ++ 32 :: fl :: s) = 1%nat).
  { cbn [run_len]. change (is_blank 32) with true. cbn iota. f_equal.
    destruct dg as [|y dg]; [discriminate|]. cbn [app run_len]. cbn [forallb] in D2. apply andb_true_iff in D2. destruct D2 as [D2 _].
    replace (is_blank y) with false; [reflexivity|]. unfold is_digit, is_blank in *. lia. }
  rewrite K. change (skipn 1 (32 :: dg ++ 32 :: fl :: s)) with (dg ++ 32 :: fl :: s). rewrite run_digits by auto. rewrite L2.
  replace ((1 <=? 1)%nat && (5 <=? 5 + run_len is_digit (32%Z :: fl :: s))%nat) with true
    by (symmetry; apply andb_true_iff; split; apply Nat.leb_le; lia).
  rewrite S2. change (is_blank 32) with true. destruct Hf as [-> | ->]; reflexivity.
Qed.

Lemma find_skip : forall m a s pos, find_all_aux m pos (List.length a) (a ++ s) = find_all_aux m (pos + List.length a) 0 s.
Proof.
  induction a as [|c a IH]; intros s pos.
  - cbn [app List.length]. now rewrite Nat.add_0_r.
  - cbn [app List.length find_all_aux]. rewrite IH. f_equal. lia.
Qed.

Lemma find_hit : forall m c a s pos, m (c :: a ++ s) = Some (S (List.length a)) ->
  find_all_aux m pos 0 (c :: a ++ s) = (pos, (pos + S (List.length a))%nat) :: find_all_aux m (pos + S (List.length a)) 0 s.
Proof. intros. cbn [find_all_aux]. rewrite H, find_skip. f_equal. f_equal. lia. Qed.

Definition is_row (r : bytes) : Prop := exists dn dg fl, r = dn ++ [32] ++ dg ++ [32; fl] ++ [32; 10] /\
  forallb is_digit dn = true /\ List.length dn = 10%nat /\ forallb is_digit dg = true /\ List.length dg = 5%nat /\ (fl = 102 \/ fl = 110).

Lemma find_row : forall r s pos, is_row r ->
  find_all_aux m_xrefline pos 0 (r ++ s) = (pos, (pos + 18)%nat) :: find_all_aux m_xrefline (pos + 20) 0 s.
Proof.
  intros r s pos (dn & dg & fl & -> & D1 & L1 & D2 & L2 & Hf).
  pose proof (row_match dn dg fl ([32; 10] ++ s) D1 L1 D2 L2 Hf) as M.
  set (w := dn ++ [32] ++ dg ++ [32; fl]) in *.
  assert (Lw : List.length w = 18%nat) by (unfold w; rewrite !app_length, L1, L2; reflexivity).
  replace ((dn ++ [32] ++ dg ++ [32; fl] ++ [32; 10]) ++ s) with (w ++ [32; 10] ++ s) by (unfold w; rewrite <- !app_assoc; reflexivity).
  replace (dn ++ [32] ++ dg ++ [32; fl] ++ [32; 10] ++ s) with (w ++ [32; 10] ++ s) in M by (unfold w; rewrite <- !app_assoc; reflexivity).
  clearbody w. destruct w as [|c w]; [discriminate|]. cbn [List.length] in Lw.
  change ((c :: w) ++ [32; 10] ++ s) with (c :: w ++ [32; 10] ++ s) in *.
  rewrite find_hit by (rewrite M; f_equal; lia). rewrite Lw.
  rewrite (quiet_skip m_xrefline [32; 10]) by (apply quiet_text; reflexivity).
  f_equal. cbn [List.length]. f_equal. lia.
Qed.

Fixpoint row_spans (pos n : nat) : list (nat * nat) :=
  match n with O => [] | S n => (pos, (pos + 18)%nat) :: row_spans (pos + 20) n end.

Lemma find_rows : forall rs s pos, Forall is_row rs ->
  find_all_aux m_xrefline pos 0 (concat rs ++ s) = row_spans pos (List.length rs) ++ find_all_aux m_xrefline (pos + 20 * List.length rs) 0 s.
Proof.
  induction rs as [|r rs IH]; intros s pos H.
  - cbn [concat app List.length row_spans]. now rewrite Nat.mul_0_r, Nat.add_0_r.
  - inversion H; subst. cbn [concat]. rewrite <- app_assoc, find_row by auto. rewrite IH by auto.
    cbn [List.length row_spans app]. do 2 f_equal. f_equal. lia.
Qed.

(** Matches that start before the word "xref" end before it. *)
Lemma xref_len : forall a t n, m_xrefline (a ++ 120 :: t) = Some n -> (n <= List.length a)%nat.
Proof.
  intros a t n H.
  assert (G : forall f x, f 120 = false -> (run_len f (x ++ 120%Z :: t) <= List.length x)%nat).
  { intros f x Hf. induction x as [|y x IH]; cbn [app run_len List.length]; [rewrite Hf; lia|]. destruct (f y); lia. }
  unfold m_xrefline in H.
  destruct (Nat.leb_spec 10 (run_len is_digit (a ++ 120%Z :: t))) as [L|L]; [|discriminate].
  pose proof (G is_digit a eq_refl) as G1. cbn zeta in H.
  rewrite (skipn_app 10 a) in H. replace (10 - List.length a)%nat with O in H by lia. change (skipn 0 (120 :: t)) with (120 :: t) in H.
  set (a1 := skipn 10 a) in *. assert (La : List.length a1 = (List.length a - 10)%nat) by (unfold a1; apply skipn_length).
  pose proof (G is_blank a1 eq_refl) as G2.
  set (k := run_len is_blank (a1 ++ 120 :: t)) in *.
  rewrite (skipn_app k a1) in H. replace (k - List.length a1)%nat with O in H by lia. change (skipn 0 (120 :: t)) with (120 :: t) in H.
  set (a2 := skipn k a1) in *. assert (L2 : List.length a2 = (List.length a1 - k)%nat) by (unfold a2; apply skipn_length).
  destruct ((1 <=? k)%nat && (5 <=? run_len is_digit (a2 ++ 120%Z :: t))%nat) eqn:E; [|discriminate].
  apply andb_true_iff in E. destruct E as [E1 E2]. apply Nat.leb_le in E2.
  pose proof (G is_digit a2 eq_refl) as G3.
  rewrite (skipn_app 5 a2) in H. replace (5 - List.length a2)%nat with O in H by lia. change (skipn 0 (120 :: t)) with (120 :: t) in H.
  set (a3 := skipn 5 a2) in *. assert (L3 : List.length a3 = (List.length a2 - 5)%nat) by (unfold a3; apply skipn_length).
  destruct a3 as [|c [|d a3]]; cbn [app] in H.
  - destruct t as [|y t]; cbv iota in H; [discriminate H|]. change (is_blank 120) with false in H. cbn [andb] in H. discriminate H.
  - change ((120 =? 102) || (120 =? 44) || (120 =? 110)) with false in H. rewrite andb_false_r in H. discriminate H.
  - destruct (is_blank c && _) in H; [|discriminate]. injection H as <-. cbn [List.length] in L3. lia.
Qed.

Lemma rows_after : forall raw start a t pos skip acc, (skip <= List.length a)%nat -> (pos + List.length a <= start)%nat ->
  xref_rows_of raw start (find_all_aux m_xrefline pos skip (a ++ 120 :: t)) acc =
  xref_rows_of raw start (find_all_aux m_xrefline (pos + List.length a) 0 (120 :: t)) acc.
Proof.
  intros raw start a t. induction a as [|c a IH]; intros pos skip acc Hs Hp.
  - cbn [List.length] in Hs. assert (skip = O) by lia. subst. cbn [app List.length]. now rewrite Nat.add_0_r.
  - cbn [List.length] in *. replace (pos + S (List.length a))%nat with (S pos + List.length a)%nat by lia.
    cbn [app find_all_aux]. destruct skip as [|skip]; [|apply IH; lia].
    destruct (m_xrefline (c :: a ++ 120 :: t)) as [[|n]|] eqn:E; try (apply IH; lia).
    apply (xref_len (c :: a)) in E. cbn [List.length] in E. cbn [xref_rows_of].
    destruct (Nat.ltb_spec pos start); [|lia]. apply IH; lia.
Qed.
