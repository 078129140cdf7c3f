From Coq Require Import String List ZArith Lia Bool.
From Verif Require Import Base BaseProofs Output Md5Rc4 Crypto CryptoSpec CryptoProofs ApiIds Alias AliasSpec.
Open Scope Z_scope.
Open Scope list_scope.

Local Opaque protectionPadding.

Lemma list_ext : forall A (a b : list A), (forall i, nth_error a i = nth_error b i) -> a = b.
Proof.
  induction a as [|x a IH]; intros [|y b] H; [reflexivity| specialize (H 0%nat); discriminate| specialize (H 0%nat); discriminate|].
  pose proof (H 0%nat) as H0. cbn in H0. f_equal; [congruence|]. apply IH. intros i. exact (H (S i)).
Qed.
Lemma nth_firstn : forall A (l : list A) n i, nth_error (firstn n l) i = if (i <? n)%nat then nth_error l i else None.
Proof.
  induction l as [|x l IH]; intros [|n] [|i]; try reflexivity; cbn [firstn nth_error]; try (destruct (_ <? _)%nat; reflexivity). exact (IH n i).
Qed.
Lemma nth_skipn : forall A (l : list A) n i, nth_error (skipn n l) i = nth_error l (n + i).
Proof. induction l as [|x l IH]; intros [|n] i; try reflexivity; cbn; [destruct i; reflexivity|]. apply IH. Qed.
Lemma nth_app : forall A (a b : list A) i, nth_error (a ++ b) i = if (i <? List.length a)%nat then nth_error a i else nth_error b (i - List.length a).
Proof.
  intros A a b i. destruct (Nat.ltb_spec i (List.length a)); [apply nth_error_app1; assumption| apply nth_error_app2; lia].
Qed.

Lemma nth_write : forall a p b i, (p + List.length b <= List.length a)%nat ->
  nth_error (write_at a p b) i = if (p <=? i)%nat && (i <? p + List.length b)%nat then nth_error b (i - p) else nth_error a i.
Proof.
  intros a p b i L. unfold write_at. rewrite nth_app, nth_app, nth_firstn, nth_skipn, !firstn_length, Nat.min_l by lia.
  destruct (Nat.ltb_spec i p); destruct (Nat.leb_spec p i); try lia; [reflexivity|]. cbn [andb].
  destruct (Nat.ltb_spec (i - p) (List.length b)); destruct (Nat.ltb_spec i (p + List.length b)); try lia; [reflexivity|]. f_equal. lia.
Qed.
Lemma write_len : forall a p b, (p + List.length b <= List.length a)%nat -> List.length (write_at a p b) = List.length a.
Proof. intros. unfold write_at. rewrite !app_length, firstn_length, skipn_length. lia. Qed.

Lemma nth_array : forall m s i, nth_error (array m s) i = cell m (s_arr s) i.
Proof.
  intros m s i. unfold array, cell. destruct (nth_error m (s_arr s)) as [a|] eqn:E.
  - rewrite (nth_error_nth _ _ _ E). reflexivity.
  - rewrite nth_overflow by (apply nth_error_None; exact E). destruct i; reflexivity.
Qed.
Lemma nth_view : forall m s n i, nth_error (view_to m s n) i = if (i <? n)%nat then cell m (s_arr s) (s_off s + i) else None.
Proof. intros. unfold view_to. rewrite nth_firstn, nth_skipn, nth_array. reflexivity. Qed.
Lemma view_len : forall m s, valid m s -> List.length (view m s) = s_len s.
Proof. intros m s (A & C & D). unfold view, view_to. rewrite firstn_length, skipn_length. lia. Qed.

Definition roomyb (s : gslice) : bool := (s_len s + List.length protectionPadding <=? s_cap s)%nat.
Lemma roomy_spec : forall s, roomyb s = true <-> roomy s.
Proof. intros s. unfold roomyb, roomy. rewrite padding_len. apply Nat.leb_le. Qed.

Lemma array_eq : forall m s, valid m s -> nth_error m (s_arr s) = Some (array m s).
Proof. intros m s (A & _). apply nth_error_nth'. exact A. Qed.

(** What append does to the memory that was there. *)
Lemma append_cell : forall g m s m1 s1 k i, valid m s -> append g m s protectionPadding = (m1, s1) -> (k < List.length m)%nat ->
  (spare s k i -> cell m1 k i = nth_error protectionPadding (i - (s_off s + s_len s))) /\ (~ spare s k i -> cell m1 k i = cell m k i).
Proof.
  intros g m s m1 s1 k i V E Hk. unfold append in E. destruct (Nat.leb_spec (s_len s + List.length protectionPadding) (s_cap s)) as [R|R]; rewrite padding_len in R.
  - injection E as <- <-. unfold cell. destruct (Nat.eq_dec k (s_arr s)) as [->|N].
    + rewrite nth_set, (array_eq _ _ V). cbn [option_map]. destruct V as (_ & V1 & V2).
      rewrite nth_write by (rewrite padding_len; lia). rewrite padding_len. split; intros H.
      * destruct H as (_ & _ & H). destruct (Nat.leb_spec (s_off s + s_len s) i); destruct (Nat.ltb_spec i (s_off s + s_len s + 32)); try lia. reflexivity.
      * destruct (Nat.leb_spec (s_off s + s_len s) i); destruct (Nat.ltb_spec i (s_off s + s_len s + 32)); try reflexivity. destruct H. repeat split; [exact R| lia| lia].
    + rewrite nth_set_other by exact N. split; [intros (H & _); contradiction| reflexivity].
  - injection E as <- <-. unfold cell. rewrite nth_error_app1 by exact Hk. split; [intros (_ & H & _); unfold roomy in H; lia| reflexivity].
Qed.
Lemma set_len : forall A (f : A -> A) n l, List.length (set_nth n f l) = List.length l.
Proof. intros A f n l. revert n. induction l as [|x l IH]; intros [|n]; try reflexivity. cbn. f_equal. apply IH. Qed.
Lemma append_grows : forall g m s m1 s1, append g m s protectionPadding = (m1, s1) -> (List.length m <= List.length m1)%nat.
Proof.
  intros g m s m1 s1 E. unfold append in E. destruct (_ <=? _)%nat; injection E as <- _; [rewrite set_len; lia| rewrite app_length; lia].
Qed.
Lemma append_arrays : forall g m s m1 s1 k, valid m s -> append g m s protectionPadding = (m1, s1) -> (k < List.length m)%nat ->
  List.length (nth k m1 []) = List.length (nth k m []).
Proof.
  intros g m s m1 s1 k V E Hk. unfold append in E. destruct (Nat.leb_spec (s_len s + List.length protectionPadding) (s_cap s)) as [R|R]; injection E as <- _.
  - destruct (Nat.eq_dec k (s_arr s)) as [->|N].
    + assert (X := nth_set _ m (s_arr s) (fun a => write_at a (s_off s + s_len s) protectionPadding)). rewrite (array_eq _ _ V) in X. cbn [option_map] in X.
      rewrite (nth_error_nth _ _ _ X). fold (array m s). destruct V as (_ & V1 & V2). apply write_len. lia.
    + f_equal. assert (X := nth_set_other _ m (s_arr s) k (fun a => write_at a (s_off s + s_len s) protectionPadding) N).
      destruct (nth_error m k) as [a|] eqn:Y; [|apply nth_error_None in Y; lia]. rewrite (nth_error_nth _ _ _ X), (nth_error_nth _ _ _ Y). reflexivity.
  - rewrite app_nth1 by exact Hk. reflexivity.
Qed.
Lemma valid_after : forall g m s m1 s1 t, valid m s -> append g m s protectionPadding = (m1, s1) -> valid m t -> valid m1 t.
Proof.
  intros g m s m1 s1 t V E (A & C & D). pose proof (append_grows _ _ _ _ _ E). split; [lia|]. split; [exact C|].
  unfold array. rewrite (append_arrays _ _ _ _ _ _ V E A). exact D.
Qed.

(** The slice that comes back, read up to 32 bytes. *)
Lemma append_reads : forall g m s m1 s1, valid m s -> append g m s protectionPadding = (m1, s1) ->
  view_to m1 s1 32 = padded (view m s).
Proof.
  intros g m s m1 s1 V E. apply list_ext. intros i. unfold padded. rewrite <- padding_eq, nth_view, nth_firstn. destruct (Nat.ltb_spec i 32) as [Hi|]; [|reflexivity].
  rewrite nth_app, (view_len _ _ V). unfold view. rewrite nth_view.
  pose proof (fun k => append_cell _ _ _ _ _ k (s_off s + i) V E) as C.
  unfold append in E. destruct (Nat.leb_spec (s_len s + List.length protectionPadding) (s_cap s)) as [R|R]; rewrite padding_len in R; injection E as E1 <-; cbn [s_arr s_off].
  - destruct (C (s_arr s) (proj1 V)) as (C1 & C2). destruct (Nat.ltb_spec i (s_len s)).
    + apply C2. intros (_ & _ & H0). lia.
    + rewrite C1; [f_equal; lia|]. repeat split; [exact R| lia| lia].
  - rewrite <- E1. unfold cell. rewrite nth_error_app2, Nat.sub_diag by lia. cbn [nth_error].
    change (0 + i)%nat with i. rewrite nth_app, (view_len _ _ V), nth_app. unfold view. rewrite nth_view. fold (cell m (s_arr s) (s_off s + i)).
    destruct (Nat.ltb_spec i (s_len s)); [reflexivity|]. destruct (Nat.ltb_spec (i - s_len s) (List.length protectionPadding)) as [_|X]; [reflexivity|rewrite padding_len in X; lia].
Qed.

(** A view that is not spoiled stays. *)
Lemma append_keeps : forall g m s m1 s1 t n, valid m s -> append g m s protectionPadding = (m1, s1) -> (s_arr t < List.length m)%nat ->
  ~ spoils s t n -> view_to m1 t n = view_to m t n.
Proof.
  intros g m s m1 s1 t n V E Ht S. apply list_ext. intros i. rewrite !nth_view. destruct (Nat.ltb_spec i n); [|reflexivity].
  destruct (append_cell _ _ _ _ _ (s_arr t) (s_off t + i) V E Ht) as (_ & C). apply C. intros H0. apply S. exists (s_off t + i)%nat. split; [exact H0|lia].
Qed.

Definition result (u32 o32 : bytes) (prot : Z) : res protection :=
  do ov <- createOValue u32 o32; do uk <- createUValue u32 ov prot; Ok (mkProt (fst uk) ov (- (Z.lxor prot 255 + 1)) (snd uk)).
Lemma generate_eq : forall user owner prot, generateEncryptionKey user owner prot = result (padded user) (padded owner) prot.
Proof. intros. unfold generateEncryptionKey, padded. rewrite <- padding_eq. reflexivity. Qed.

(** The slice append gives back for the user password. *)
Lemma append_slice : forall g m s m1 s1, append g m s protectionPadding = (m1, s1) ->
  (roomy s /\ s_arr s1 = s_arr s /\ s_off s1 = s_off s) \/ (~ roomy s /\ s_arr s1 = List.length m /\ (s_arr s1 < List.length m1)%nat).
Proof.
  intros g m s m1 s1 E. unfold append in E. destruct (Nat.leb_spec (s_len s + List.length protectionPadding) (s_cap s)) as [R|R]; rewrite padding_len in R; injection E as <- <-.
  - left. repeat split. exact R.
  - right. split; [unfold roomy; lia|]. split; [reflexivity|]. rewrite app_length. cbn. lia.
Qed.

Section Generate.
  Variables (g1 g2 : nat) (m : memory) (user owner : gslice) (prot : Z).
  Hypothesis (Vu : valid m user) (Vo : valid m owner).

  (** Nothing spoiled: as with copies. *)
  Lemma generate_apart : ~ spoils user owner (s_len owner) -> (roomy user -> ~ spoils owner user 32) ->
    snd (generate_mem g1 g2 m user owner prot) = generateEncryptionKey (view m user) (view m owner) prot.
  Proof.
    intros S1 S2. unfold generate_mem. destruct (append g1 m user protectionPadding) as [m1 u] eqn:E1. destruct (append g2 m1 owner protectionPadding) as [m2 o] eqn:E2.
    cbn [snd]. rewrite generate_eq. fold (result (view_to m2 u 32) (view_to m2 o 32) prot).
    pose proof (valid_after _ _ _ _ _ _ Vu E1 Vo) as Vo1. pose proof (append_grows _ _ _ _ _ E1) as G.
    rewrite (append_reads _ _ _ _ _ Vo1 E2). unfold view at 1. rewrite (append_keeps _ _ _ _ _ owner _ Vu E1 (proj1 Vo) S1). fold (view m owner).
    rewrite <- (append_reads _ _ _ _ _ Vu E1). f_equal.
    destruct (append_slice _ _ _ _ _ E1) as [(R & A & O)|(R & A & L)].
    - apply (append_keeps _ _ _ _ _ u 32 Vo1 E2); [rewrite A; exact (proj1 Vo1) || (pose proof (proj1 Vu); lia)|].
      intros (i & (H1 & H2) & H3). apply (S2 R). exists i. split; [split; [congruence|exact H2]| rewrite <- O; exact H3].
    - apply (append_keeps _ _ _ _ _ u 32 Vo1 E2 L). intros (i & (H1 & _) & _). pose proof (proj1 Vo). lia.
  Qed.

  (** The user password right behind the owner password, both with room: the user
      password that is used is the empty one. *)
  Lemma generate_behind : behind owner user -> roomy owner -> roomy user ->
    snd (generate_mem g1 g2 m user owner prot) = generateEncryptionKey [] (view m owner) prot.
  Proof.
    intros (A & O) Ro Ru. unfold generate_mem. destruct (append g1 m user protectionPadding) as [m1 u] eqn:E1. destruct (append g2 m1 owner protectionPadding) as [m2 o] eqn:E2.
    cbn [snd]. rewrite generate_eq. fold (result (view_to m2 u 32) (view_to m2 o 32) prot).
    pose proof (valid_after _ _ _ _ _ _ Vu E1 Vo) as Vo1.
    rewrite (append_reads _ _ _ _ _ Vo1 E2). unfold view at 1. rewrite (append_keeps _ _ _ _ _ owner _ Vu E1 (proj1 Vo)).
    2:{ intros (i & (_ & _ & H) & H0). lia. }
    fold (view m owner). f_equal. destruct (append_slice _ _ _ _ _ E1) as [(_ & Au & Ou)|(R & _)]; [|contradiction].
    apply list_ext. intros i. rewrite nth_view. change (padded []) with (firstn 32 pdf_padding). rewrite nth_firstn, <- padding_eq.
    destruct (Nat.ltb_spec i 32); [|reflexivity]. rewrite Au, Ou, A, O.
    destruct (append_cell _ _ _ _ _ (s_arr owner) (s_off owner + s_len owner + i) Vo1 E2 (proj1 Vo1)) as (C & _).
    rewrite C; [f_equal; lia|]. repeat split; [exact Ro| lia| lia].
  Qed.

  (** One slice for both. *)
  Lemma generate_same : owner = user -> snd (generate_mem g1 g2 m user owner prot) = generateEncryptionKey (view m user) (view m owner) prot.
  Proof.
    intros ->. unfold generate_mem. destruct (append g1 m user protectionPadding) as [m1 u] eqn:E1. destruct (append g2 m1 user protectionPadding) as [m2 o] eqn:E2.
    cbn [snd]. rewrite generate_eq. fold (result (view_to m2 u 32) (view_to m2 o 32) prot).
    pose proof (valid_after _ _ _ _ _ _ Vu E1 Vu) as Vu1.
    assert (S0 : ~ spoils user user (s_len user)) by (intros (i & (_ & _ & H) & H0); lia).
    assert (Q : view_to m2 o 32 = padded (view m user)).
    { rewrite (append_reads _ _ _ _ _ Vu1 E2). unfold view at 1. rewrite (append_keeps _ _ _ _ _ user _ Vu E1 (proj1 Vu) S0). reflexivity. }
    rewrite Q. f_equal. destruct (append_slice _ _ _ _ _ E1) as [(R & A & O)|(R & A & L)].
    - destruct (append_slice _ _ _ _ _ E2) as [(_ & A2 & O2)|(R2 & _)]; [|contradiction].
      rewrite <- Q. apply list_ext. intros i. rewrite !nth_view, A, O, A2, O2. reflexivity.
    - rewrite <- (append_reads _ _ _ _ _ Vu E1). apply (append_keeps _ _ _ _ _ u 32 Vu1 E2 L). intros (i & (H1 & _) & _). pose proof (proj1 Vu). lia.
  Qed.

  (** Bytes of the caller's arrays that are not spare bytes of one of the two stay. *)
  Lemma generate_cells : forall k i, (k < List.length m)%nat -> ~ spare user k i -> ~ spare owner k i ->
    cell (fst (generate_mem g1 g2 m user owner prot)) k i = cell m k i.
  Proof.
    intros k i Hk N1 N2. unfold generate_mem. destruct (append g1 m user protectionPadding) as [m1 u] eqn:E1. destruct (append g2 m1 owner protectionPadding) as [m2 o] eqn:E2.
    cbn [fst]. pose proof (append_grows _ _ _ _ _ E1) as G.
    rewrite (proj2 (append_cell _ _ _ _ _ k i (valid_after _ _ _ _ _ _ Vu E1 Vo) E2 ltac:(lia)) N2).
    exact (proj2 (append_cell _ _ _ _ _ k i Vu E1 Hk) N1).
  Qed.
End Generate.

Lemma valid_more : forall m x s, valid m s -> valid (m ++ x) s.
Proof. intros m x s (A & C & D). split; [rewrite app_length; lia|]. split; [exact C|]. unfold array. rewrite app_nth1 by exact A. exact D. Qed.
Lemma valid_own : forall m rnd, valid (m ++ [rnd]) (mkSlice (List.length m) 0 (List.length rnd) (List.length rnd)).
Proof.
  intros m rnd. split; [cbn; rewrite app_length; cbn; lia|]. split; [cbn; lia|]. unfold array. cbn [s_arr s_off s_cap].
  rewrite app_nth2, Nat.sub_diag by lia. cbn. lia.
Qed.
Lemma view_own : forall m rnd, view (m ++ [rnd]) (mkSlice (List.length m) 0 (List.length rnd) (List.length rnd)) = rnd.
Proof. intros. unfold view, view_to, array. cbn [s_arr s_off s_len]. rewrite app_nth2, Nat.sub_diag by lia. cbn. apply firstn_all. Qed.
Lemma view_more : forall m x s, valid m s -> view (m ++ x) s = view m s.
Proof. intros m x s (A & _). unfold view, view_to, array. rewrite app_nth1 by exact A. reflexivity. Qed.
Lemma view_nil : forall m s, valid m s -> s_len s = 0%nat <-> view m s = [].
Proof. intros m s V. rewrite <- (view_len _ _ V). destruct (view m s); cbn; split; congruence || discriminate. Qed.

(** ** setProtection *)

Theorem protect_apart : forall g1 g2 m rnd perm user owner, valid m user -> valid m owner ->
  ~ spoils user owner (s_len owner) -> ~ spoils owner user 32 ->
  snd (protect_mem g1 g2 m rnd perm user owner) = setProtection rnd perm (view m user) (view m owner).
Proof.
  intros g1 g2 m rnd perm user owner Vu Vo S1 S2. unfold protect_mem, setProtection. destruct (Nat.eqb_spec (s_len owner) 0) as [Z|Z].
  - rewrite (proj1 (view_nil _ _ Vo) Z), (generate_apart g1 g2 _ _ _ _ (valid_more _ _ _ Vu) (valid_own m rnd)), view_own, (view_more _ _ _ Vu); [reflexivity| |].
    + intros (i & (H & _) & _). cbn in H. pose proof (proj1 Vu). lia.
    + intros _ (i & (H & _) & _). cbn in H. pose proof (proj1 Vu). lia.
  - rewrite generate_apart by auto. destruct (view m owner) eqn:E; [|reflexivity]. destruct Z. exact (proj2 (view_nil _ _ Vo) E).
Qed.

Theorem protect_same : forall g1 g2 m rnd perm pw, valid m pw ->
  snd (protect_mem g1 g2 m rnd perm pw pw) = setProtection rnd perm (view m pw) (view m pw).
Proof.
  intros g1 g2 m rnd perm pw V. destruct (Nat.eq_dec (s_len pw) 0) as [Z|Z].
  - unfold protect_mem, setProtection. rewrite Z, (proj1 (view_nil _ _ V) Z). cbn [Nat.eqb].
    rewrite (generate_apart g1 g2 _ _ _ _ (valid_more _ _ _ V) (valid_own m rnd)), view_own, (view_more _ _ _ V), (proj1 (view_nil _ _ V) Z); [reflexivity| |].
    + intros (i & (H & _) & _). cbn in H. pose proof (proj1 V). lia.
    + intros _ (i & (H & _) & _). cbn in H. pose proof (proj1 V). lia.
  - unfold protect_mem, setProtection. destruct (Nat.eqb_spec (s_len pw) 0) as [?|_]; [contradiction|]. rewrite generate_same by auto.
    destruct (view m pw) eqn:E; [|reflexivity]. destruct Z. exact (proj2 (view_nil _ _ V) E).
Qed.

Theorem protect_behind : forall g1 g2 m rnd perm user owner, 0 <= perm < 256 -> valid m user -> valid m owner ->
  behind owner user -> roomy owner -> roomy user -> s_len owner <> 0%nat ->
  exists pr, snd (protect_mem g1 g2 m rnd perm user owner) = Ok pr /\
    user_opens [] (oValue pr) (uValue pr) (pValue pr) [] /\ owner_opens (view m owner) (oValue pr) (uValue pr) (pValue pr) [].
Proof.
  intros g1 g2 m rnd perm user owner P Vu Vo Hb Ro Ru Z. destruct (passwords_open rnd perm [] (view m owner) P) as (pr & E & U & W & _).
  assert (N : view m owner <> []) by (intros H; apply Z; exact (proj2 (view_nil _ _ Vo) H)).
  exists pr. split; [|split; [exact U| exact (W N)]]. rewrite <- E. unfold protect_mem, setProtection. destruct (Nat.eqb_spec (s_len owner) 0) as [?|_]; [contradiction|].
  rewrite generate_behind by assumption. destruct (view m owner); [contradiction|reflexivity].
Qed.

Theorem protect_cells : forall g1 g2 m rnd perm user owner k i, valid m user -> valid m owner -> (k < List.length m)%nat ->
  ~ spare user k i -> ~ spare owner k i -> cell (fst (protect_mem g1 g2 m rnd perm user owner)) k i = cell m k i.
Proof.
  intros g1 g2 m rnd perm user owner k i Vu Vo Hk N1 N2. unfold protect_mem. destruct (Nat.eqb_spec (s_len owner) 0) as [Z|Z]; [|apply generate_cells; assumption].
  rewrite (generate_cells g1 g2 _ _ _ _ (valid_more _ _ _ Vu) (valid_own m rnd)); [|rewrite app_length; lia| exact N1|].
  - unfold cell. rewrite nth_error_app1 by exact Hk. reflexivity.
  - intros (H & _). cbn in H. lia.
Qed.

(** ** Cases *)

(** One buffer: "userowner" and 40 free bytes. *)
Definition buf : bytes := B"userowner" ++ repeat 0 40.
Definition sl (off len : nat) : gslice := mkSlice 0 off len (49 - off).
Lemma sl_valid : forall off len, (off + len <= 49)%nat -> valid [buf] (sl off len).
Proof. intros off len H. unfold valid, sl. cbn [s_arr s_off s_len s_cap]. split; [cbn; lia|]. split; [lia|]. change (List.length (array [buf] _)) with 49%nat. lia. Qed.
