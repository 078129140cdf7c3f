(** Reading a TrueType file: the numbers pdft takes from the file are the ones
    the OpenType specification puts there. *)
From Coq Require Import String List ZArith Lia Bool.
From Verif Require Import Base BaseProofs Ttf TtfSpec.
Open Scope Z_scope.
Open Scope list_scope.

(** ** Reading numbers *)
Lemma u8_pos : forall d p v, u8 d p = Some v -> 0 <= p < blen d.
Proof.
  intros d p v. unfold u8, blen. destruct (Z.ltb_spec p 0); [discriminate|]. intros H1.
  assert (Z.to_nat p < List.length d)%nat by (apply nth_error_Some; congruence). lia.
Qed.

Lemma u8_some : forall d p, 0 <= p < blen d -> exists v, u8 d p = Some v.
Proof.
  intros d p H. unfold u8, blen in *. destruct (Z.ltb_spec p 0); [lia|].
  destruct (nth_error d (Z.to_nat p)) eqn:E; [eauto|]. apply nth_error_None in E. lia.
Qed.

Lemma u16_pos : forall d p v, u16 d p = Some v -> 0 <= p /\ p + 2 <= blen d.
Proof.
  intros d p v. unfold u16. destruct (u8 d p) eqn:E; [|discriminate]. destruct (u8 d (p + 1)) eqn:E1; [|discriminate].
  apply u8_pos in E. apply u8_pos in E1. lia.
Qed.

Lemma u32_pos : forall d p v, u32 d p = Some v -> 0 <= p /\ p + 4 <= blen d.
Proof.
  intros d p v. unfold u32. destruct (u16 d p) eqn:E; [|discriminate]. destruct (u16 d (p + 2)) eqn:E1; [|discriminate].
  apply u16_pos in E. apply u16_pos in E1. lia.
Qed.

Lemma skip_cons : forall (d : bytes) n, (n < List.length d)%nat ->
  exists a, nth_error d n = Some a /\ skipn n d = a :: skipn (S n) d.
Proof.
  induction d as [|x d IH]; intros n H; [simpl in H; lia|]. destruct n as [|n]; [exists x; auto|].
  simpl in H. destruct (IH n ltac:(lia)) as (a & E1 & E2). exists a. split; [exact E1|].
  change (skipn (S n) (x :: d)) with (skipn n d). rewrite E2. reflexivity.
Qed.

Lemma readN_eq : forall d p n, 0 <= p -> 0 < n ->
  readN d p n = match bytes_at d p n with Some b => Ok (b, p + n) | None => Err EOther end.
Proof.
  intros d p n Hp Hn. unfold readN, bytes_at.
  destruct (Z.leb_spec (blen d) p).
  { destruct (Z.leb_spec (p + n) (blen d)); [lia|]. rewrite !andb_false_r. reflexivity. }
  destruct (Z.leb_spec 0 p); [|lia]. destruct (Z.leb_spec 0 n); [|lia]. cbn [andb].
  assert (E : blen (firstn (Z.to_nat n) (skipn (Z.to_nat p) d)) = Z.min n (blen d - p)).
  { unfold blen. rewrite firstn_length, skipn_length. unfold blen in *. lia. }
  rewrite E. destruct (Z.leb_spec (p + n) (blen d)).
  - destruct (Z.eqb_spec (Z.min n (blen d - p)) n); [reflexivity|lia].
  - destruct (Z.eqb_spec (Z.min n (blen d - p)) n); [lia|reflexivity].
Qed.

Lemma bytes_at2 : forall d p, bytes_at d p 2 = match u8 d p, u8 d (p + 1) with Some a, Some b => Some [a; b] | _, _ => None end.
Proof.
  intros d p. unfold bytes_at. destruct (Z.leb_spec 0 p); cbn [andb].
  2:{ unfold u8. destruct (Z.ltb_spec p 0); [reflexivity|lia]. }
  change (0 <=? 2) with true. cbn [andb].
  destruct (Z.leb_spec (p + 2) (blen d)).
  - destruct (skip_cons d (Z.to_nat p)) as (a & E1 & E2); [unfold blen in *; lia|].
    destruct (skip_cons d (S (Z.to_nat p))) as (b & E3 & E4); [unfold blen in *; lia|].
    unfold u8. destruct (Z.ltb_spec p 0); [lia|]. destruct (Z.ltb_spec (p + 1) 0); [lia|].
    replace (Z.to_nat (p + 1)) with (S (Z.to_nat p)) by lia. rewrite E1, E3, E2, E4. reflexivity.
  - destruct (u8 d p) eqn:E1; [|reflexivity]. destruct (u8 d (p + 1)) eqn:E2; [|reflexivity].
    apply u8_pos in E2. lia.
Qed.

Lemma bytes_at4 : forall d p, bytes_at d p 4 = match u8 d p, u8 d (p + 1), u8 d (p + 2), u8 d (p + 3) with
  Some a, Some b, Some c, Some e => Some [a; b; c; e] | _, _, _, _ => None end.
Proof.
  intros d p. unfold bytes_at. destruct (Z.leb_spec 0 p); cbn [andb].
  2:{ unfold u8. destruct (Z.ltb_spec p 0); [reflexivity|lia]. }
  change (0 <=? 4) with true. cbn [andb].
  destruct (Z.leb_spec (p + 4) (blen d)).
  - destruct (skip_cons d (Z.to_nat p)) as (a & E1 & E2); [unfold blen in *; lia|].
    destruct (skip_cons d (S (Z.to_nat p))) as (b & E3 & E4); [unfold blen in *; lia|].
    destruct (skip_cons d (S (S (Z.to_nat p)))) as (c & E5 & E6); [unfold blen in *; lia|].
    destruct (skip_cons d (S (S (S (Z.to_nat p))))) as (e & E7 & E8); [unfold blen in *; lia|].
    unfold u8. destruct (Z.ltb_spec p 0); [lia|]. destruct (Z.ltb_spec (p + 1) 0); [lia|].
    destruct (Z.ltb_spec (p + 2) 0); [lia|]. destruct (Z.ltb_spec (p + 3) 0); [lia|].
    replace (Z.to_nat (p + 1)) with (S (Z.to_nat p)) by lia.
    replace (Z.to_nat (p + 2)) with (S (S (Z.to_nat p))) by lia.
    replace (Z.to_nat (p + 3)) with (S (S (S (Z.to_nat p)))) by lia.
    rewrite E1, E3, E5, E7, E2, E4, E6, E8. reflexivity.
  - destruct (u8 d p) eqn:E1; [|reflexivity]. destruct (u8 d (p + 1)) eqn:E2; [|reflexivity].
    destruct (u8 d (p + 2)) eqn:E3; [|reflexivity]. destruct (u8 d (p + 3)) eqn:E4; [|reflexivity].
    apply u8_pos in E4. lia.
Qed.

Lemma readUShort_eq : forall d p, 0 <= p ->
  readUShort d p = match u16 d p with Some v => Ok (v, p + 2) | None => Err EOther end.
Proof.
  intros d p H. unfold readUShort. rewrite readN_eq, bytes_at2 by lia. unfold u16.
  destruct (u8 d p); [|reflexivity]. destruct (u8 d (p + 1)); [|reflexivity].
  cbn [bind]. unfold be. cbn [fold_left]. f_equal; f_equal; lia.
Qed.

Lemma readShort_eq : forall d p, 0 <= p ->
  readShort d p = match s16 d p with Some v => Ok (v, p + 2) | None => Err EOther end.
Proof. intros d p H. unfold readShort, s16. rewrite readUShort_eq by auto. destruct (u16 d p); reflexivity. Qed.

Lemma readULong_eq : forall d p, 0 <= p ->
  readULong d p = match u32 d p with Some v => Ok (v, p + 4) | None => Err EOther end.
Proof.
  intros d p H. unfold readULong. rewrite readN_eq, bytes_at4 by lia. unfold u32, u16.
  replace (p + 2 + 1) with (p + 3) by lia.
  destruct (u8 d p); [|reflexivity]. destruct (u8 d (p + 1)); [|reflexivity].
  destruct (u8 d (p + 2)); [|reflexivity]. destruct (u8 d (p + 3)); [|reflexivity].
  cbn [bind]. unfold be. cbn [fold_left]. f_equal; f_equal; lia.
Qed.

Lemma readUShort_ok : forall d p v q, 0 <= p -> readUShort d p = Ok (v, q) -> u16 d p = Some v /\ q = p + 2.
Proof. intros d p v q Hp H. rewrite readUShort_eq in H by auto. destruct (u16 d p); inversion H; auto. Qed.
Lemma readShort_ok : forall d p v q, 0 <= p -> readShort d p = Ok (v, q) -> s16 d p = Some v /\ q = p + 2.
Proof. intros d p v q Hp H. rewrite readShort_eq in H by auto. destruct (s16 d p); inversion H; auto. Qed.
Lemma readULong_ok : forall d p v q, 0 <= p -> readULong d p = Ok (v, q) -> u32 d p = Some v /\ q = p + 4.
Proof. intros d p v q Hp H. rewrite readULong_eq in H by auto. destruct (u32 d p); inversion H; auto. Qed.
Lemma readN_ok : forall d p n b q, 0 <= p -> 0 < n -> readN d p n = Ok (b, q) -> bytes_at d p n = Some b /\ q = p + n.
Proof. intros d p n b q Hp Hn H. rewrite readN_eq in H by auto. destruct (bytes_at d p n); inversion H; auto. Qed.

(** A reader never panics and never runs for ever. *)
Definition tame {A} (r : res A) : Prop := match r with Ok _ | Err _ => True | _ => False end.
Lemma tame_bind : forall A C (x : res A) (f : A -> res C), tame x -> (forall a, x = Ok a -> tame (f a)) -> tame (bind x f).
Proof. intros A C x f H1 H2. destruct x; cbn in *; auto. Qed.
Lemma readN_tame : forall d p n, tame (readN d p n).
Proof. intros. unfold readN. destruct (_ <=? _); [exact I|]. destruct (_ =? _); exact I. Qed.
Lemma readUShort_tame : forall d p, tame (readUShort d p).
Proof. intros. apply tame_bind; [apply readN_tame|]. intros [b q] _. exact I. Qed.
Lemma readShort_tame : forall d p, tame (readShort d p).
Proof. intros. apply tame_bind; [apply readUShort_tame|]. intros [b q] _. exact I. Qed.
Lemma readULong_tame : forall d p, tame (readULong d p).
Proof. intros. apply tame_bind; [apply readN_tame|]. intros [b q] _. exact I. Qed.

(** ** Loops *)
(** [f] reads records of [k] bytes *)
Definition steps {A} (d : bytes) (k : Z) (f : Z -> res (A * Z)) : Prop :=
  forall p a q, 0 <= p -> f p = Ok (a, q) -> q = p + k /\ p < blen d.

Lemma times_ok : forall A d k (f : Z -> res (A * Z)), 0 <= k -> steps d k f ->
  forall fuel n pos l q, 0 <= pos -> times f fuel n pos = Ok (l, q) ->
  List.length l = Z.to_nat n /\ q = pos + k * Z.max 0 n /\
  forall i a, nth_error l i = Some a -> f (pos + k * Z.of_nat i) = Ok (a, pos + k * Z.of_nat i + k).
Proof.
  intros A d k f Hk Hf. induction fuel as [|fuel IH]; intros n pos l q Hp H; cbn [times] in H.
  - destruct (Z.leb_spec n 0); [|discriminate]. inversion H; subst. split; [simpl; lia|]. split; [lia|].
    intros i a E. destruct i; discriminate.
  - destruct (Z.leb_spec n 0).
    { inversion H; subst. split; [simpl; lia|]. split; [lia|]. intros i a E. destruct i; discriminate. }
    apply bind_ok in H as ([a p1] & E1 & H). apply bind_ok in H as ([l1 p2] & E2 & H). inversion H; subst.
    destruct (Hf _ _ _ Hp E1) as [-> _]. destruct (IH (n - 1) (pos + k) l1 q ltac:(lia) E2) as (L & Q & N).
    split; [cbn [List.length]; lia|].
    split; [rewrite Q; replace (Z.max 0 n) with (1 + Z.max 0 (n - 1)) by lia; ring|].
    intros i x E. destruct i as [|i].
    + injection E as <-. replace (pos + k * Z.of_nat 0) with pos by lia. auto.
    + cbn [nth_error] in E. apply N in E. rewrite Nat2Z.inj_succ.
      replace (pos + k * Z.succ (Z.of_nat i)) with (pos + k + k * Z.of_nat i) by ring. auto.
Qed.

Lemma times_tame : forall A d k (f : Z -> res (A * Z)), 0 < k -> steps d k f -> (forall p, tame (f p)) ->
  forall fuel n pos, 0 <= pos -> (1 <= fuel)%nat -> blen d - pos < Z.of_nat fuel -> tame (times f fuel n pos).
Proof.
  intros A d k f Hk Hf Ht. induction fuel as [|fuel IH]; intros n pos Hp H1 Hb; [lia|]. cbn [times].
  destruct (Z.leb_spec n 0); [exact I|].
  apply tame_bind; [apply Ht|]. intros [a q] E. destruct (Hf _ _ _ Hp E) as [-> L].
  apply tame_bind; [apply IH; lia|]. intros [l q] _. exact I.
Qed.

Lemma loop_ok : forall A d k (f : Z -> res (A * Z)), 0 <= k -> steps d k f ->
  forall n pos l q, 0 <= pos -> loop d f n pos = Ok (l, q) ->
  List.length l = Z.to_nat n /\ q = pos + k * Z.max 0 n /\
  forall i a, nth_error l i = Some a -> f (pos + k * Z.of_nat i) = Ok (a, pos + k * Z.of_nat i + k).
Proof. intros. eapply times_ok; eauto. Qed.

Lemma loop_tame : forall A d k (f : Z -> res (A * Z)), 0 < k -> steps d k f -> (forall p, tame (f p)) ->
  forall n pos, 0 <= pos -> tame (loop d f n pos).
Proof. intros. eapply times_tame; eauto; [lia|]. unfold blen. lia. Qed.

Lemma ushort_steps : forall d, steps d 2 (readUShort d).
Proof. intros d p a q Hp H. apply readUShort_ok in H as [H ->]; auto. apply u16_pos in H. lia. Qed.
Lemma ulong_steps : forall d, steps d 4 (readULong d).
Proof. intros d p a q Hp H. apply readULong_ok in H as [H ->]; auto. apply u32_pos in H. lia. Qed.

(** Arrays of 16-bit numbers *)
Lemma ushorts_ok : forall d n pos l q, 0 <= pos -> 0 <= n -> loop d (readUShort d) n pos = Ok (l, q) ->
  Z.of_nat (List.length l) = n /\ q = pos + 2 * n /\ forall i, 0 <= i < n -> exists v, u16 d (pos + 2 * i) = Some v /\ at_ l i = Ok v.
Proof.
  intros d n pos l q Hp Hn H. destruct (loop_ok _ d 2 _ ltac:(lia) (ushort_steps d) _ _ _ _ Hp H) as (L & Q & N).
  split; [lia|]. split; [lia|]. intros i Hi.
  destruct (nth_error l (Z.to_nat i)) as [v|] eqn:E; [|apply nth_error_None in E; lia].
  exists v. split.
  - apply N in E. replace (Z.of_nat (Z.to_nat i)) with i in E by lia. apply readUShort_ok in E; [tauto|lia].
  - unfold at_. destruct (Z.ltb_spec i 0); [lia|]. rewrite E. reflexivity.
Qed.

Lemma at_range : forall A (l : list A) i v, at_ l i = Ok v -> 0 <= i < Z.of_nat (List.length l).
Proof.
  intros A l i v. unfold at_. destruct (Z.ltb_spec i 0); [discriminate|].
  destruct (nth_error l (Z.to_nat i)) eqn:E; [|discriminate]. intros _.
  assert (Z.to_nat i < List.length l)%nat by (apply nth_error_Some; congruence). lia.
Qed.

Lemma at_out : forall A (l : list A) i, i < 0 \/ Z.of_nat (List.length l) <= i -> at_ l i = Panic.
Proof.
  intros A l i H. unfold at_. destruct (Z.ltb_spec i 0); [reflexivity|].
  destruct (nth_error l (Z.to_nat i)) eqn:E; [|reflexivity].
  assert (Z.to_nat i < List.length l)%nat by (apply nth_error_Some; congruence). lia.
Qed.

(** ** Ranges of what is read *)
Definition bytep (c : Z) : Prop := 0 <= c <= 255.

Lemma u8_range : forall d p v, Forall bytep d -> u8 d p = Some v -> 0 <= v <= 255.
Proof.
  intros d p v Hb H. unfold u8 in H. destruct (p <? 0); [discriminate|].
  apply nth_error_In in H. rewrite Forall_forall in Hb. apply Hb in H. exact H.
Qed.
Lemma u16_range : forall d p v, Forall bytep d -> u16 d p = Some v -> 0 <= v <= 65535.
Proof.
  intros d p v Hb H. unfold u16 in H. destruct (u8 d p) eqn:E1; [|discriminate]. destruct (u8 d (p + 1)) eqn:E2; [|discriminate].
  apply u8_range in E1; auto. apply u8_range in E2; auto. assert (v = 256 * z + z0) by congruence. lia.
Qed.
Lemma u32_range : forall d p v, Forall bytep d -> u32 d p = Some v -> 0 <= v <= 4294967295.
Proof.
  intros d p v Hb H. unfold u32 in H. destruct (u16 d p) eqn:E1; [|discriminate]. destruct (u16 d (p + 2)) eqn:E2; [|discriminate].
  apply u16_range in E1; auto. apply u16_range in E2; auto. assert (v = 65536 * z + z0) by congruence. lia.
Qed.

(** ** The table directory *)
Definition entry_at (d : bytes) (i : Z) (x : bytes * entry) : Prop :=
  dir_tag d i = Some (fst x) /\ dir_sum d i = Some (checkSum (snd x)) /\ dir_off d i = Some (toffset (snd x)) /\ dir_len d i = Some (tlength (snd x)).

Definition directory (d : bytes) (t : tablemap) : Prop :=
  u16 d 4 = Some (Z.of_nat (List.length t)) /\ forall i x, nth_error t i = Some x -> entry_at d (Z.of_nat i) x.

Lemma readEntry_ok : forall d p x q, 0 <= p -> readEntry d p = Ok (x, q) ->
  q = p + 16 /\ p < blen d /\ bytes_at d p 4 = Some (fst x) /\ u32 d (p + 4) = Some (checkSum (snd x)) /\
  u32 d (p + 8) = Some (toffset (snd x)) /\ u32 d (p + 12) = Some (tlength (snd x)).
Proof.
  intros d p x q Hp H. unfold readEntry in H.
  apply bind_ok in H as ([tag p1] & E1 & H). apply readN_ok in E1 as [E1 ->]; try lia.
  apply bind_ok in H as ([cs p2] & E2 & H). apply readULong_ok in E2 as [E2 ->]; try lia.
  apply bind_ok in H as ([off p3] & E3 & H). apply readULong_ok in E3 as [E3 ->]; try lia.
  apply bind_ok in H as ([len p4] & E4 & H). apply readULong_ok in E4 as [E4 ->]; try lia.
  inversion H; subst. cbn [fst snd checkSum toffset tlength].
  pose proof (u32_pos _ _ _ E2).
  replace (p + 8) with (p + 4 + 4) by lia. replace (p + 12) with (p + 4 + 4 + 4) by lia.
  repeat split; auto; lia.
Qed.

Lemma readEntry_tame : forall d p, tame (readEntry d p).
Proof.
  intros. unfold readEntry. apply tame_bind; [apply readN_tame|]. intros [? ?] _.
  apply tame_bind; [apply readULong_tame|]. intros [? ?] _.
  apply tame_bind; [apply readULong_tame|]. intros [? ?] _.
  apply tame_bind; [apply readULong_tame|]. intros [? ?] _. exact I.
Qed.

Lemma entry_steps : forall d, steps d 16 (readEntry d).
Proof. intros d p a q Hp H. apply readEntry_ok in H; auto. tauto. Qed.

Lemma directory_ok : forall d n t q, 0 <= n -> u16 d 4 = Some n -> loop d (readEntry d) n 12 = Ok (t, q) -> directory d t.
Proof.
  intros d n t q Hn Hu H. destruct (loop_ok _ d 16 _ ltac:(lia) (entry_steps d) n 12 t q ltac:(lia) H) as (L & _ & N).
  split; [rewrite Hu; f_equal; lia|].
  intros i x E. apply N in E. apply readEntry_ok in E; [|lia]. destruct E as (_ & _ & E1 & E2 & E3 & E4).
  unfold entry_at, dir_tag, dir_sum, dir_off, dir_len. auto.
Qed.

Lemma table_of_in : forall t tag e, table_of t tag = Some e -> In (tag, e) t.
Proof.
  induction t as [|[k e0] t IH]; intros tag e H; cbn [table_of] in H; [discriminate|].
  destruct (table_of t tag) eqn:E; [injection H as <-; right; auto|].
  destruct (beqb_spec k tag); [|discriminate]. injection H as <-. subst. left. auto.
Qed.

Lemma table_of_some : forall t tag e, In (tag, e) t -> exists e', table_of t tag = Some e'.
Proof.
  induction t as [|[k e0] t IH]; intros tag e H; [destruct H|]. cbn [table_of].
  destruct (table_of t tag) eqn:E; [eauto|]. destruct H as [H|H].
  - inversion H; subst. rewrite beqb_refl. eauto.
  - destruct (IH _ _ H) as (e' & E'). congruence.
Qed.

Lemma table_spec : forall d t tag off len, directory d t -> has_table d tag off len ->
  exists e, table_of t tag = Some e /\ toffset e = off /\ tlength e = len.
Proof.
  intros d t tag off len [Hn Hd] (n & i & E1 & Hi & E2 & E3 & E4 & U). rewrite Hn in E1. injection E1 as <-.
  destruct (nth_error t (Z.to_nat i)) as [[k e]|] eqn:E; [|apply nth_error_None in E; lia].
  pose proof (Hd _ _ E) as (T & _ & O & L). rewrite Z2Nat.id in * by lia. cbn [fst snd] in *.
  assert (k = tag) by congruence. subst k.
  destruct (table_of_some t tag e) as (e' & E'); [apply nth_error_In in E; auto|].
  exists e'. split; [auto|]. apply table_of_in in E'. apply In_nth_error in E' as (j & E').
  pose proof (Hd _ _ E') as (T' & _ & O' & L'). cbn [fst snd] in *.
  assert (Hj : (j < List.length t)%nat) by (apply nth_error_Some; congruence).
  assert (Z.of_nat j = i) by (apply U; [lia|auto]). subst i. split; congruence.
Qed.

Lemma table_dir : forall d t tag e, directory d t -> table_of t tag = Some e ->
  exists i, 0 <= i < Z.of_nat (List.length t) /\ entry_at d i (tag, e).
Proof.
  intros d t tag e [_ Hd] H. apply table_of_in in H. apply In_nth_error in H as (j & E).
  assert (Hj : (j < List.length t)%nat) by (apply nth_error_Some; congruence).
  exists (Z.of_nat j). split; [lia|]. apply Hd in E. auto.
Qed.

Lemma table_range : forall d t tag e, Forall bytep d -> directory d t -> table_of t tag = Some e ->
  0 <= toffset e <= 4294967295 /\ 0 <= tlength e <= 4294967295 /\ 0 <= checkSum e <= 4294967295.
Proof.
  intros d t tag e Hb Hd H. destruct (table_dir _ _ _ _ Hd H) as (i & _ & _ & C & O & L). cbn [snd] in *.
  unfold dir_off, dir_len, dir_sum in *. split; [|split]; eapply u32_range; eauto.
Qed.

Lemma table0_range : forall d t tag, Forall bytep d -> directory d t ->
  0 <= toffset (table0 t tag) /\ 0 <= tlength (table0 t tag).
Proof.
  intros d t tag Hb Hd. unfold table0. destruct (table_of t tag) eqn:E; [|simpl; lia].
  apply (table_range _ _ _ _ Hb Hd) in E. lia.
Qed.

(** ** The parts of a parsed font *)
Record parsed (d : bytes) (t : ttf) : Prop := {
  p_data : fontData t = d;
  p_dir : directory d (tables t);
  p_head : parseHead d (tables t) = Ok (unitsPerEm t, (xMin t, yMin t, xMax t, yMax t), indexToLocFormat t);
  p_hhea : parseHhea d (tables t) = Ok (ascender t, descender t, numberOfHMetrics t);
  p_maxp : exists p, parseMaxp d (tables t) = Ok (numGlyphs t, p);
  p_hmtx : exists p q, parseHmtx d (tables t) p (numberOfHMetrics t) (numGlyphs t) = Ok (widths t, q);
  p_cmap : exists p, parseCmap d (tables t) p
      = Ok (segCount t, (startCount t, endCount t, idDelta t, idRangeOffset t, glyphIdArray t), groups t);
  p_loca : parseLoca d (tables t) (indexToLocFormat t) = Ok (isShortIndex t, locaTable t) }.

Lemma parse_ok : forall d t, Forall bytep d -> parseTtf d = Ok t -> parsed d t.
Proof.
  intros d t Hb H. unfold parseTtf in H.
  apply bind_ok in H as ([version p1] & E1 & H). apply readN_ok in E1 as [E1 ->]; try lia.
  destruct (negb (beqb version [0; 1; 0; 0])); [discriminate|].
  apply bind_ok in H as ([n p2] & E2 & H). apply readUShort_ok in E2 as [E2 ->]; try lia.
  apply bind_ok in H as ([tb p3] & E3 & H).
  apply bind_ok in H as ([[u [[[x0 y0] x1] y1]] loc] & E4 & H).
  apply bind_ok in H as ([[asc desc] nm] & E5 & H).
  apply bind_ok in H as ([ng p6] & E6 & H).
  apply bind_ok in H as ([w p7] & E7 & H).
  apply bind_ok in H as ([[sc [[[[st en] de] ro] gi]] gs] & E8 & H).
  apply bind_ok in H as ([] & E9 & H).
  apply bind_ok in H as ([[[[[[ver ta] td] wa] wd] sx] ch] & E10 & H).
  apply bind_ok in H as ([[ia up] ut] & E11 & H).
  apply bind_ok in H as ([short l] & E12 & H).
  assert (Hn : 0 <= n) by (apply u16_range in E2; auto; lia).
  injection H as <-. constructor; cbn; eauto.
  eapply directory_ok; eauto.
Qed.
