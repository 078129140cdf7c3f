(** What stands behind a dictionary does not matter to a reader of it. *)
From Coq Require Import String List ZArith Lia Bool.
From Verif Require Import Base BaseProofs CryptoSpec PdfSyntax PdfSyntaxProofs.
Open Scope Z_scope.
Open Scope list_scope.

Definition has_delim (s : bytes) : Prop := exists c, In c s /\ delim c = true.
Lemma delim_wsp : forall c, delim c = true -> wsp c = false.
Proof. intros c H. unfold delim in H. unfold wsp. repeat (apply orb_true_iff in H; destruct H as [H|H]); apply Z.eqb_eq in H; subst; reflexivity. Qed.
Lemma delim_regular : forall c, delim c = true -> regular c = false.
Proof. intros c H. unfold regular. rewrite H, andb_false_r. reflexivity. Qed.
Lemma has_tail : forall a s, has_delim s -> has_delim (a ++ s). Proof. intros a s (c & H & D). exists c. split; [apply in_app_iff; auto|exact D]. Qed.
Lemma has_cons : forall a s, has_delim s -> has_delim (a :: s). Proof. intros a s (c & H & D). exists c. split; [right; exact H|exact D]. Qed.
Lemma skip_more : forall s z, has_delim s -> skip (s ++ z) = skip s ++ z /\ has_delim (skip s).
Proof.
  induction s as [|c s IH]; intros z (d & H & D); [destruct H|]. cbn [app skip]. destruct (wsp c) eqn:W.
  - apply IH. destruct H as [->|H]; [rewrite (delim_wsp _ D) in W; discriminate|]. exists d. auto.
  - split; [reflexivity|]. exists d. auto.
Qed.
Lemma skip_has : forall s, has_delim (skip s) -> has_delim s.
Proof. induction s as [|c s IH]; intros H; [exact H|]. cbn [skip] in H. destruct (wsp c); [apply has_cons, IH; exact H|exact H]. Qed.
Lemma span_parts : forall p s a b, span p s = (a, b) -> s = a ++ b.
Proof. intros p. induction s as [|c s IH]; intros a b H; cbn [span] in H; [injection H as <- <-; reflexivity|]. destruct (p c); [|injection H as <- <-; reflexivity].
  destruct (span p s) as (a', b') eqn:E. injection H as <- <-. cbn [app]. f_equal. apply IH. reflexivity. Qed.
Lemma span_more : forall s z a b, has_delim s -> span regular s = (a, b) -> span regular (s ++ z) = (a, b ++ z) /\ has_delim b.
Proof.
  induction s as [|c s IH]; intros z a b (d & H & D) E; [destruct H|]. cbn [app span] in *. destruct (regular c) eqn:R.
  - destruct (span regular s) as (a', b') eqn:E2. injection E as <- <-. destruct H as [->|H]; [rewrite (delim_regular _ D) in R; discriminate|].
    destruct (IH z a' b' ltac:(exists d; auto) eq_refl) as (-> & X). split; [reflexivity|exact X].
  - injection E as <- <-. split; [reflexivity|]. exists d. auto.
Qed.
Lemma ref_more : forall s z, has_delim s -> ref_tail (s ++ z) = match ref_tail s with Some (g, r) => Some (g, r ++ z) | None => None end.
Proof.
  intros s z H. unfold ref_tail. destruct (skip_more s z H) as (-> & H1). destruct (span regular (skip s)) as (g, r) eqn:E. destruct (span_more _ z _ _ H1 E) as (-> & H2).
  destruct (atou g); [|reflexivity]. destruct (skip_more r z H2) as (-> & H3). destruct (span regular (skip r)) as (k, r') eqn:E2. destruct (span_more _ z _ _ H3 E2) as (-> & _). destruct (beqb k _); reflexivity.
Qed.
Lemma ref_has : forall s g r, ref_tail s = Some (g, r) -> has_delim r -> has_delim s.
Proof.
  intros s g r H D. unfold ref_tail in H. destruct (span regular (skip s)) as (a, r1) eqn:E. destruct (atou a); [|discriminate]. destruct (span regular (skip r1)) as (k, r2) eqn:E2. destruct (beqb k _); [|discriminate]. injection H as _ <-.
  apply skip_has. rewrite (span_parts _ _ _ _ E). apply has_tail, skip_has. rewrite (span_parts _ _ _ _ E2). apply has_tail. exact D.
Qed.
Lemma hex_more : forall s z a c b, span (fun x => negb (x =? 62)) s = (a, c :: b) -> span (fun x => negb (x =? 62)) (s ++ z) = (a, c :: b ++ z).
Proof.
  induction s as [|x s IH]; intros z a c b H; cbn [span app] in *; [discriminate|]. destruct (negb (x =? 62)).
  - destruct (span _ s) as (a', b') eqn:E. injection H as <- ->. rewrite (IH z _ _ _ eq_refl). reflexivity.
  - injection H as <- <- <-. reflexivity.
Qed.
Lemma lit_more_len : forall n s d z l r, (List.length s <= n)%nat -> lit d s = Some (l, r) -> lit d (s ++ z) = Some (l, r ++ z).
Proof.
  assert (LC : forall c x l r, lcons c x = Some (l, r) -> exists l', l = c :: l' /\ x = Some (l', r)). { intros c [(a, b)|] l r H; [|discriminate]. injection H as <- <-. eauto. }
  induction n as [|n IH]; intros [|c s1] d z l r L H; try discriminate; [cbn [List.length] in L; lia|]. cbn [List.length] in L.
  assert (G : forall d s, (List.length s <= n)%nat -> forall c l r, lcons c (lit d s) = Some (l, r) -> lcons c (lit d (s ++ z)) = Some (l, r ++ z)).
  { intros d0 s L0 c0 l0 r0 E. apply LC in E. destruct E as (l' & -> & E). rewrite (IH s d0 z l' r0 L0 E). reflexivity. }
  cbn [app lit] in *. destruct (c =? 41). { destruct d; [injection H as <- <-; reflexivity|]. apply G; [lia|exact H]. }
  destruct (c =? 40). { apply G; [lia|exact H]. }
  destruct (c =? 13). { destruct s1 as [|x s2]; [discriminate|]. cbn [app List.length] in *. destruct (x =? 10); [apply G; [lia|exact H]|]. apply (G d (x :: s2)); [cbn [List.length]; lia|exact H]. }
  destruct (c =? 92); [|apply G; [lia|exact H]]. destruct s1 as [|e s2]; [discriminate|]. cbn [app List.length] in *.
  destruct (e =? 110); [apply G; [lia|exact H]|]. destruct (e =? 114); [apply G; [lia|exact H]|]. destruct (e =? 116); [apply G; [lia|exact H]|]. destruct (e =? 98); [apply G; [lia|exact H]|]. destruct (e =? 102); [apply G; [lia|exact H]|].
  destruct (e =? 10); [apply IH; [lia|exact H]|].
  destruct (e =? 13). { destruct s2 as [|x s3]; [discriminate|]. cbn [app List.length] in *. destruct (x =? 10); [apply IH; [lia|exact H]|]. apply (IH (x :: s3)); [cbn [List.length]; lia|exact H]. }
  destruct (octal e); [|apply G; [lia|exact H]]. destruct s2 as [|o2 s3]; [discriminate|]. cbn [app List.length] in *.
  destruct (octal o2); [|apply (G d (o2 :: s3)); [cbn [List.length]; lia|exact H]]. destruct s3 as [|o3 s4]; [discriminate|]. cbn [app List.length] in *.
  destruct (octal o3); [apply G; [lia|exact H]|]. apply (G d (o3 :: s4)); [cbn [List.length]; lia|exact H].
Qed.
Lemma lit_more : forall s d z l r, lit d s = Some (l, r) -> lit d (s ++ z) = Some (l, r ++ z).
Proof. intros s d z l r H. eapply lit_more_len; [apply Nat.le_refl|exact H]. Qed.

Lemma delim_first : forall c s, delim c = true -> has_delim (c :: s). Proof. intros c s H. exists c. split; [left; reflexivity|exact H]. Qed.
Lemma skip_one : forall s c t, skip s = c :: t -> forall z, skip (s ++ z) = c :: t ++ z.
Proof. induction s as [|x s IH]; intros c t H z; [discriminate|]. cbn [app skip] in *. destruct (wsp x); [apply IH; exact H|]. injection H as -> ->. reflexivity. Qed.
Lemma more_all : forall z f,
  (forall s v r, value f s = Some (v, r) -> has_delim r -> has_delim s /\ value f (s ++ z) = Some (v, r ++ z)) /\
  (forall s l r, items f s = Some (l, r) -> has_delim s /\ items f (s ++ z) = Some (l, r ++ z)) /\
  (forall s l r, entries f s = Some (l, r) -> has_delim s /\ entries f (s ++ z) = Some (l, r ++ z)).
Proof.
  intros z. induction f as [|f (IV & II & IE)]; [split; [|split]; discriminate|]. split; [|split].
  - intros s v r H D. cbn [value] in *. destruct (skip s) as [|c t] eqn:Es; [discriminate|]. rewrite (skip_one _ _ _ Es).
    assert (HS : has_delim (c :: t) -> has_delim s) by (intros X; apply skip_has; rewrite Es; exact X).
    destruct (Z.eqb_spec c 47) as [->|_].
    { split; [apply HS, delim_first; reflexivity|]. destruct (span regular t) as (n, r') eqn:E. injection H as <- <-. assert (has_delim t) as X by (rewrite (span_parts _ _ _ _ E); apply has_tail; exact D).
      destruct (span_more _ z _ _ X E) as (-> & _). reflexivity. }
    destruct (Z.eqb_spec c 91) as [->|_].
    { split; [apply HS, delim_first; reflexivity|]. destruct (items f t) as [(l, r')|] eqn:E; [|discriminate]. injection H as <- <-. destruct (II _ _ _ E) as (_ & ->). reflexivity. }
    destruct (Z.eqb_spec c 40) as [->|_].
    { split; [apply HS, delim_first; reflexivity|]. destruct (lit 0 t) as [(l, r')|] eqn:E; [|discriminate]. injection H as <- <-. rewrite (lit_more _ _ z _ _ E). reflexivity. }
    destruct (Z.eqb_spec c 60) as [->|_].
    { split; [apply HS, delim_first; reflexivity|]. destruct t as [|d t']; [discriminate|]. cbn [app]. destruct (d =? 60).
      - destruct (entries f t') as [(l, r')|] eqn:E; [|discriminate]. injection H as <- <-. destruct (IE _ _ _ E) as (_ & ->). reflexivity.
      - destruct (span _ (d :: t')) as (h, r0) eqn:E. destruct r0 as [|x r0]; [discriminate|]. injection H as <- <-. change (d :: t' ++ z) with ((d :: t') ++ z). rewrite (hex_more _ z _ _ _ E). reflexivity. }
    destruct (span regular (c :: t)) as (w, r0) eqn:E. destruct w as [|x w]; [discriminate|].
    assert (D0 : has_delim r0). { destruct (number (x :: w)); [|injection H as _ <-; exact D]. destruct (ref_tail r0) as [(g, r')|] eqn:Er; [injection H as _ <-; eapply ref_has; eauto|injection H as _ <-; exact D]. }
    assert (Dt : has_delim (c :: t)) by (rewrite (span_parts _ _ _ _ E); apply has_tail; exact D0). split; [apply HS; exact Dt|].
    change (c :: t ++ z) with ((c :: t) ++ z). destruct (span_more _ z _ _ Dt E) as (-> & _). destruct (number (x :: w)); [|injection H as <- <-; reflexivity].
    rewrite (ref_more _ z D0). destruct (ref_tail r0) as [(g, r')|]; injection H as <- <-; reflexivity.
  - intros s l r H. cbn [items] in *. destruct (skip s) as [|c t] eqn:Es; [discriminate|]. rewrite (skip_one _ _ _ Es).
    assert (HS : has_delim (c :: t) -> has_delim s) by (intros X; apply skip_has; rewrite Es; exact X).
    destruct (Z.eqb_spec c 93) as [->|_]. { split; [apply HS, delim_first; reflexivity|]. injection H as <- <-. reflexivity. }
    destruct (value f (c :: t)) as [(v, r1)|] eqn:E; [|discriminate]. destruct (items f r1) as [(l', r')|] eqn:E2; [|discriminate]. injection H as <- <-.
    destruct (II _ _ _ E2) as (D1 & E3). destruct (IV _ _ _ E D1) as (D2 & E4). split; [apply HS; exact D2|]. change (c :: t ++ z) with ((c :: t) ++ z). rewrite E4, E3. reflexivity.
  - intros s l r H. cbn [entries] in *. destruct (skip s) as [|c t] eqn:Es; [discriminate|]. rewrite (skip_one _ _ _ Es).
    assert (HS : has_delim (c :: t) -> has_delim s) by (intros X; apply skip_has; rewrite Es; exact X).
    destruct (Z.eqb_spec c 62) as [->|_]. { split; [apply HS, delim_first; reflexivity|]. destruct t as [|d t']; [discriminate|]. cbn [app]. destruct (d =? 62); [|discriminate]. injection H as <- <-. reflexivity. }
    destruct (Z.eqb_spec c 47) as [->|_]; [|discriminate]. split; [apply HS, delim_first; reflexivity|].
    destruct (span regular t) as (n, r0) eqn:E. destruct (value f r0) as [(v, r1)|] eqn:E1; [|discriminate]. destruct (entries f r1) as [(l', r')|] eqn:E2; [|discriminate]. injection H as <- <-.
    destruct (IE _ _ _ E2) as (D1 & E3). destruct (IV _ _ _ E1 D1) as (D2 & E4).
    assert (Dt : has_delim t) by (rewrite (span_parts _ _ _ _ E); apply has_tail; exact D2). destruct (span_more _ z _ _ Dt E) as (-> & _). rewrite E4, E3. reflexivity.
Qed.

Theorem dict_more : forall s d r z, reads s (PDict d) r -> reads (s ++ z) (PDict d) (r ++ z).
Proof.
  intros s d r z (f & H). exists f. destruct f as [|f]; [discriminate|]. cbn [value] in *. destruct (skip s) as [|c t] eqn:Es; [discriminate|]. rewrite (skip_one _ _ _ Es).
  destruct (Z.eqb_spec c 47) as [->|_]; [destruct (span regular t); discriminate|]. destruct (Z.eqb_spec c 91) as [->|_]; [destruct (items f t) as [(?, ?)|]; discriminate|].
  destruct (Z.eqb_spec c 40) as [->|_]; [destruct (lit 0 t) as [(?, ?)|]; discriminate|]. destruct (Z.eqb_spec c 60) as [->|_].
  - destruct t as [|x t]; [discriminate|]. cbn [app]. destruct (x =? 60).
    + destruct (entries f t) as [(l, r')|] eqn:E; [|discriminate]. injection H as <- <-. destruct (proj2 (proj2 (more_all z f)) _ _ _ E) as (_ & ->). reflexivity.
    + destruct (span _ (x :: t)) as (h, [|y r0]); discriminate.
  - destruct (span regular (c :: t)) as (w, r0). destruct w; [discriminate|]. destruct (number _); [|discriminate]. destruct (ref_tail r0) as [(?, ?)|]; discriminate.
Qed.
Theorem stream_more : forall s d b z, stream_object s d b -> stream_object (s ++ z) d b.
Proof.
  intros s d b z (rest & e1 & e2 & tr & R & S & H1 & H2 & H3). exists (rest ++ z), e1, e2, (tr ++ z). split; [apply dict_more; exact R|]. split; [|auto].
  destruct (skip rest) as [|c t] eqn:E; [discriminate|]. rewrite (skip_one _ _ _ E). change (c :: t ++ z) with ((c :: t) ++ z). rewrite S, <- !app_assoc. reflexivity.
Qed.

(** A stream has one dictionary and one body. *)
Theorem stream_unique : forall s d b d' b', stream_object s d b -> stream_object s d' b' -> d = d' /\ b = b'.
Proof.
  intros s d b d' b' (rest & e1 & e2 & tr & R & S & H1 & _ & L) (rest' & e1' & e2' & tr' & R' & S' & H1' & _ & L').
  destruct (reads_unique _ _ _ _ _ R R') as (Ed & Er). assert (d = d') by congruence. subst d' rest'. split; [reflexivity|]. rewrite L in L'. assert (E : blen b = blen b') by congruence. unfold blen in E. apply Nat2Z.inj in E.
  rewrite S in S'. apply app_inv_head in S'. clear - E S' H1 H1'.
  assert (X : b ++ e2 ++ B"endstream" ++ tr = b' ++ e2' ++ B"endstream" ++ tr'). { destruct H1 as [->| ->], H1' as [->| ->]; injection S' as S'; try discriminate; exact S'. }
  clear S'. revert b' E X. induction b as [|x b IH]; intros [|y b'] E X; try discriminate; [reflexivity|]. injection E as E. injection X as -> X. f_equal. apply IH; assumption.
Qed.
