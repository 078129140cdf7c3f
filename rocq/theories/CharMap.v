(** What AddChars leaves in the map of characters. *)
From Coq Require Import String List ZArith Lia Bool.
From Verif Require Import Base BaseProofs Utf8 Utf8Proofs Ttf TtfSpec TtfProofs TtfCmap Subset.
Open Scope Z_scope.
Open Scope list_scope.

Lemma val_of_app : forall a b k, val_of (a ++ b) k = match val_of a k with Some v => Some v | None => val_of b k end.
Proof. induction a as [|[k' v] a IH]; intros b k; cbn [val_of app]; [reflexivity|]. destruct (k' =? k); auto. Qed.
Lemma val_of_none : forall m k, val_of m k = None <-> ~ In k (map fst m).
Proof.
  induction m as [|[k' v] m IH]; intros k; cbn [val_of map In fst]; [tauto|].
  destruct (Z.eqb_spec k' k); [split; [discriminate|tauto]|]. rewrite IH. tauto.
Qed.
Lemma val_of_in : forall m k v, val_of m k = Some v -> In (k, v) m.
Proof.
  induction m as [|[k' w] m IH]; intros k v; cbn [val_of In]; [discriminate|].
  destruct (Z.eqb_spec k' k); [|auto]. intros H. left. congruence.
Qed.
Lemma in_val_of : forall m k v, NoDup (map fst m) -> In (k, v) m -> val_of m k = Some v.
Proof.
  induction m as [|[k' w] m IH]; intros k v N H; [destruct H|]. cbn [map fst] in N. inversion N as [|? ? N1 N2]; subst. cbn [val_of].
  destruct H as [H|H].
  - assert (k' = k /\ w = v) as [-> ->] by (split; congruence). rewrite Z.eqb_refl. reflexivity.
  - destruct (Z.eqb_spec k' k) as [->|]; [|auto]. exfalso. apply N1. apply (in_map fst) in H. exact H.
Qed.

(** The keys are different and every value is the glyph of its key. *)
Definition good_map (t : ttf) (m : charmap) : Prop :=
  NoDup (map fst m) /\ Forall (fun x => glyph_index t (fst x) = Ok (snd x)) m.
Lemma good_nil : forall t, good_map t [].
Proof. split; constructor. Qed.

Lemma NoDup_snoc : forall (A : Type) (l : list A) x, NoDup l -> ~ In x l -> NoDup (l ++ [x]).
Proof.
  induction l as [|y l IH]; intros x N H; cbn [app]; [constructor; [intros []|constructor]|].
  inversion N; subst. constructor; [|apply IH; auto; cbn in H; tauto]. rewrite in_app_iff. cbn in *. intuition congruence.
Qed.

(** Whatever happens, the entries before stay, and the new ones are good. *)
Lemma add_runes_grows : forall t rs m m' o, add_runes t rs m = (m', o) -> good_map t m ->
  good_map t m' /\ exists k, m' = m ++ k /\ forall x, In x k -> In (fst x) rs.
Proof.
  intros t. induction rs as [|r rs IH]; intros m m' o H G; cbn [add_runes] in H.
  - injection H as <- <-. split; [auto|]. exists []. rewrite app_nil_r. split; [auto|intros x []].
  - destruct (val_of m r) eqn:V.
    + destruct (IH _ _ _ H G) as (G' & k & E & K). split; [auto|]. exists k. split; [auto|]. intros x Hx. right. auto.
    + destruct (glyph_index t r) as [g|e| |] eqn:GI.
      2-4: injection H as <- <-; split; [auto|]; exists []; rewrite app_nil_r; split; [auto|intros x []].
      destruct (IH _ _ _ H) as (G' & k & E & K).
      { destruct G as [G1 G2]. split.
        - rewrite map_app. apply NoDup_snoc; [auto|]. apply val_of_none. auto.
        - apply Forall_app. split; [auto|]. constructor; [exact GI|constructor]. }
      split; [auto|]. exists ((r, g) :: k). rewrite <- app_assoc in E. split; [auto|].
      intros x [<-|Hx]; [left; reflexivity|right; auto].
Qed.

(** On success every character of the text has its glyph. *)
Lemma add_runes_all : forall t rs m m', add_runes t rs m = (m', Ok tt) -> good_map t m ->
  forall r, In r rs -> exists g, glyph_index t r = Ok g /\ val_of m' r = Some g.
Proof.
  intros t. induction rs as [|r0 rs IH]; intros m m' H G r Hr; [destruct Hr|]. cbn [add_runes] in H.
  destruct (val_of m r0) eqn:V.
  - destruct Hr as [<-|Hr]; [|eauto]. destruct (add_runes_grows _ _ _ _ _ H G) as (_ & k & -> & _).
    exists z. rewrite val_of_app, V. split; [|auto]. apply val_of_in in V. destruct G as [_ G]. rewrite Forall_forall in G. apply (G _ V).
  - destruct (glyph_index t r0) as [g|e| |] eqn:GI; try discriminate.
    assert (G1 : good_map t (m ++ [(r0, g)])).
    { destruct G as [G1 G2]. split.
      - rewrite map_app. apply NoDup_snoc; [auto|]. apply val_of_none. auto.
      - apply Forall_app. split; [auto|]. constructor; [exact GI|constructor]. }
    destruct Hr as [<-|Hr]; [|eauto].
    destruct (add_runes_grows _ _ _ _ _ H G1) as (_ & k & -> & _).
    exists g. split; [auto|]. rewrite !val_of_app, V. cbn [val_of]. rewrite Z.eqb_refl. reflexivity.
Qed.

(** A character without a glyph is the only reason to stop. *)
Lemma add_runes_stops : forall t rs m m' o, add_runes t rs m = (m', o) -> good_map t m -> o <> Ok tt ->
  exists a r b, rs = a ++ r :: b /\ (forall g, glyph_index t r <> Ok g) /\ (forall x, In x a -> val_of m' x <> None).
Proof.
  intros t. induction rs as [|r rs IH]; intros m m' o H G N; cbn [add_runes] in H; [congruence|].
  destruct (val_of m r) eqn:V.
  - destruct (IH _ _ _ H G N) as (a & x & b & E & X & K). exists (r :: a), x, b. rewrite E. split; [reflexivity|]. split; [auto|].
    intros y [<-|Hy]; [|auto]. destruct (add_runes_grows _ _ _ _ _ H G) as (_ & k & -> & _). rewrite val_of_app, V. discriminate.
  - destruct (glyph_index t r) as [g|e| |] eqn:GI.
    2-4: exists [], r, rs; split; [reflexivity|]; split; [congruence|intros x []].
    assert (G1 : good_map t (m ++ [(r, g)])).
    { destruct G as [G1 G2]. split.
      - rewrite map_app. apply NoDup_snoc; [auto|]. apply val_of_none. auto.
      - apply Forall_app. split; [auto|]. constructor; [exact GI|constructor]. }
    destruct (IH _ _ _ H G1 N) as (a & x & b & E & X & K). exists (r :: a), x, b. rewrite E. split; [reflexivity|]. split; [auto|].
    intros y [<-|Hy]; [|auto]. destruct (add_runes_grows _ _ _ _ _ H G1) as (_ & k & -> & _).
    rewrite !val_of_app, V. cbn [val_of]. rewrite Z.eqb_refl. discriminate.
Qed.

(** Several texts *)
Fixpoint add_texts (t : ttf) (l : list bytes) (m : charmap) : charmap :=
  match l with [] => m | s :: l => add_texts t l (fst (add_chars t s m)) end.
Lemma add_texts_good : forall t l m, good_map t m -> good_map t (add_texts t l m) /\ exists k, add_texts t l m = m ++ k.
Proof.
  intros t. induction l as [|s l IH]; intros m G; cbn [add_texts]; [split; [auto|exists []; rewrite app_nil_r; auto]|].
  unfold add_chars. destruct (add_runes t (runes s) m) as (m1, o) eqn:E. cbn [fst].
  destruct (add_runes_grows _ _ _ _ _ E G) as (G1 & k & -> & _). destruct (IH _ G1) as (G2 & k2 & E2).
  split; [auto|]. exists (k ++ k2). rewrite E2, app_assoc. reflexivity.
Qed.
Lemma good_fst_in : forall t m r g, good_map t m -> In (r, g) m -> glyph_index t r = Ok g.
Proof. intros t m r g [_ G] H. rewrite Forall_forall in G. apply (G _ H). Qed.
