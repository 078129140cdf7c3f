(** The six replacements of readProperties as one pass over the text. *)
From Coq Require Import String List ZArith Lia Bool.
From Verif Require Import Base BaseProofs Props PropsFlat PropsWrite.
Open Scope Z_scope.
Open Scope list_scope.

(** A run of white space disappears in front of [op] and is one blank elsewhere. *)
Fixpoint sqF (op : bytes -> bool) (s : bytes) : bytes :=
  match s with
  | [] => []
  | c :: s' =>
    if is_ws4 c then
      match s' with
      | [] => [32]
      | d :: _ => if is_ws4 d || op s' then sqF op s' else 32 :: sqF op s'
      end
    else c :: sqF op s'
  end.

Definition op0 (t : bytes) : bool := false.
Definition op1 t := op0 t || prefixb [47] t.
Definition op2 t := op1 t || prefixb [91] t.
Definition op3 t := op2 t || prefixb [93] t.
Definition op4 t := op3 t || prefixb [60; 60] t.
Definition opener t := op4 t || prefixb [62; 62] t.
Definition sq := sqF opener.

Lemma sqF_hd : forall op c s, is_ws4 c = false -> sqF op (c :: s) = c :: sqF op s.
Proof. intros. cbn [sqF]. rewrite H. reflexivity. Qed.

Lemma sqF_ws : forall op c d s, is_ws4 c = true ->
  sqF op (c :: d :: s) = if is_ws4 d || op (d :: s) then sqF op (d :: s) else 32 :: sqF op (d :: s).
Proof. intros. cbn [sqF]. rewrite H. reflexivity. Qed.

Lemma collapse_sq : forall s, collapse s = sqF op0 s.
Proof.
  induction s as [|c s IH]; [reflexivity|]. cbn [collapse sqF]. rewrite IH. destruct (is_ws4 c); [|reflexivity].
  destruct s as [|d s]; [reflexivity|]. unfold op0 at 1. rewrite orb_false_r. reflexivity.
Qed.

(** What a pattern sees is not changed by the pass. *)
Definition sees (op : bytes -> bool) (pat : bytes) : Prop :=
  forall c s, is_ws4 c = false -> prefixb pat (sqF op (c :: s)) = prefixb pat (c :: s).

Lemma strip_sq : forall op pat s, pat <> [] -> sees op pat ->
  strip pat (sqF op s) = sqF (fun t => op t || prefixb pat t) s.
Proof.
  intros op pat s Hp H. induction s as [|c s IH]; [reflexivity|]. cbn [sqF]. destruct (is_ws4 c) eqn:C.
  - destruct s as [|d s].
    + destruct pat; [congruence|reflexivity].
    + destruct (is_ws4 d) eqn:D; cbn [orb]; [exact IH|]. destruct (op (d :: s)) eqn:O; cbn [orb]; [exact IH|].
      cbn [strip]. change (is_ws4 32) with true. cbn [andb]. rewrite sqF_hd by auto. cbn [skip_ws]. rewrite D.
      rewrite <- sqF_hd by auto. rewrite H by auto. rewrite IH. reflexivity.
  - cbn [strip]. rewrite C. cbn [andb]. rewrite IH. reflexivity.
Qed.

Lemma sees1 : forall op p, sees op [p].
Proof. intros op p c s H. rewrite sqF_hd by auto. reflexivity. Qed.

Lemma sq_next : forall op p s, (forall t, op (p :: t) = false) -> p <> 32 -> is_ws4 p = false ->
  match sqF op s with [] => true | c :: _ => negb (p =? c) end = match s with [] => true | c :: _ => negb (p =? c) end.
Proof.
  intros op p s H P W. induction s as [|c s IH]; [reflexivity|]. cbn [sqF]. destruct (is_ws4 c) eqn:C; [|reflexivity].
  assert (Pc : (p =? c) = false) by (apply Z.eqb_neq; intros ->; congruence). rewrite Pc.
  destruct s as [|d s]; [lia|]. destruct (is_ws4 d) eqn:D; cbn [orb].
  - rewrite IH. replace (p =? d) with false; [reflexivity|]. symmetry. apply Z.eqb_neq. intros ->. congruence.
  - destruct (op (d :: s)) eqn:O; [|lia]. rewrite IH. replace (p =? d) with false; [reflexivity|].
    symmetry. apply Z.eqb_neq. intros ->. rewrite H in O. discriminate.
Qed.

Lemma sees2 : forall op p, (forall t, op (p :: t) = false) -> p <> 32 -> is_ws4 p = false -> sees op [p; p].
Proof.
  intros op p H P W c s C. rewrite sqF_hd by auto. cbn [prefixb]. f_equal.
  pose proof (sq_next op p s H P W) as E. destruct (sqF op s), s as [|d s]; auto.
  - cbn [negb] in E. destruct (p =? d); [discriminate|reflexivity].
  - destruct (p =? z); [discriminate|reflexivity].
  - rewrite !andb_true_r. destruct (p =? z), (p =? d); auto; discriminate.
Qed.

Theorem norm_sq : forall s, norm s = sq s.
Proof.
  intros s. unfold norm. rewrite collapse_sq.
  change (B"/") with [47]. change (B"[") with [91]. change (B"]") with [93]. change (B"<<") with [60; 60]. change (B">>") with [62; 62].
  rewrite strip_sq by (try discriminate; apply sees1). change (fun t => op0 t || prefixb [47] t) with op1.
  rewrite strip_sq by (try discriminate; apply sees1). change (fun t => op1 t || prefixb [91] t) with op2.
  rewrite strip_sq by (try discriminate; apply sees1). change (fun t => op2 t || prefixb [93] t) with op3.
  rewrite strip_sq by (try discriminate; apply sees2; try reflexivity; lia). change (fun t => op3 t || prefixb [60; 60] t) with op4.
  rewrite strip_sq by (try discriminate; apply sees2; try reflexivity; lia). reflexivity.
Qed.

(** ** Texts that differ in white space only *)
Definition wsp (w : bytes) : Prop := Forall (fun c => is_ws4 c = true) w.
Definition nowsp (w : bytes) : Prop := Forall (fun c => is_ws4 c = false) w.

Lemma sq_word : forall w s, nowsp w -> sq (w ++ s) = w ++ sq s.
Proof. induction 1; [reflexivity|]. cbn [app]. unfold sq in *. rewrite sqF_hd by auto. congruence. Qed.

(** Two white-space runs at the same place. *)
Lemma sq_run : forall a w c b, wsp w -> is_ws4 c = true -> sq (a ++ c :: w ++ b) = sq (a ++ 32 :: b).
Proof.
  intros a w c b W C. induction a as [|x a IH]; cbn [app].
  - revert c C. induction W as [|d w D W IHw]; intros c C; cbn [app].
    + unfold sq. cbn [sqF]. rewrite C. reflexivity.
    + rewrite <- (IHw d D). unfold sq. cbn [sqF]. rewrite C, D. cbn [orb]. reflexivity.
  - unfold sq in *. destruct (is_ws4 x) eqn:X; [|rewrite !sqF_hd by auto; f_equal; exact IH]. destruct a as [|y a].
    + cbn [app] in *. rewrite !sqF_ws by auto. rewrite C. change (is_ws4 32) with true. cbn [orb]. exact IH.
    + cbn [app] in *. rewrite !sqF_ws by auto.
      assert (O : is_ws4 y = false -> opener (y :: a ++ c :: w ++ b) = opener (y :: a ++ 32 :: b)).
      { intros Y. unfold opener, op4, op3, op2, op1, op0. cbn [prefixb].
        destruct a as [|z a]; cbn [app]; [|reflexivity].
        replace (60 =? c) with false by (unfold is_ws4 in C; lia). replace (62 =? c) with false by (unfold is_ws4 in C; lia). reflexivity. }
      destruct (is_ws4 y) eqn:Y; cbn [orb]; [exact IH|]. rewrite O by auto.
      destruct (opener (y :: a ++ 32 :: b)); [exact IH|]. f_equal. exact IH.
Qed.

Lemma opener_slash : forall t, opener (47 :: t) = true.
Proof. reflexivity. Qed.

Lemma opener_edge : forall y a b b', a <> [] -> opener (y :: a ++ b) = opener (y :: a ++ b').
Proof.
  intros y [|z a] b b' H; [congruence|]. unfold opener, op4, op3, op2, op1, op0. cbn [prefixb app]. reflexivity.
Qed.

Lemma opener_pair : forall y d b, (y = d -> y <> 60 /\ y <> 62) -> opener (y :: d :: b) = opener [y].
Proof.
  intros y d b H. unfold opener, op4, op3, op2, op1, op0. cbn [prefixb]. rewrite !andb_true_r, !andb_false_r.
  destruct (Z.eq_dec y d) as [e|e].
  - destruct (H e). replace (60 =? y) with false by lia. replace (62 =? y) with false by lia. reflexivity.
  - replace ((60 =? y) && (60 =? d)) with false by lia. replace ((62 =? y) && (62 =? d)) with false by lia. reflexivity.
Qed.

(** A lone '>' or '<' at the end of [a], after white space. *)
Definition open_end (p : Z) (a : bytes) : Prop := exists x c, a = x ++ [c; p] /\ is_ws4 c = true.

(** White space before a slash, or before a doubled bracket, is nothing. *)
Lemma sq_gap : forall a w b, wsp w -> opener b = true ->
  (forall p t, b = p :: t -> p = 60 \/ p = 62 -> ~ open_end p a) -> sq (a ++ w ++ b) = sq (a ++ b).
Proof.
  intros a w b W O. induction a as [|x a IH]; intros E; cbn [app].
  - destruct W as [|c w C W]; [reflexivity|].
    pose proof (sq_run [] w c b W C) as R. cbn [app] in *. rewrite R.
    destruct b as [|d b]; [discriminate|]. unfold sq. cbn [sqF]. change (is_ws4 32) with true. rewrite O, orb_true_r. reflexivity.
  - assert (E' : forall p t, b = p :: t -> p = 60 \/ p = 62 -> ~ open_end p a).
    { intros p t Hb Hp (y & c & -> & C). apply (E p t Hb Hp). exists (x :: y), c. split; [reflexivity|auto]. }
    specialize (IH E'). unfold sq in *. destruct (is_ws4 x) eqn:X; [|rewrite !sqF_hd by auto; f_equal; exact IH].
    destruct W as [|c w C W]; [reflexivity|]. destruct b as [|d b]; [discriminate|].
    destruct a as [|y a].
    + cbn [app] in *. rewrite !sqF_ws by auto. rewrite C. cbn [orb]. rewrite IH, O, orb_true_r. reflexivity.
    + cbn [app] in *. rewrite !sqF_ws by auto.
      assert (Oe : is_ws4 y = false -> opener (y :: a ++ (c :: w) ++ d :: b) = opener (y :: a ++ d :: b)).
      { intros Y. destruct a as [|z a]; [|apply opener_edge; discriminate]. cbn [app].
        rewrite !opener_pair; auto.
        - intros e. split; intros ->; apply (E _ b (f_equal (fun q => q :: b) (eq_sym e))); auto; exists [], x; split; auto.
        - intros ->. congruence. }
      destruct (is_ws4 y) eqn:Y; cbn [orb]; [exact IH|]. cbn [app] in Oe. rewrite Oe by auto.
      destruct (opener (y :: a ++ d :: b)); [exact IH|]. f_equal. exact IH.
Qed.

Lemma sq_gap_slash : forall a w b, wsp w -> sq (a ++ w ++ 47 :: b) = sq (a ++ 47 :: b).
Proof. intros a w b W. apply sq_gap; auto. intros p t H [->| ->]; discriminate. Qed.

(** Two texts side by side. *)
Lemma sq_app : forall a b, (a = [] \/ last_nws a) -> hd_nws b ->
  (forall p t, b = p :: t -> p = 60 \/ p = 62 -> ~ open_end p a) -> sq (a ++ b) = sq a ++ sq b.
Proof.
  induction a as [|x a IH]; intros b L Hb E; [reflexivity|].
  destruct L as [L|L]; [discriminate|].
  assert (E' : forall p t, b = p :: t -> p = 60 \/ p = 62 -> ~ open_end p a).
  { intros p t Hq Hp (y & c & -> & C). apply (E p t Hq Hp). exists (x :: y), c. split; [reflexivity|auto]. }
  destruct a as [|y a].
  - cbn [app]. apply last_nws_1 in L. unfold sq. rewrite !sqF_hd by auto. reflexivity.
  - assert (L' : y :: a = [] \/ last_nws (y :: a)) by (right; eapply last_nws_tail; [exact L|discriminate]).
    specialize (IH b L' Hb E'). unfold sq in *. cbn [app] in *. destruct (is_ws4 x) eqn:X; [|rewrite (sqF_hd _ x) by auto; rewrite (sqF_hd _ x (y :: a)) by auto; cbn [app]; f_equal; exact IH].
    rewrite (sqF_ws _ x) by auto. rewrite (sqF_ws _ x y a) by auto. destruct (is_ws4 y) eqn:Y; cbn [orb]; [exact IH|].
    assert (Oe : opener (y :: a ++ b) = opener (y :: a)).
    { destruct a as [|z a]; [|rewrite <- (app_nil_r (z :: a)) at 2; apply opener_edge; discriminate]. cbn [app].
      destruct b as [|d b]; [reflexivity|]. apply opener_pair.
      intros e. split; intros ->; apply (E _ b (f_equal (fun q => q :: b) (eq_sym e))); auto; exists [], x; split; auto. }
    rewrite Oe. destruct (opener (y :: a)); [exact IH|]. cbn [app]. f_equal. exact IH.
Qed.

(** The text without the white space at its end. *)
Lemma sq_end : forall a w, wsp w -> (a = [] \/ last_nws a) -> sq (a ++ w ++ [47]) = sq a ++ [47].
Proof.
  intros a w W L. rewrite sq_gap_slash by auto. rewrite sq_app; auto; [reflexivity|].
  intros p t H [->| ->]; discriminate.
Qed.
