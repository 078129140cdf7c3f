(** Running the operators the library writes. *)
From Coq Require Import String List ZArith Lia Bool.
From Coq.Floats Require Import SpecFloat.
From Verif Require Import Base BaseProofs PdfSyntax PdfSyntaxProofs HexProofs Float64 TextSpec TextNumbers.
Open Scope Z_scope.
Open Scope list_scope.

Ltac blanks := repeat (apply Forall_cons; [reflexivity|]); apply Forall_nil.
Ltac regw := repeat (apply Forall_cons; [reflexivity|]); apply Forall_nil.

(** ** Uniqueness *)

Lemma tokens_unique : forall s l l', tokens s l -> tokens s l' -> l = l'.
Proof.
  intros s l l' H. revert l'. induction H as [s E|s v r l R T IH]; intros l' H'.
  - inversion H' as [|? ? ? ? R' _]; subst; [reflexivity|]. destruct R' as (f & R'). destruct f as [|f]; [discriminate|]. cbn [value] in R'. rewrite E in R'. discriminate.
  - inversion H' as [? E|? v' r' l2 R' T']; subst.
    + destruct R as (f & R). destruct f as [|f]; [discriminate|]. cbn [value] in R. rewrite E in R. discriminate.
    + destruct (reads_unique _ _ _ _ _ R R') as (-> & ->). f_equal. apply IH. exact T'.
Qed.

Theorem draws_unique : forall s g g1 ms1 g2 ms2, draws s g g1 ms1 -> draws s g g2 ms2 -> g1 = g2 /\ ms1 = ms2.
Proof.
  intros s g g1 ms1 g2 ms2 (l & T & E) (l' & T' & E'). assert (l = l') by (eapply tokens_unique; eauto). subst l'.
  rewrite E in E'. split; congruence.
Qed.

(** ** Steps *)

Definition st := (gstate * option gstate)%type.
Definition drawn (s : bytes) (g g' : st) (ms : list mark) : Prop := exists l, tokens s l /\ exec g [] l = Some (g', ms).

Lemma draws_drawn : forall s g g' ms, drawn s (g, None) (g', None) ms -> draws s g g' ms.
Proof. intros s g g' ms H. exact H. Qed.

Definition operand (v : pv) : Prop := match v with PWord _ => num v <> None | _ => True end.
Inductive operands : bytes -> list pv -> bytes -> Prop :=
| opd_nil : forall s, operands s [] s
| opd_cons : forall s v r l r', reads s v r -> operand v -> operands r l r' -> operands s (v :: l) r'.

Lemma tokens_operands : forall s l r t, operands s l r -> tokens r t -> tokens s (l ++ t).
Proof. intros s l r t H T. induction H as [|s v r l r' R O H IH]; [exact T|]. cbn [app]. eapply tokens_more; eauto. Qed.

Lemma exec_operands : forall l acc g t, Forall operand l -> exec g acc (l ++ t) = exec g (acc ++ l) t.
Proof.
  induction l as [|v l IH]; intros acc g t H; [rewrite app_nil_r; reflexivity|]. inversion H as [|? ? Hv Hl]; subst. cbn [app exec].
  replace (acc ++ v :: l) with ((acc ++ [v]) ++ l) by (rewrite <- app_assoc; reflexivity). rewrite <- IH by exact Hl.
  destruct v; try reflexivity. cbn [operand] in Hv. destruct (num (PWord w)); [reflexivity|congruence].
Qed.
Lemma operands_all : forall s l r, operands s l r -> Forall operand l.
Proof. intros s l r H. induction H; constructor; auto. Qed.

(** An operator with its operands, then the rest. *)
Lemma drawn_op : forall s args r w r' g g1 ms1 g2 ms2, operands s args r -> reads r (PWord w) r' -> num (PWord w) = None ->
  op1 w args g = Some (g1, ms1) -> drawn r' g1 g2 ms2 -> drawn s g g2 (ms1 ++ ms2).
Proof.
  intros s args r w r' g g1 ms1 g2 ms2 O R N E (l & T & X). exists (args ++ PWord w :: l). split.
  - eapply tokens_operands; [exact O|]. eapply tokens_more; eauto.
  - rewrite exec_operands by (eapply operands_all; eauto). cbn [app exec]. rewrite N, E, X. destruct g1. reflexivity.
Qed.
Lemma drawn_end : forall s g, skip s = [] -> drawn s g g [].
Proof. intros s g H. exists []. split; [apply tokens_end; exact H|reflexivity]. Qed.

Lemma drawn_blank : forall w s g g' ms, blank w -> drawn s g g' ms -> drawn (w ++ s) g g' ms.
Proof.
  intros w s g g' ms Hw (l & T & X). exists l. split; [|exact X]. inversion T as [? E|? v r l' R T']; subst.
  - apply tokens_end. rewrite skip_blank by auto. exact E.
  - eapply tokens_more; [|exact T']. destruct R as (f & R). exists f. rewrite value_skip by auto. exact R.
Qed.

(** ** Words *)

Lemma reads_word : forall w n r, blank w -> reg_word n -> n <> [] -> number n = None -> stops r -> reads (w ++ n ++ r) (PWord n) r.
Proof. intros w n r Hw Hn Ne N Hr. exists 1%nat. rewrite value_word by auto. rewrite N. reflexivity. Qed.

Definition cents (x : f64) : Z := match decimal (fmt2 x) with Some n => n | None => 0 end.
Lemma cents_num : forall x, finite x -> num (PWord (fmt2 x)) = Some (cents x) /\ near x (cents x).
Proof. intros x F. destruct (fmt2_reads x F) as (n & _ & _ & _ & D & N). unfold cents. cbn [num]. rewrite D. split; [reflexivity|exact N]. Qed.
Lemma reads_fmt : forall w x r, blank w -> finite x -> stops r -> reads (w ++ fmt2 x ++ r) (PWord (fmt2 x)) r.
Proof. intros w x r Hw F Hr. destruct (fmt2_reads x F) as (n & A & C & D & _). apply reads_word; auto. Qed.

Lemma opd_fmt : forall w x r l r', blank w -> finite x -> stops r -> operands r l r' -> operands (w ++ fmt2 x ++ r) (PWord (fmt2 x) :: l) r'.
Proof.
  intros w x r l r' Hw F Hr O. eapply opd_cons; [apply reads_fmt; assumption| |exact O]. cbn [operand]. destruct (cents_num x F) as (-> & _). discriminate.
Qed.

(** Word by word; [w] and [n] are literals. *)
Lemma opd_lit : forall w n r l r' z, blank w -> reg_word n -> n <> [] -> number n = None -> decimal n = Some z -> stops r -> operands r l r' ->
  operands (w ++ n ++ r) (PWord n :: l) r'.
Proof. intros w n r l r' z Hw Hn Ne N D Hr O. eapply opd_cons; [apply reads_word; eassumption| |exact O]. cbn [operand num]. congruence. Qed.
Lemma opd_int : forall w n r l r', blank w -> stops r -> ref_tail r = None -> operands r l r' -> operands (w ++ itoa n ++ r) (PInt n :: l) r'.
Proof. intros w n r l r' Hw Hr RT O. eapply opd_cons; [apply reads_int; assumption|exact I|exact O]. Qed.
Lemma opd_name : forall w n r l r', blank w -> reg_word n -> stops r -> operands r l r' -> operands (w ++ 47 :: n ++ r) (PName n :: l) r'.
Proof. intros w n r l r' Hw Hn Hr O. eapply opd_cons; [apply reads_name; assumption|exact I|exact O]. Qed.

Lemma oper_word : forall w n, blank w -> reg_word n -> n <> [] -> number n = None -> forall r, stops r -> reads (w ++ n ++ r) (PWord n) r.
Proof. intros. apply reads_word; assumption. Qed.

Lemma nums_fmt : forall xs, Forall finite xs -> nums (map (fun x => PWord (fmt2 x)) xs) = Some (map cents xs).
Proof. induction xs as [|x xs IH]; intros H; [reflexivity|]. inversion H; subst. cbn [map nums]. destruct (cents_num x H2) as (-> & _). rewrite IH by assumption. reflexivity. Qed.

(** An operator whose operands are numbers with two decimals. *)
Fixpoint fmts (xs : list f64) (r : bytes) : bytes := match xs with [] => r | x :: xs => fmt2 x ++ B" " ++ fmts xs r end.
Lemma fmts_operands : forall xs w r, blank w -> Forall finite xs -> exists w', blank w' /\ operands (w ++ fmts xs r) (map (fun x => PWord (fmt2 x)) xs) (w' ++ r).
Proof.
  induction xs as [|x xs IH]; intros w r Hw F.
  - exists w. split; [exact Hw|]. apply opd_nil.
  - inversion F; subst. destruct (IH (B" ") r ltac:(blanks) H2) as (w' & W & O). exists w'. split; [exact W|]. cbn [fmts map]. apply opd_fmt; [exact Hw|assumption|reflexivity|exact O].
Qed.

Definition plain_op (w : bytes) : Prop := reg_word w /\ w <> [] /\ number w = None /\ decimal w = None.
Lemma drawn_fmts : forall xs w r g g1 ms1 g2 ms2, Forall finite xs -> plain_op w -> stops r ->
  op1 w (map (fun x => PWord (fmt2 x)) xs) g = Some (g1, ms1) -> drawn r g1 g2 ms2 -> drawn (fmts xs (w ++ r)) g g2 (ms1 ++ ms2).
Proof.
  intros xs w r g g1 ms1 g2 ms2 F (W1 & W2 & W3 & W4) Hr E D. destruct (fmts_operands xs [] (w ++ r) (Forall_nil _) F) as (w' & Hw' & O). cbn [app] in O.
  eapply drawn_op; [exact O|apply reads_word; assumption|exact W4|exact E|exact D].
Qed.
