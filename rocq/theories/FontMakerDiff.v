(** The text of the differences makes the encoding of the map file. *)
From Coq Require Import String List ZArith Lia Bool.
From Coq.Floats Require Import SpecFloat.
From Verif Require Import Base BaseProofs Float64 Ttf Subset PdfSyntax PdfSyntaxProofs FontMaker FontMakerSpec.
Open Scope Z_scope.
Open Scope list_scope.

(** The objects in the text *)
Fixpoint diff_objs (c last : Z) (fms ref : list fmap) : list pv :=
  match fms, ref with
  | f :: fms, r :: ref =>
    if beqb (fm_name f) (fm_name r) then diff_objs (c + 1) last fms ref
    else (if c =? last + 1 then [] else [PInt c]) ++ PName (fm_name f) :: diff_objs (c + 1) c fms ref
  | _, _ => []
  end.
Definition spell1 (v : pv) : bytes := match v with PInt n => itoa n | PName x => B"/" ++ x | _ => [] end.
Definition spelled (l : list pv) : bytes := flat_map (fun v => spell1 v ++ B" ") l.
Lemma diff_spelled : forall fms ref c last, diff_text c last fms ref = spelled (diff_objs c last fms ref).
Proof.
  induction fms as [|f fms IH]; intros [|r ref] c last; cbn [diff_text diff_objs]; try reflexivity. destruct (beqb (fm_name f) (fm_name r)); [apply IH|].
  unfold spelled in *. rewrite flat_map_app. cbn [flat_map]. rewrite <- IH. destruct (c =? last + 1); cbn [flat_map]; rewrite <- ?app_assoc; reflexivity.
Qed.

(** Numbers stand before names only. *)
Fixpoint spellable (l : list pv) : Prop :=
  match l with
  | [] => True
  | PName x :: l => glyph_name x /\ spellable l
  | PInt _ :: (PName _ :: _) as l => spellable l
  | _ => False
  end.
Lemma objs_spellable : forall fms ref c last, Forall (fun f => glyph_name (fm_name f)) fms -> spellable (diff_objs c last fms ref).
Proof.
  induction fms as [|f fms IH]; intros [|r ref] c last H; cbn [diff_objs]; try exact Logic.I. inversion H; subst. destruct (beqb (fm_name f) (fm_name r)); [apply IH; assumption|].
  destruct (c =? last + 1); cbn [app]; cbn [spellable]; (split; [assumption|apply IH; assumption]).
Qed.

Lemma name_regular : forall x, glyph_name x -> reg_word x.
Proof. intros x (_ & A). unfold reg_word. apply Forall_forall. intros c Hc. rewrite forallb_forall in A. specialize (A c Hc). unfold name_char in A. apply andb_true_iff in A as (A & _). apply andb_true_iff in A as (A & _). exact A. Qed.
Lemma sp_blank : PdfSyntaxProofs.blank (B" ").
Proof. constructor; [reflexivity|constructor]. Qed.
Fixpoint joined (l : list pv) : bytes := match l with [] => [] | [v] => spell1 v | v :: l => spell1 v ++ B" " ++ joined l end.
Definition rest (l : list pv) : bytes := match l with [] => B"]" | _ => B" " ++ joined l ++ B"]" end.
Lemma joined_cons : forall v l, joined (v :: l) ++ B"]" = spell1 v ++ rest l.
Proof. intros v [|u l]; cbn [joined rest]; rewrite <- ?app_assoc; reflexivity. Qed.
Lemma spelled_joined : forall l, l <> [] -> spelled l = joined l ++ B" ".
Proof.
  induction l as [|v l IH]; intros H; [contradiction|]. destruct l as [|u l]; [unfold spelled; cbn [flat_map joined]; rewrite app_nil_r; reflexivity|].
  change (spelled (v :: u :: l)) with ((spell1 v ++ B" ") ++ spelled (u :: l)). rewrite IH by discriminate. change (joined (v :: u :: l)) with (spell1 v ++ B" " ++ joined (u :: l)). rewrite <- !app_assoc. reflexivity.
Qed.
Lemma rest_stops : forall l, stops (rest l).
Proof. intros [|v l]; reflexivity. Qed.
Lemma joined_reads : forall n l w, (List.length l <= n)%nat -> spellable l -> PdfSyntaxProofs.blank w -> reads_items (w ++ joined l ++ B"]") l [].
Proof.
  induction n as [|n IH]; intros l w L H W.
  { destruct l; [|cbn [List.length] in L; lia]. rewrite <- (app_nil_r (B"]")). apply items_end. exact W. }
  destruct l as [|v l]; [rewrite <- (app_nil_r (B"]")); apply items_end; exact W|]. cbn [List.length] in L.
  assert (R : spellable l -> reads_items (rest l) l []).
  { intros Hl. destruct l as [|u l]; [cbn [rest]; rewrite <- (app_nil_r (B"]")); apply (items_end []); constructor|]. unfold rest. apply IH; [lia|exact Hl|exact sp_blank]. }
  rewrite joined_cons. destruct v as [k|?|x|?|?|?|?|?]; try contradiction.
  - assert (Hl : spellable l /\ exists y r, l = PName y :: r) by (destruct l as [|[] ?]; cbn [spellable] in H; try contradiction; split; [exact H|eauto]). destruct Hl as (Hl & y & r & El).
    destruct (itoa_hd k) as (c & t & Ec & Wc & Dc). eapply (items_step _ c (t ++ rest l) (PInt k) (rest l)).
    + rewrite skip_blank by exact W. cbn [spell1]. rewrite Ec. cbn [app]. rewrite skip_start by exact Wc. reflexivity.
    + destruct Dc as [Dc| ->]; [unfold is_digit in Dc; lia|lia].
    + cbn [spell1]. apply reads_int; [exact W|apply rest_stops|]. rewrite El. unfold rest. rewrite joined_cons. cbn [spell1]. rewrite <- !app_assoc.
      match goal with |- ref_tail (B" " ++ B"/" ++ ?z) = None => change (B" " ++ B"/" ++ z) with (B" " ++ 47 :: z) end. apply ref_none; [exact sp_blank|reflexivity|reflexivity].
    + apply R. exact Hl.
  - destruct H as (Hx & Hl). eapply (items_step _ 47 (x ++ rest l) (PName x) (rest l)).
    + rewrite skip_blank by exact W. cbn [spell1]. rewrite <- !app_assoc. reflexivity.
    + lia.
    + cbn [spell1]. rewrite <- (app_assoc (B"/") x (rest l)). change (B"/" ++ x ++ rest l) with (47 :: x ++ rest l). apply reads_name; [exact W|apply name_regular; exact Hx|apply rest_stops].
    + apply R. exact Hl.
Qed.

(** Trimming takes the last space only. *)
Lemma name_ends : forall x, glyph_name x -> exists m y, x = m ++ [y] /\ 33 <= y <= 126.
Proof.
  intros n (Ne & A). destruct (exists_last Ne) as (m & y & ->). exists m, y. split; [reflexivity|]. rewrite forallb_app in A. apply andb_true_iff in A as (_ & A). cbn [forallb] in A.
  unfold name_char, regular, wsp, plain_char in A. lia.
Qed.
Lemma joined_ends : forall l, spellable l -> l <> [] -> exists x m y, joined l = x :: m ++ [y] /\ 33 <= x <= 126 /\ 33 <= y <= 126.
Proof.
  assert (Hd : forall l, spellable l -> l <> [] -> exists x m, joined l = x :: m /\ 33 <= x <= 126).
  { intros [|v l] H N; [contradiction|]. assert (V : exists x m, spell1 v = x :: m /\ 33 <= x <= 126).
    { destruct v as [k|?|z|?|?|?|?|?]; try contradiction; cbn [spell1]; [|exists 47, z; split; [reflexivity|lia]].
      destruct (itoa_hd k) as (c & t & E & _ & D). exists c, t. split; [exact E|]. destruct D as [D| ->]; [unfold is_digit in D; lia|lia]. }
    destruct V as (x & m & E & R). destruct l as [|u l]; [exists x, m; split; [exact E|exact R]|]. exists x, (m ++ B" " ++ joined (u :: l)). split; [|exact R]. change (joined (v :: u :: l)) with (spell1 v ++ B" " ++ joined (u :: l)). rewrite E. reflexivity. }
  assert (Tl : forall l, spellable l -> l <> [] -> exists m y, joined l = m ++ [y] /\ m <> [] /\ 33 <= y <= 126).
  { induction l as [|v l IH]; intros H N; [contradiction|]. destruct l as [|u l].
    - destruct v as [k|?|z|?|?|?|?|?]; try contradiction. destruct H as (Hz & _). destruct (name_ends z Hz) as (m & y & -> & R). exists (47 :: m), y. split; [reflexivity|]. split; [discriminate|exact R].
    - assert (H' : spellable (u :: l)) by (destruct v as [k|?|z|?|?|?|?|?]; try contradiction; [destruct u; try contradiction; exact H|apply H]).
      destruct (IH H' ltac:(discriminate)) as (m & y & E & Nm & R). change (joined (v :: u :: l)) with (spell1 v ++ B" " ++ joined (u :: l)). rewrite E. exists (spell1 v ++ B" " ++ m), y.
      split; [rewrite <- !app_assoc; reflexivity|]. split; [|exact R]. intros X. apply app_eq_nil in X as (_ & X). discriminate X. }
  intros l H N. destruct (Hd l H N) as (x & m & E & R). destruct (Tl l H N) as (m' & y & E' & Nm & R'). rewrite E in E'. destruct m' as [|x' m']; [contradiction|]. injection E' as <- ->.
  exists x, m', y. split; [exact E|]. split; assumption.
Qed.
Lemma trimmed_text : forall l, spellable l -> trim_space (spelled l) = joined l.
Proof.
  intros l H. destruct l as [|v l]; [reflexivity|]. rewrite spelled_joined by discriminate. destruct (joined_ends (v :: l) H ltac:(discriminate)) as (x & m & y & E & R & R').
  change (joined (v :: l) ++ B" ") with ([] ++ joined (v :: l) ++ B" "). apply trim_space_pad; [reflexivity|reflexivity|]. rewrite E. apply trimmed_ascii; unfold ascii, is_space1; lia.
Qed.
Lemma text_reads : forall l, spellable l -> reads (B"[" ++ trim_space (spelled l) ++ B"]") (PArr l) [].
Proof. intros l H. rewrite trimmed_text by exact H. apply (reads_arr [] _ l []); [constructor|]. apply (joined_reads (List.length l) l []); [lia|exact H|constructor]. Qed.

(** ** What the objects mean *)
Fixpoint differing (c : Z) (fms ref : list fmap) : list (Z * bytes) :=
  match fms, ref with
  | f :: fms, r :: ref => if beqb (fm_name f) (fm_name r) then differing (c + 1) fms ref else (c, fm_name f) :: differing (c + 1) fms ref
  | _, _ => []
  end.
Lemma diff_mean : forall fms ref c last at_, at_ = Some (last + 1) \/ last + 1 < c -> differences (diff_objs c last fms ref) at_ = Some (differing c fms ref).
Proof.
  induction fms as [|f fms IH]; intros [|r ref] c last at_ H; cbn [diff_objs differing]; try reflexivity.
  destruct (beqb (fm_name f) (fm_name r)); [apply IH; destruct H; [left; assumption|right; lia]|].
  destruct (Z.eqb_spec c (last + 1)).
  - destruct H as [->|H]; [|lia]. cbn [app differences]. rewrite <- e. rewrite (IH ref (c + 1) c (Some (c + 1))) by (left; reflexivity). reflexivity.
  - cbn [app differences]. rewrite (IH ref (c + 1) c (Some (c + 1))) by (left; reflexivity). reflexivity.
Qed.
Lemma diff_start : forall f0 f1 fms r0 r1 ref, (fm_name f0 = fm_name r0 -> fm_name f1 = fm_name r1) ->
  differences (diff_objs 0 0 (f0 :: f1 :: fms) (r0 :: r1 :: ref)) None = Some (differing 0 (f0 :: f1 :: fms) (r0 :: r1 :: ref)).
Proof.
  intros f0 f1 fms r0 r1 ref H. cbn [diff_objs differing]. change (0 =? 0 + 1) with false. cbv iota. destruct (beqb (fm_name f0) (fm_name r0)) eqn:E0.
  - apply beqb_eq in E0. rewrite (proj2 (beqb_eq _ _) (H E0)). apply diff_mean. right. lia.
  - cbn [app differences]. change (0 + 1) with 1. pose proof (diff_mean (f1 :: fms) (r1 :: ref) 1 0 (Some 1) (or_introl eq_refl)) as M. cbn [diff_objs differing] in M. change (0 + 1) with 1 in M. rewrite M. reflexivity.
Qed.
Lemma differing_ge : forall fms ref c e, In e (differing c fms ref) -> c <= fst e.
Proof.
  induction fms as [|f fms IH]; intros [|r ref] c e H; cbn [differing] in H; try contradiction. destruct (beqb (fm_name f) (fm_name r)); [apply IH in H; lia|].
  destruct H as [<-|H]; [cbn; lia|apply IH in H; lia].
Qed.
Lemma encoded_low : forall l base c, (forall e, In e l -> c < fst e) -> encoded base l c = base c.
Proof.
  intros l base c H. unfold encoded. generalize (base c). induction l as [|e l IH]; intros a; [reflexivity|]. cbn [fold_left]. pose proof (H e (or_introl eq_refl)). destruct (Z.eqb_spec (fst e) c); [lia|].
  apply IH. intros x Hx. apply H. right. exact Hx.
Qed.
Lemma encoded_step : forall base x n l c, encoded base ((x, n) :: l) c = encoded (fun y => if x =? y then n else base y) l c.
Proof. intros. unfold encoded. cbn [fold_left fst snd]. destruct (x =? c); reflexivity. Qed.
Lemma encoded_diff : forall fms ref base c0 c f r, nth_error fms (Z.to_nat (c - c0)) = Some f -> nth_error ref (Z.to_nat (c - c0)) = Some r -> c0 <= c -> base c = fm_name r ->
  encoded base (differing c0 fms ref) c = fm_name f.
Proof.
  induction fms as [|f0 fms IH]; intros [|r0 ref] base c0 c f r E1 E2 L Hb; [destruct (Z.to_nat (c - c0)); discriminate|destruct (Z.to_nat (c - c0)); discriminate|destruct (Z.to_nat (c - c0)); discriminate|].
  cbn [differing]. destruct (Z.eq_dec c c0) as [->|Ne].
  - replace (Z.to_nat (c0 - c0)) with 0%nat in * by lia. cbn [nth_error] in *. injection E1 as ->. injection E2 as ->. destruct (beqb (fm_name f) (fm_name r)) eqn:Eb.
    + rewrite encoded_low; [apply beqb_eq in Eb; congruence|]. intros e He. apply differing_ge in He. lia.
    + rewrite encoded_step, encoded_low; [rewrite Z.eqb_refl; reflexivity|]. intros e He. apply differing_ge in He. lia.
  - replace (Z.to_nat (c - c0)) with (S (Z.to_nat (c - (c0 + 1)))) in * by lia. cbn [nth_error] in *. destruct (beqb (fm_name f0) (fm_name r0)).
    + eapply IH; [exact E1|exact E2|lia|exact Hb].
    + rewrite encoded_step. eapply IH; [exact E1|exact E2|lia|]. destruct (Z.eqb_spec c0 c); [lia|exact Hb].
Qed.

Theorem encoding_makes : forall fms ref (e b : Z -> bytes), List.length fms = 256%nat -> List.length ref = 256%nat -> Forall (fun f => glyph_name (fm_name f)) fms ->
  (forall c, 0 <= c < 256 -> exists f, nth_error fms (Z.to_nat c) = Some f /\ fm_name f = e c) -> (forall c, 0 <= c < 256 -> exists r, nth_error ref (Z.to_nat c) = Some r /\ fm_name r = b c) ->
  (e 0 = b 0 -> e 1 = b 1) -> makes (font_encoding fms ref) b e.
Proof.
  intros fms ref e b L1 L2 G F R D. exists (diff_objs 0 0 fms ref), (differing 0 fms ref). split; [|split].
  - unfold font_encoding. rewrite diff_spelled. apply text_reads. apply objs_spellable. exact G.
  - destruct (F 0 ltac:(lia)) as (f0 & X0 & Y0). destruct (F 1 ltac:(lia)) as (f1 & X1 & Y1). destruct (R 0 ltac:(lia)) as (r0 & Z0 & W0). destruct (R 1 ltac:(lia)) as (r1 & Z1 & W1).
    change (Z.to_nat 0) with 0%nat in *. change (Z.to_nat 1) with 1%nat in *. clear F R G L1 L2.
    destruct fms as [|a0 [|a1 fms]]; try discriminate. destruct ref as [|b0 [|b1 ref]]; try discriminate. cbn [nth_error] in *. injection X0 as ->. injection X1 as ->. injection Z0 as ->. injection Z1 as ->.
    apply diff_start. intros X. rewrite Y1, W1. apply D. congruence.
  - intros c C. destruct (F c C) as (f & X & Y). destruct (R c C) as (r & X' & Y'). rewrite <- Y. apply (encoded_diff fms ref b 0 c f r); [replace (c - 0) with c by lia; exact X|replace (c - 0) with c by lia; exact X'|lia|congruence].
Qed.
