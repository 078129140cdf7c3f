(** Wrapped text, the text breaker and the width of a text. *)
From Coq Require Import String List ZArith Lia Bool.
From Coq.Floats Require Import SpecFloat.
From Verif Require Import Base BaseProofs Utf8 Utf8Proofs Float64 Ttf TtfSpec Subset CharMap Text TextSpec TextContent TextCases Wrap.
Open Scope Z_scope.
Open Scope list_scope.

(** ** Measuring does not depend on what was added before *)

Fixpoint covers (t : ttf) (m : charmap) (rs : list Z) : Prop :=
  match rs with
  | [] => True
  | r :: rs => match glyph_index t r with Ok g => val_of m r = Some g /\ covers t m rs | _ => val_of m r = None end
  end.

Lemma good_none : forall t m r, good_map t m -> (forall g, glyph_index t r <> Ok g) -> val_of m r = None.
Proof.
  intros t m r G H. destruct (val_of m r) as [g|] eqn:E; [|reflexivity]. exfalso. apply (H g). eapply good_fst_in; [exact G|]. apply val_of_in. exact E.
Qed.

Lemma covers_grow : forall t m k rs, good_map t (m ++ k) -> covers t m rs -> covers t (m ++ k) rs.
Proof.
  intros t m k rs G. induction rs as [|r rs IH]; intros H; [exact Logic.I|]. cbn [covers] in *. destruct (glyph_index t r) as [g|e| |] eqn:E.
  - destruct H as (H1 & H2). split; [rewrite val_of_app, H1; reflexivity|auto].
  - apply (good_none t); [exact G|]. intros g. congruence.
  - apply (good_none t); [exact G|]. intros g. congruence.
  - apply (good_none t); [exact G|]. intros g. congruence.
Qed.

Fixpoint outcome (t : ttf) (rs : list Z) : res unit :=
  match rs with
  | [] => Ok tt
  | r :: rs => match glyph_index t r with Ok _ => outcome t rs | Err e => Err e | Panic => Panic | Diverge => Diverge end
  end.

Lemma add_covers : forall t rs m m' o, good_map t m -> add_runes t rs m = (m', o) -> good_map t m' /\ covers t m' rs /\ o = outcome t rs.
Proof.
  intros t. induction rs as [|r rs IH]; intros m m' o G H; cbn [add_runes covers outcome] in *.
  - injection H as <- <-. auto.
  - destruct (val_of m r) as [g|] eqn:V.
    + assert (E : glyph_index t r = Ok g) by (eapply good_fst_in; [exact G|apply val_of_in; exact V]). rewrite E.
      destruct (IH _ _ _ G H) as (G' & C & O). split; [exact G'|]. split; [|exact O]. split; [|exact C].
      destruct (add_runes_grows _ _ _ _ _ H G) as (_ & k & -> & _). rewrite val_of_app, V. reflexivity.
    + destruct (glyph_index t r) as [g|e| |] eqn:E.
      2-4: injection H as <- <-; auto.
      assert (G1 : good_map t (m ++ [(r, g)])).
      { destruct G as [G1 G2]. split.
        - rewrite map_app. apply NoDup_snoc; [auto|]. apply val_of_none. auto.
        - apply Forall_app. split; [auto|]. constructor; [exact E|constructor]. }
      destruct (IH _ _ _ G1 H) as (G' & C & O). split; [exact G'|]. split; [|exact O]. split; [|exact C].
      destruct (add_runes_grows _ _ _ _ _ H G1) as (_ & k & -> & _). rewrite !val_of_app, V. cbn [val_of]. rewrite Z.eqb_refl. reflexivity.
Qed.

Definition same_font (f f' : sfont) : Prop := sf_ttf f = sf_ttf f' /\ sf_kern f = sf_kern f' /\ sf_rise f = sf_rise f'.
Definition good_font (f : sfont) : Prop := good_map (sf_ttf f) (sf_map f).

Lemma content_same : forall f f' size text rs first left lg idx out sum, same_font f f' -> covers (sf_ttf f) (sf_map f) rs -> covers (sf_ttf f) (sf_map f') rs ->
  content_loop f size text rs first left lg idx out sum = content_loop f' size text rs first left lg idx out sum.
Proof.
  intros f f' size text rs first left lg idx out sum (E1 & E2 & E3). revert first left lg idx out sum.
  induction rs as [|r rs IH]; intros first left lg idx out sum C C'; [reflexivity|]. cbn [content_loop covers] in *. unfold char_width, char_index.
  destruct (glyph_index (sf_ttf f) r) as [g|e| |].
  2-4: rewrite C, C'; reflexivity.
  destruct C as (V & C), C' as (V' & C'). rewrite V, V', E1, E2, E3. cbn [bind].
  destruct (match sf_kern f' with Some k => _ | None => _ end); try reflexivity.
  destruct (glyph_width (sf_ttf f') g); try reflexivity. apply IH; assumption.
Qed.

Lemma add_text_good : forall f text f' o, good_font f -> add_text f text = (f', o) ->
  good_font f' /\ same_font f f' /\ covers (sf_ttf f) (sf_map f') (runes text) /\ o = outcome (sf_ttf f) (runes text).
Proof.
  intros f text f' o G H. unfold add_text, add_chars in H. destruct (add_runes (sf_ttf f) (runes text) (sf_map f)) as (m, o') eqn:E. injection H as <- <-.
  destruct (add_covers _ _ _ _ _ G E) as (G' & C & O). repeat split; try assumption; apply G'.
Qed.

(** The width of a text in a font, without its history. *)
Definition width_of (f : sfont) (size : Z) (text : bytes) : res f64 := snd (measure_text (mkSfont (sf_ttf f) [] (sf_kern f) (sf_rise f)) size text).

Lemma measure_text_eq : forall f size text f' v, good_font f -> measure_text f size text = (f', v) ->
  good_font f' /\ same_font f f' /\ v = width_of f size text.
Proof.
  intros f size text f' v G H. unfold width_of. set (f0 := mkSfont (sf_ttf f) [] (sf_kern f) (sf_rise f)).
  assert (G0 : good_font f0) by (apply (good_nil (sf_ttf f))).
  unfold measure_text in *. destruct (add_text f text) as (f1, o1) eqn:E1. destruct (add_text f0 text) as (f2, o2) eqn:E2.
  destruct (add_text_good _ _ _ _ G E1) as (Ga & S1 & C1 & O1). destruct (add_text_good _ _ _ _ G0 E2) as (Gb & S2 & C2 & O2).
  change (sf_ttf f0) with (sf_ttf f) in *. rewrite <- O1 in O2. subst o2.
  assert (M : measure f1 size text = measure f2 size text).
  { unfold measure, content. rewrite (content_same f1 f2); [reflexivity| | |].
    - destruct S1 as (A & A' & A''), S2 as (B1 & B2 & B3). repeat split; [rewrite <- A, <- B1|rewrite <- A', <- B2|rewrite <- A'', <- B3]; reflexivity.
    - destruct S1 as (A & _). rewrite <- A. exact C1.
    - destruct S1 as (A & _). rewrite <- A. exact C2. }
  destruct o1; injection H as <- <-; cbn [snd]; repeat split; try assumption; try apply Ga; try apply S1; try reflexivity.
  all: exact M.
Qed.

Lemma width_same : forall f f' size text, same_font f f' -> width_of f size text = width_of f' size text.
Proof. intros f f' size text (A & A' & A''). unfold width_of. rewrite A, A', A''. reflexivity. Qed.
Lemma same_trans : forall a b c, same_font a b -> same_font b c -> same_font a c.
Proof. intros a b c (A & A' & A'') (C & C' & C''). repeat split; congruence. Qed.

(** ** Wrapping *)

Fixpoint steps (n : nat) (y d : f64) : list f64 := match n with O => [] | S n => y :: steps n (fadd y d) d end.
Fixpoint after (n : nat) (y d : f64) : f64 := match n with O => y | S n => after n (fadd y d) d end.
Lemma steps_snoc : forall n y d, steps (S n) y d = steps n y d ++ [after n y d].
Proof. induction n as [|n IH]; intros y d; [reflexivity|]. change (steps (S (S n)) y d) with (y :: steps (S n) (fadd y d) d). rewrite IH. reflexivity. Qed.
Lemma after_snoc : forall n y d, after (S n) y d = fadd (after n y d) d.
Proof. induction n as [|n IH]; intros y d; [reflexivity|]. change (after (S (S n)) y d) with (after (S n) (fadd y d) d). rewrite IH. reflexivity. Qed.

Definition nonempty (s : bytes) : bool := match s with [] => false | _ => true end.

(** Groups of tokens: the ones finished and the one being filled. *)
Section Groups.
Variables (f0 : sfont) (size : Z) (w : f64).
Definition fits (g : list bytes) : Prop := (2 <= List.length g)%nat -> exists v, width_of f0 size (List.concat g) = Ok v /\ fgt v w = false.
Definition breaks (a b : list bytes) : Prop := match b with h :: _ => exists v, width_of f0 size (List.concat a ++ h) = Ok v /\ fgt v w = true | [] => False end.
Fixpoint chain (l : list (list bytes)) : Prop := match l with a :: ((b :: _) as l') => breaks a b /\ chain l' | _ => True end.

Lemma chain_snoc : forall l a b, chain (l ++ [a]) -> breaks a b -> chain ((l ++ [a]) ++ [b]).
Proof.
  induction l as [|x l IH]; intros a b H Hb; [cbn; auto|]. destruct l as [|y l].
  - cbn in *. tauto.
  - change (((x :: y :: l) ++ [a]) ++ [b]) with (x :: y :: (l ++ [a]) ++ [b]). change (breaks x y /\ chain (((y :: l) ++ [a]) ++ [b])).
    change (breaks x y /\ chain ((y :: l) ++ [a])) in H. destruct H as (H1 & H2). split; [exact H1|]. apply IH; assumption.
Qed.

Lemma breaks_grow : forall a b t, breaks a b -> breaks a (b ++ [t]).
Proof. intros a [|h b] t H; [contradiction|exact H]. Qed.
Lemma chain_grow : forall l b t, b <> [] -> chain (l ++ [b]) -> chain (l ++ [b ++ [t]]).
Proof.
  induction l as [|x l IH]; intros b t N H; [exact Logic.I|]. destruct l as [|y l].
  - cbn in *. split; [apply breaks_grow; tauto|exact Logic.I].
  - change (breaks x y /\ chain ((y :: l) ++ [b])) in H. change (breaks x y /\ chain ((y :: l) ++ [b ++ [t]])). destruct H. split; [assumption|]. apply IH; assumption.
Qed.

Lemma wrap_groups : forall step y0 toks f curr y lines f' r done cur,
  step = fadd (fofz size) (fmul (fofz size) (fconst 2 10)) ->
  good_font f -> same_font f0 f -> wrap_loop f size w toks curr y lines = (f', r) ->
  List.concat cur = curr -> lines = combine (map (fun g => trim_space (List.concat g)) done) (steps (List.length done) y0 step) -> y = after (List.length done) y0 step ->
  Forall fits (done ++ [cur]) -> chain (done ++ [cur]) -> (cur = [] -> done = []) -> Forall (fun t => t <> []) cur ->
  good_font f' /\ same_font f0 f' /\
  match r with
  | Ok (lines', curr', y') => exists done' cur', List.concat (done' ++ [cur']) = List.concat (done ++ [cur]) ++ filter nonempty toks /\
      List.concat cur' = curr' /\ lines' = combine (map (fun g => trim_space (List.concat g)) done') (steps (List.length done') y0 step) /\ y' = after (List.length done') y0 step /\
      Forall fits (done' ++ [cur']) /\ chain (done' ++ [cur']) /\ (cur' = [] -> done' = []) /\ Forall (fun t => t <> []) cur'
  | _ => True
  end.
Proof.
  intros step y0 toks. induction toks as [|tok toks IH]; intros f curr y lines f' r done cur Es G S H Ec El Ey Ff Fc Fn Ft.
  - cbn [wrap_loop] in H. injection H as <- <-. split; [exact G|]. split; [exact S|]. exists done, cur. cbn [filter]. rewrite app_nil_r. repeat (split; [assumption||reflexivity|]). exact Ft.
  - destruct tok as [|c tok].
    { cbn [wrap_loop] in H. destruct (IH _ _ _ _ _ _ _ _ Es G S H Ec El Ey Ff Fc Fn Ft) as (A1 & A2 & A3). split; [exact A1|]. split; [exact A2|]. exact A3. }
    set (tk := c :: tok) in *. change (wrap_loop f size w (tk :: toks) curr y lines) with
      (match measure_text f size (curr ++ tk) with
       | (f, Ok v) => if fgt v w then wrap_loop f size w toks tk (fadd y (fadd (fofz size) (fmul (fofz size) (fconst 2 10)))) (lines ++ [(trim_space curr, y)]) else wrap_loop f size w toks (curr ++ tk) y lines
       | (f, Err e) => (f, Err e) | (f, Panic) => (f, Panic) | (f, Diverge) => (f, Diverge) end) in H.
    change (filter nonempty (tk :: toks)) with (tk :: filter nonempty toks).
    destruct (measure_text f size (curr ++ tk)) as (f1, v) eqn:M. destruct (measure_text_eq _ _ _ _ _ G M) as (G1 & S1 & V). pose proof (same_trans _ _ _ S S1) as S2.
    rewrite <- (width_same f0 f) in V by exact S.
    destruct v as [v|e| |]; [|injection H as <- <-; auto|injection H as <- <-; auto|injection H as <- <-; auto].
    assert (Ntk : tk <> []) by discriminate.
    destruct (fgt v w) eqn:Eg.
    + rewrite <- Es in H. destruct (IH f1 tk (fadd y step) (lines ++ [(trim_space curr, y)]) f' r (done ++ [cur]) [tk] Es G1 S2 H) as (A1 & A2 & A3); try assumption.
      * exact (app_nil_r tk).
      * rewrite El, map_app, app_length. cbn [map List.length]. replace (List.length done + 1)%nat with (Datatypes.S (List.length done)) by lia. rewrite steps_snoc.
        assert (CA : forall (a b : list bytes) (x y : list f64), List.length a = List.length x -> combine (a ++ b) (x ++ y) = combine a x ++ combine b y).
        { induction a as [|a0 a IHa]; intros b x z L; destruct x as [|x0 x]; try discriminate; [reflexivity|]. cbn in *. rewrite IHa by lia. reflexivity. }
        assert (SL : forall n y d, List.length (steps n y d) = n) by (induction n; intros; cbn; auto).
        rewrite CA by (rewrite map_length, SL; reflexivity). rewrite Ec, Ey. reflexivity.
      * rewrite app_length. cbn [List.length]. replace (List.length done + 1)%nat with (Datatypes.S (List.length done)) by lia. rewrite after_snoc, Ey. reflexivity.
      * apply Forall_app. split; [exact Ff|]. apply Forall_cons; [intros L; cbn in L; lia|apply Forall_nil].
      * apply chain_snoc; [exact Fc|]. exists v. rewrite Ec. split; [symmetry; exact V|exact Eg].
      * discriminate.
      * apply Forall_cons; [exact Ntk|apply Forall_nil].
      * split; [exact A1|]. split; [exact A2|]. destruct r as [[[l' c'] y']|e| |]; auto. destruct A3 as (d' & cu & B1 & A3). exists d', cu. split; [|exact A3].
        rewrite B1, !concat_app. cbn [List.concat]. rewrite !app_nil_r, <- !app_assoc. reflexivity.
    + destruct (IH f1 (curr ++ tk) y lines f' r done (cur ++ [tk]) Es G1 S2 H) as (A1 & A2 & A3); try assumption.
      * rewrite concat_app. cbn [List.concat]. rewrite app_nil_r, Ec. reflexivity.
      * apply Forall_app in Ff as (F1 & _). apply Forall_app. split; [exact F1|]. apply Forall_cons; [|apply Forall_nil]. intros _. exists v. rewrite concat_app. cbn [List.concat]. rewrite app_nil_r, Ec. split; [symmetry; exact V|exact Eg].
      * destruct cur as [|h cur].
        { rewrite (Fn eq_refl). exact Logic.I. }
        apply chain_grow; [discriminate|exact Fc].
      * intros E. destruct cur; discriminate.
      * apply Forall_app. split; [exact Ft|]. apply Forall_cons; [exact Ntk|apply Forall_nil].
      * split; [exact A1|]. split; [exact A2|]. destruct r as [[[l' c'] y']|e| |]; auto. destruct A3 as (d' & cu & B1 & A3). exists d', cu. split; [|exact A3].
        rewrite B1, !concat_app. cbn [List.concat]. rewrite !app_nil_r, <- !app_assoc. reflexivity.
Qed.
End Groups.

Lemma chain_tail : forall f size w a b, chain f size w (a :: b) -> Forall (fun g => g <> []) b.
Proof.
  intros f size w a b. revert a. induction b as [|x b IH]; intros a H; [constructor|]. cbn [chain] in H. destruct H as (H1 & H2). constructor; [|eapply IH; exact H2].
  intros ->. exact H1.
Qed.

Lemma concat_nil : forall cur : list bytes, Forall (fun t => t <> []) cur -> List.concat cur = [] -> cur = [].
Proof. intros [|t cur] F E; [reflexivity|]. inversion F; subst. cbn [List.concat] in E. apply app_eq_nil in E as (E & _). contradiction. Qed.

Lemma combine_maps : forall (A C : Type) (a : list A) (c : list C), List.length a = List.length c -> map fst (combine a c) = a /\ map snd (combine a c) = c.
Proof. induction a as [|x a IH]; intros [|y c] H; try discriminate; [split; reflexivity|]. cbn in *. destruct (IH c ltac:(lia)) as (-> & ->). split; reflexivity. Qed.

Definition line_step (size : Z) : f64 := fadd (fofz size) (fmul (fofz size) (fconst 2 10)).

Lemma wrap_spec : forall f size w y align toks f' lines, good_font f -> wrap_lines f size w y align toks = (f', Ok lines) ->
  exists groups off, List.concat groups = filter nonempty toks /\ map fst lines = map (fun g => trim_space (List.concat g)) groups /\
    Forall (fits f size w) groups /\ chain f size w groups /\
    map snd lines = map (fun z => fsub z off) (steps (List.length groups) y (line_step size)) /\ (hasbit align aMiddle = false -> off = fofz 0).
Proof.
  intros f size w y align toks f' lines G H. unfold wrap_lines in H. destruct (wrap_loop f size w toks [] y []) as (f1, r) eqn:E.
  destruct (wrap_groups f size w (line_step size) y toks f [] y [] f1 r [] [] eq_refl G (conj eq_refl (conj eq_refl eq_refl)) E eq_refl eq_refl eq_refl) as (G1 & S1 & R).
  { apply Forall_cons; [intros L; cbn in L; lia|apply Forall_nil]. } { exact Logic.I. } { auto. } { apply Forall_nil. }
  destruct r as [[[ls curr] last]|e| |]; try discriminate. destruct R as (dn & cur & R1 & R2 & R3 & R4 & R5 & R6 & R7 & R8). cbn [app List.concat] in R1.
  assert (SL : forall n y d, List.length (steps n y d) = n) by (induction n; intros; cbn; auto).
  assert (K : exists groups, List.concat groups = filter nonempty toks /\ Forall (fits f size w) groups /\ chain f size w groups /\
    exists last', (match curr with [] => (ls, last) | _ => (ls ++ [(trim_space curr, last)], fadd last (line_step size)) end) =
      (combine (map (fun g => trim_space (List.concat g)) groups) (steps (List.length groups) y (line_step size)), last')).
  { destruct curr as [|c curr].
    - pose proof (concat_nil _ R8 R2) as ->. rewrite (R7 eq_refl) in *. exists []. split; [exact R1|]. split; [apply Forall_nil|]. split; [exact Logic.I|]. exists last. rewrite R3. reflexivity.
    - exists (dn ++ [cur]). split; [exact R1|]. split; [exact R5|]. split; [exact R6|]. eexists. rewrite R3, R4. f_equal.
      rewrite map_app, app_length. cbn [map List.length]. replace (List.length dn + 1)%nat with (S (List.length dn)) by lia. rewrite steps_snoc.
      assert (CA : forall (a b : list bytes) (x y : list f64), List.length a = List.length x -> combine (a ++ b) (x ++ y) = combine a x ++ combine b y).
      { induction a as [|a0 a IHa]; intros b x z L; destruct x as [|x0 x]; try discriminate; [reflexivity|]. cbn in *. rewrite IHa by lia. reflexivity. }
      rewrite CA by (rewrite map_length, SL; reflexivity). rewrite R2. reflexivity. }
  destruct K as (groups & K1 & K2 & K3 & last' & K4). fold (line_step size) in H. rewrite K4 in H. cbv beta iota zeta in H.
  set (off := if hasbit align aMiddle then _ else _) in H. assert (Hl : lines = map (fun x => (fst x, fsub (snd x) off)) (combine (map (fun g => trim_space (List.concat g)) groups) (steps (List.length groups) y (line_step size)))) by congruence.
  destruct (combine_maps _ _ (map (fun g => trim_space (List.concat g)) groups) (steps (List.length groups) y (line_step size))) as (M1 & M2); [rewrite map_length, SL; reflexivity|].
  exists groups, off. split; [exact K1|]. split; [rewrite Hl, map_map; cbn [fst]; exact M1|]. split; [exact K2|]. split; [exact K3|]. split.
  - rewrite Hl, map_map. cbn [snd]. rewrite <- (map_map snd (fun z => fsub z off)), M2. reflexivity.
  - intros N. unfold off. rewrite N. reflexivity.
Qed.

(** ** White space *)

Definition white (s : bytes) : Prop := exists l, Forall (fun x => In x spaces) l /\ s = List.concat l.

Lemma strip_prefix_eq : forall p s r, strip_prefix p s = Some r -> s = p ++ r.
Proof.
  induction p as [|a p IH]; intros s r H; cbn [strip_prefix] in H; [injection H as ->; reflexivity|]. destruct s as [|b s]; [discriminate|].
  destruct (Z.eqb_spec a b); [subst|discriminate]. apply IH in H. subst. reflexivity.
Qed.
Lemma strip_any_eq : forall ps s r, strip_any ps s = Some r -> exists p, In p ps /\ s = p ++ r.
Proof.
  induction ps as [|p ps IH]; intros s r H; cbn [strip_any] in H; [discriminate|]. destruct (strip_prefix p s) eqn:E.
  - exists p. split; [left; reflexivity|]. apply strip_prefix_eq. congruence.
  - destruct (IH _ _ H) as (q & Q1 & Q2). exists q. split; [right; exact Q1|exact Q2].
Qed.
Lemma strip_all_eq : forall ps n s, exists l, Forall (fun x => In x ps) l /\ s = List.concat l ++ strip_all ps n s.
Proof.
  intros ps. induction n as [|n IH]; intros s; cbn [strip_all]; [exists []; split; [constructor|reflexivity]|].
  destruct (strip_any ps s) as [r|] eqn:E; [|exists []; split; [constructor|reflexivity]].
  apply strip_any_eq in E as (p & Hp & ->). destruct (IH r) as (l & Hl & El). exists (p :: l). split; [constructor; assumption|]. cbn [List.concat]. rewrite <- app_assoc, <- El. reflexivity.
Qed.
Lemma trim_white : forall s, exists a b, white a /\ white b /\ s = a ++ trim_space s ++ b.
Proof.
  intros s. unfold trim_space. destruct (strip_all_eq spaces (List.length s) s) as (l & Hl & El). set (t := strip_all spaces (List.length s) s) in *.
  destruct (strip_all_eq (map (@rev Z) spaces) (List.length t) (rev t)) as (k & Hk & Ek). set (u := strip_all (map (@rev Z) spaces) (List.length t) (rev t)) in *.
  exists (List.concat l), (rev (List.concat k)). split; [exists l; auto|]. split.
  - clear - Hk. induction Hk as [|x k Hx Hk IH]; [exists []; split; [constructor|reflexivity]|]. cbn [List.concat]. rewrite rev_app_distr. destruct IH as (l & Hl & ->).
    apply in_map_iff in Hx as (y & <- & Hy). rewrite rev_involutive. exists (l ++ [y]). split; [apply Forall_app; split; [exact Hl|constructor; [exact Hy|constructor]]|].
    rewrite concat_app. cbn [List.concat]. rewrite app_nil_r. reflexivity.
  - rewrite El at 1. f_equal. rewrite <- (rev_involutive t), Ek, rev_app_distr. reflexivity.
Qed.

(** ** Breaking *)

Lemma break_concat : forall rs tmp, List.concat (break_loop rs tmp) = tmp ++ flat_map string_of_rune rs.
Proof.
  induction rs as [|r rs IH]; intros tmp; cbn [break_loop flat_map].
  - destruct tmp; cbn; rewrite ?app_nil_r; reflexivity.
  - destruct (r =? 32); cbn [List.concat]; rewrite IH; [reflexivity|]. rewrite <- app_assoc. reflexivity.
Qed.
Lemma string_of_rune_no_space : forall r, r <> 32 -> ~ In 32 (string_of_rune r).
Proof.
  intros r N. unfold string_of_rune. destruct (_ || _) eqn:E; [|cbn; lia]. unfold utf8. assert (0 <= r) by lia.
  assert (D : forall a b, 0 <= a -> 0 < b -> 0 <= a / b) by (intros; apply Z.div_pos; assumption).
  assert (M : forall a, 0 <= a mod 64) by (intros; apply Z.mod_pos_bound; lia).
  pose proof (D r 64 ltac:(lia) ltac:(lia)). pose proof (D r 4096 ltac:(lia) ltac:(lia)). pose proof (D r 262144 ltac:(lia) ltac:(lia)).
  pose proof (M r). pose proof (M (r / 64)). pose proof (M (r / 4096)). clear D M.
  destruct (r <=? 127); [cbn [In]; lia|]. destruct (r <=? 2047); [cbn [In]; lia|]. destruct (r <=? 65535); cbn [In]; lia.
Qed.
Lemma break_tokens : forall rs tmp tok, ~ In 32 tmp -> In tok (break_loop rs tmp) -> tok = B" " \/ ~ In 32 tok.
Proof.
  induction rs as [|r rs IH]; intros tmp tok Ht H; cbn [break_loop] in H.
  - destruct tmp; [destruct H|]. destruct H as [<-|[]]. right. exact Ht.
  - destruct (Z.eqb_spec r 32) as [->|N].
    + destruct H as [<-|[<-|H]]; [right; exact Ht|left; reflexivity|]. apply (IH [] tok); [intros []|exact H].
    + apply (IH _ _) in H; [exact H|]. rewrite in_app_iff. intros [I|I]; [auto|]. exact (string_of_rune_no_space r N I).
Qed.
Lemma flat_runes : forall rs, Forall scalar rs -> flat_map string_of_rune rs = flat_map utf8 rs.
Proof. intros rs H. induction H; cbn [flat_map]; [reflexivity|]. rewrite string_of_rune_scalar by assumption. congruence. Qed.
Lemma break_valid : forall s, valid_utf8 s -> List.concat (break_text s) = s.
Proof. intros s (rs & H & ->). unfold break_text. rewrite break_concat. cbn [app]. rewrite runes_utf8 by exact H. apply flat_runes. exact H. Qed.

Lemma concat_filter : forall l, List.concat (filter nonempty l) = List.concat l.
Proof. induction l as [|[|c x] l IH]; cbn [filter nonempty List.concat]; [reflexivity|exact IH|]. rewrite IH. reflexivity. Qed.

(** Joined lines are the text but for white space at the line ends. *)
Inductive joined : list bytes -> bytes -> Prop :=
| joined_nil : joined [] []
| joined_cons : forall a l b ls s, white a -> white b -> joined ls s -> joined (l :: ls) (a ++ l ++ b ++ s).
Lemma joined_groups : forall gs, joined (map (fun g => trim_space (List.concat g)) gs) (List.concat (List.concat gs)).
Proof.
  induction gs as [|g gs IH]; [constructor|]. cbn [map List.concat]. rewrite concat_app. destruct (trim_white (List.concat g)) as (a & b & Ha & Hb & E).
  rewrite E at 2. rewrite <- !app_assoc. constructor; assumption.
Qed.

(** ** Widths *)

Definition total (l : list Z) : Z := fold_right Z.add 0 l.
Lemma total_app : forall a b, total (a ++ b) = total a + total b.
Proof. unfold total. induction a as [|x a IH]; intros b; cbn [app fold_right]; [lia|]. rewrite IH. lia. Qed.

Definition char_width_of (d : bytes) (u r w : Z) : Prop := exists g a, char_glyph d r g /\ advance d g a /\ w = a * 1000 / u.

Lemma sum_total : forall f l prev, sf_kern f = None -> sum_of f prev l = total (map (fun x => match glyph_width (sf_ttf f) (snd x) with Ok w => w | _ => 0 end) l).
Proof.
  intros f l prev K. revert prev. induction l as [|[r g] l IH]; intros prev; [reflexivity|]. cbn [sum_of map snd total fold_right]. rewrite IH. unfold kern_at. rewrite K. unfold total. lia.
Qed.

Lemma measure_sum : forall d f text, font_ready d f text -> sf_kern f = None -> exists u ws, units_per_em d u /\ 0 < u /\
  Forall2 (char_width_of d u) (runes text) ws /\ forall size, measure f size text = Ok (scale_width (total ws) size).
Proof.
  intros d f text RD K. pose proof (ready_glyphs _ _ _ RD) as (Hu & l & L1 & L2 & L3). destruct RD as (Hb & _ & P & (u & U & Hpu) & _ & HG).
  exists u, (map (fun x => match glyph_width (sf_ttf f) (snd x) with Ok w => w | _ => 0 end) l). split; [exact U|]. split; [exact Hpu|]. split.
  - rewrite <- L1. assert (I : forall x, In x l -> In (fst x) (runes text)) by (intros x Hx; rewrite <- L1; apply in_map; exact Hx). clear L1 L2.
    induction L3 as [|x l (X1 & X2 & X3) L3 IH]; [constructor|]. cbn [map]. constructor.
    + destruct (HG _ _ (I x (or_introl eq_refl)) X1) as (_ & a & A). exists (snd x), a. split; [exact X2|]. split; [exact A|]. rewrite (X3 a u A U Hpu). reflexivity.
    + apply IH. intros y Hy. apply I. right. exact Hy.
  - intros size. unfold measure. rewrite (content_eq f size text l Hu L1 L2). cbn [snd bind]. rewrite sum_total by exact K. reflexivity.
Qed.

Lemma measure_concat : forall d f a b, font_ready d f a -> font_ready d f b -> valid_utf8 a -> sf_kern f = None ->
  exists na nb, forall size, measure f size a = Ok (scale_width na size) /\ measure f size b = Ok (scale_width nb size) /\ measure f size (a ++ b) = Ok (scale_width (na + nb) size).
Proof.
  intros d f a b Ra Rb V K. pose proof (ready_glyphs _ _ _ Ra) as (Hu & la & A1 & A2 & _). pose proof (ready_glyphs _ _ _ Rb) as (_ & lb & B1 & B2 & _).
  exists (sum_of f None la), (sum_of f None lb). intros size. unfold measure.
  rewrite (content_eq f size a la Hu A1 A2), (content_eq f size b lb Hu B1 B2). rewrite (content_eq f size (a ++ b) (la ++ lb) Hu).
  - cbn [snd bind]. rewrite !sum_total by exact K. rewrite map_app, total_app. auto.
  - rewrite map_app, A1, B1. symmetry. apply runes_app. exact V.
  - apply Forall_app. split; assumption.
Qed.
