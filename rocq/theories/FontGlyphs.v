(** The glyph and location tables of the embedded font. *)
From Coq Require Import String List ZArith Lia Bool Sorted Permutation.
From Verif Require Import Base BaseProofs Ttf TtfSpec TtfProofs TtfTables Subset FontFile.
Open Scope Z_scope.
Open Scope list_scope.

(** ** Checksums *)
Lemma sum4_ok : forall n d a b c e, (List.length d < n)%nat -> Z.of_nat (List.length d) mod 4 = 0 ->
  exists s, sum4 d a b c e = Ok s /\ s mod 4294967296 = (16777216 * a + 65536 * b + 256 * c + e + words d) mod 4294967296.
Proof.
  induction n as [|n IH]; intros d a b c e Hn Hd; [lia|].
  destruct d as [|p [|q [|r [|s d]]]]; cbn [List.length] in *; try (cbn in Hd; lia).
  - cbn [sum4 words]. eexists. split; [reflexivity|].
    set (M := 4294967296). assert (HM : M <> 0) by discriminate. clearbody M.
    pose proof (Z.div_mod (a * 16777216) M HM). pose proof (Z.div_mod (b * 65536) M HM).
    pose proof (Z.div_mod (c * 256) M HM). pose proof (Z.div_mod e M HM).
    set (q1 := a * 16777216 / M) in *. set (q2 := b * 65536 / M) in *. set (q3 := c * 256 / M) in *. set (q4 := e / M) in *.
    set (r1 := (a * 16777216) mod M) in *. set (r2 := (b * 65536) mod M) in *. set (r3 := (c * 256) mod M) in *. set (r4 := e mod M) in *.
    clearbody q1 q2 q3 q4 r1 r2 r3 r4.
    replace (16777216 * a + 65536 * b + 256 * c + e + 0) with (r1 + r2 + r3 + r4 + (q1 + q2 + q3 + q4) * M) by (ring_simplify; lia).
    symmetry. apply Z_mod_plus_full.
  - cbn [sum4 words]. destruct (IH d (a + p) (b + q) (c + r) (e + s)) as (v & E & V).
    + lia.
    + replace (Z.of_nat (S (S (S (S (List.length d)))))) with (Z.of_nat (List.length d) + 1 * 4) in Hd by lia.
      rewrite Z.mod_add in Hd by lia. auto.
    + exists v. split; [exact E|]. rewrite V. f_equal. ring.
Qed.
Lemma check_sum_ok : forall d, blen d mod 4 = 0 -> check_sum d = Ok (words d mod 4294967296).
Proof.
  intros d H. destruct (sum4_ok (S (List.length d)) d 0 0 0 0) as (s & E & V); [lia|exact H|].
  unfold check_sum. rewrite E. cbn [bind]. rewrite V. f_equal.
Qed.

Lemma padded_mod : forall n, paddedLength n mod 4 = 0.
Proof. intros. unfold paddedLength. apply Z.mod_mul. lia. Qed.
Lemma padded_le : forall n, n <= paddedLength n < n + 4.
Proof. intros. unfold paddedLength. pose proof (Z.div_mod (n + 3) 4). pose proof (Z.mod_pos_bound (n + 3) 4). lia. Qed.
Lemma padded_same : forall n, n mod 4 = 0 -> paddedLength n = n.
Proof. intros n H. pose proof (padded_le n). pose proof (padded_mod n). pose proof (Z.div_mod n 4). pose proof (Z.div_mod (paddedLength n) 4). lia. Qed.

(** ** The loop over all glyphs *)
(** [taken gs idx i]: the loop, standing at glyph [idx] with [gs] to come, copies
    glyph [i]. *)
Fixpoint taken (gs : list Z) (idx i : Z) : bool :=
  match gs with
  | [] => false
  | g :: r => if g <? idx then false else if g =? i then true else if i <? g then false else taken r (g + 1) i
  end.

Lemma taken_step : forall g r idx i, g <> idx -> idx < i -> taken (g :: r) (idx + 1) i = taken (g :: r) idx i.
Proof. intros g r idx i H1 H2. cbn [taken]. destruct (Z.ltb_spec g (idx + 1)); destruct (Z.ltb_spec g idx); try lia; auto. Qed.
Lemma taken_ne : forall g r idx, g <> idx -> taken (g :: r) idx idx = false.
Proof. intros g r idx H. cbn [taken]. destruct (Z.ltb_spec g idx); auto. destruct (Z.eqb_spec g idx); [lia|]. destruct (Z.ltb_spec idx g); [auto|lia]. Qed.
Lemma taken_eq : forall r idx i, idx < i -> taken (idx :: r) idx i = taken r (idx + 1) i.
Proof. intros r idx i H. cbn [taken]. rewrite Z.ltb_irrefl. destruct (Z.eqb_spec idx i); [lia|]. destruct (Z.ltb_spec i idx); [lia|auto]. Qed.

(** Sorted lists without repetition are copied completely. *)
Lemma taken_sorted : forall gs idx i, StronglySorted Z.lt gs -> Forall (fun g => idx <= g) gs -> taken gs idx i = existsb (Z.eqb i) gs.
Proof.
  induction gs as [|g r IH]; intros idx i S F; [reflexivity|]. apply StronglySorted_inv in S as [S1 S2]. inversion F as [|? ? F1 F2]; subst. cbn [taken existsb].
  destruct (Z.ltb_spec g idx); [lia|]. rewrite (Z.eqb_sym i g). destruct (Z.eqb_spec g i); [reflexivity|]. cbn [orb].
  destruct (Z.ltb_spec i g).
  - symmetry. rewrite <- not_true_iff_false, existsb_exists. intros (x & Hx & E). apply Z.eqb_eq in E. subst x.
    rewrite Forall_forall in S2. apply S2 in Hx. lia.
  - apply IH; [auto|]. eapply Forall_impl; [|exact S2]. cbn beta. intros. lia.
Qed.
Lemma taken_sound : forall gs idx i, taken gs idx i = true -> In i gs.
Proof.
  induction gs as [|g r IH]; intros idx i H; [discriminate|]. cbn [taken] in H. destruct (g <? idx); [discriminate|].
  destruct (Z.eqb_spec g i); [left; auto|]. destruct (i <? g); [discriminate|]. right. eauto.
Qed.
(** Behind a repeated glyph nothing is copied. *)
Lemma taken_dup : forall gs idx v i, StronglySorted Z.le gs -> (2 <= count_occ Z.eq_dec gs v)%nat -> v < i -> taken gs idx i = false.
Proof.
  induction gs as [|g r IH]; intros idx v i S C L; [reflexivity|]. apply StronglySorted_inv in S as [S1 S2]. cbn [taken].
  destruct (Z.ltb_spec g idx); [reflexivity|].
  assert (Hg : g <= v).
  { destruct (Z.eq_dec g v); [lia|]. rewrite count_occ_cons_neq in C by auto.
    assert (I : In v r) by (apply (count_occ_In Z.eq_dec); lia). rewrite Forall_forall in S2. apply S2 in I. lia. }
  destruct (Z.eqb_spec g i); [lia|]. destruct (Z.ltb_spec i g); [lia|].
  destruct (Z.eq_dec g v) as [->|].
  - rewrite count_occ_cons_eq in C by auto. assert (I : In v r) by (apply (count_occ_In Z.eq_dec); lia).
    destruct r as [|g' r']; [destruct I|]. apply StronglySorted_inv in S1 as [S3 S4]. inversion S2; subst.
    assert (g' = v). { destruct I as [I|I]; [auto|]. rewrite Forall_forall in S4. apply S4 in I. lia. }
    subst g'. cbn [taken]. destruct (Z.ltb_spec v (v + 1)); [auto|lia].
  - rewrite count_occ_cons_neq in C by auto. eapply IH; eauto.
Qed.

Definition piece (b : bytes) (a z : Z) : bytes := firstn (Z.to_nat (z - a)) (skipn (Z.to_nat a) b).

Lemma piece_shift : forall p b a z, blen p <= a -> piece (p ++ b) a z = piece b (a - blen p) (z - blen p).
Proof.
  intros p b a z H. unfold piece. replace (z - blen p - (a - blen p)) with (z - a) by lia. f_equal.
  rewrite skipn_app, skipn_all2 by (unfold blen in *; lia). cbn [app]. f_equal. unfold blen in *. lia.
Qed.
Lemma piece_first : forall p b, piece (p ++ b) 0 (blen p) = p.
Proof.
  intros. unfold piece. rewrite skipn_O, firstn_app. replace (Z.to_nat (blen p - 0)) with (List.length p) by (unfold blen; lia).
  rewrite firstn_all, Nat.sub_diag, firstn_O. apply app_nil_r.
Qed.

Lemma fill_ok : forall t n idx gs off size b loca, fill t n idx gs off size = Ok (b, loca) ->
  List.length loca = S n /\ nth_error loca 0 = Some off /\ nth_error loca n = Some (off + blen b) /\
  forall i, idx <= i < idx + Z.of_nat n -> exists a z o,
    nth_error loca (Z.to_nat (i - idx)) = Some a /\ nth_error loca (Z.to_nat (i - idx + 1)) = Some z /\
    off <= a <= z /\ z <= off + blen b /\ z = a + blen o /\ o = piece b (a - off) (z - off) /\
    if taken gs idx i then glyph_data t i = Ok o else o = [].
Proof.
  intros t. induction n as [|n IH]; intros idx gs off size b loca H; cbn [fill] in H.
  - injection H as <- <-. cbn. change (blen []) with 0. rewrite Z.add_0_r. repeat split; auto. intros. lia.
  - assert (K : forall gs' p r l, (gs' = gs /\ p = [] /\ (forall g r', gs = g :: r' -> g <> idx) \/ (gs = idx :: gs' /\ glyph_data t idx = Ok p)) ->
       fill t n (idx + 1) gs' (off + blen p) size = Ok (r, l) -> b = p ++ r -> loca = off :: l ->
       List.length loca = S (S n) /\ nth_error loca 0 = Some off /\ nth_error loca (S n) = Some (off + blen b) /\
       forall i, idx <= i < idx + Z.of_nat (S n) -> exists a z o,
         nth_error loca (Z.to_nat (i - idx)) = Some a /\ nth_error loca (Z.to_nat (i - idx + 1)) = Some z /\
         off <= a <= z /\ z <= off + blen b /\ z = a + blen o /\ o = piece b (a - off) (z - off) /\
         if taken gs idx i then glyph_data t i = Ok o else o = []).
    { clear H. intros gs' p r l G H -> ->. destruct (IH _ _ _ _ _ _ H) as (L1 & L2 & L3 & L4).
      pose proof (blen_nonneg p). pose proof (blen_nonneg r).
      split; [cbn [List.length]; lia|]. split; [reflexivity|]. split; [cbn [nth_error]; rewrite L3, blen_app; f_equal; lia|].
      intros i Hi. destruct (Z.eq_dec i idx) as [->|Ni].
      - exists off, (off + blen p), p. rewrite Z.sub_diag. split; [reflexivity|]. split; [exact L2|]. rewrite blen_app.
        split; [lia|]. split; [lia|]. split; [auto|].
        split; [rewrite Z.sub_diag; replace (off + blen p - off) with (blen p) by lia; symmetry; apply piece_first|].
        destruct G as [(-> & -> & G)|(-> & G)].
        + destruct gs as [|g r']; [reflexivity|]. rewrite taken_ne; [reflexivity|]. eapply G; eauto.
        + cbn [taken]. rewrite Z.ltb_irrefl, Z.eqb_refl. auto.
      - destruct (L4 i ltac:(lia)) as (a & z & o & A & Z' & R1 & R2 & R3 & R4 & R5). exists a, z, o.
        replace (Z.to_nat (i - idx)) with (S (Z.to_nat (i - (idx + 1)))) by lia.
        replace (Z.to_nat (i - idx + 1)) with (S (Z.to_nat (i - (idx + 1) + 1))) by lia.
        cbn [nth_error]. rewrite blen_app. split; [auto|]. split; [auto|]. split; [lia|]. split; [lia|]. split; [auto|]. split.
        + rewrite piece_shift by lia. rewrite R4 at 1. f_equal; lia.
        + destruct G as [(-> & -> & G)|(-> & G)].
          * destruct gs as [|g r']; [exact R5|]. rewrite <- (taken_step g r' idx i) by (try lia; eapply G; eauto). exact R5.
          * rewrite taken_eq by lia. exact R5. }
    destruct gs as [|g gs'].
    + apply bind_ok in H as ([r l] & E & H). injection H as <- <-.
      apply (K [] [] r l); auto.
      * left. split; [auto|]. split; [auto|]. discriminate.
      * change (blen []) with 0. rewrite Z.add_0_r. exact E.
    + destruct (Z.eqb_spec g idx) as [->|Ng].
      * apply bind_ok in H as (p & G & H). destruct (size <? off + blen p); [discriminate|].
        apply bind_ok in H as ([r l] & E & H). injection H as <- <-. apply (K gs' p r l); auto.
      * apply bind_ok in H as ([r l] & E & H). injection H as <- <-. apply (K (g :: gs') [] r l); auto.
        -- left. split; [auto|]. split; [auto|]. intros ? ? X. inversion X; subst. auto.
        -- change (blen []) with 0. rewrite Z.add_0_r. exact E.
Qed.

(** ** The sorted array *)
Lemma insert_perm : forall x l, Permutation (x :: l) (insert x l).
Proof.
  induction l as [|y l IH]; cbn [insert]; [auto|]. destruct (x <=? y); [auto|].
  apply perm_trans with (y :: x :: l); [constructor|]. constructor. exact IH.
Qed.
Lemma sort_perm : forall l, Permutation l (sort l).
Proof. induction l as [|x l IH]; [auto|]. unfold sort. cbn [fold_right]. fold (sort l). eapply perm_trans; [constructor; exact IH|apply insert_perm]. Qed.
Lemma insert_sorted : forall x l, StronglySorted Z.le l -> StronglySorted Z.le (insert x l).
Proof.
  induction l as [|y l IH]; intros S; cbn [insert]; [repeat constructor|]. pose proof S as S0. apply StronglySorted_inv in S0 as [S1 S2].
  destruct (Z.leb_spec x y).
  - constructor; [auto|]. constructor; [auto|]. eapply Forall_impl; [|exact S2]. cbn beta. intros. lia.
  - constructor; [auto|]. eapply Permutation_Forall; [apply insert_perm|]. constructor; [lia|auto].
Qed.
Lemma sort_sorted : forall l, StronglySorted Z.le (sort l).
Proof. induction l as [|x l IH]; [constructor|]. apply insert_sorted. exact IH. Qed.
Lemma sorted_strict : forall l, StronglySorted Z.le l -> NoDup l -> StronglySorted Z.lt l.
Proof.
  induction l as [|x l IH]; intros S N; constructor; apply StronglySorted_inv in S as [S1 S2]; inversion N as [|? ? N1 N2]; subst; auto.
  rewrite Forall_forall in *. intros y Hy. specialize (S2 y Hy). assert (x <> y) by congruence. lia.
Qed.
