(** GoPdf takes the kerning from the last subtable of the kern table. *)
From Coq Require Import String List ZArith Lia Bool.
From Coq.Floats Require Import SpecFloat.
From Verif Require Import Base BaseProofs Output Float64 Ttf TtfSpec TtfProofs TtfTables Subset Text TextSpec GoPdf GoPdfSpec GoPdfDrawSpec GoPdfSetSpec GoPdfFonts KernSpec.
Open Scope Z_scope.
Open Scope list_scope.

Lemma u16_some : forall d p, 0 <= p -> p + 2 <= blen d -> exists v, u16 d p = Some v.
Proof.
  intros d p H1 H2. destruct (u8_some d p ltac:(lia)) as (a & Ea). destruct (u8_some d (p + 1) ltac:(lia)) as (b & Eb). unfold u16. rewrite Ea, Eb. eauto.
Qed.
Lemma s16_some : forall d p, 0 <= p -> p + 2 <= blen d -> exists v, s16 d p = Some v.
Proof. intros d p H1 H2. unfold s16. destruct (u16_some d p H1 H2) as (v & ->). eauto. Qed.

(** ** Pairs *)
Lemma pairs_ok : forall d n pos k, 0 <= pos -> pos + 6 * Z.of_nat n <= blen d ->
  exists ps, kern_pairs d n pos k = (rev ps ++ k, pos + 6 * Z.of_nat n) /\ List.length ps = n /\
    forall i l r v, nth_error ps i = Some (l, r, v) -> u16 d (pos + 6 * Z.of_nat i) = Some l /\ u16 d (pos + 6 * Z.of_nat i + 2) = Some r /\ s16 d (pos + 6 * Z.of_nat i + 4) = Some v.
Proof.
  intros d. induction n as [|n IH]; intros pos k Hp Hl.
  - exists []. cbn [kern_pairs rev app List.length]. split; [f_equal; lia|]. split; [reflexivity|]. intros [|i] l r v H; discriminate H.
  - destruct (u16_some d pos ltac:(lia) ltac:(lia)) as (l0 & E1). destruct (u16_some d (pos + 2) ltac:(lia) ltac:(lia)) as (r0 & E2). destruct (s16_some d (pos + 2 + 2) ltac:(lia) ltac:(lia)) as (v0 & E3).
    cbn [kern_pairs]. rewrite readUShort_eq by lia. rewrite E1. cbn [bind]. rewrite readUShort_eq by lia. rewrite E2. cbn [bind]. rewrite readShort_eq by lia. rewrite E3. cbn [bind].
    destruct (IH (pos + 2 + 2 + 2) ((l0, r0, v0) :: k) ltac:(lia) ltac:(lia)) as (ps & E & L & N).
    exists ((l0, r0, v0) :: ps). split; [|split].
    + rewrite E. cbn [rev]. rewrite <- app_assoc. cbn [app]. f_equal. lia.
    + cbn [List.length]. lia.
    + intros [|i] l r v H; cbn [nth_error] in H.
      * assert (l0 = l) as <- by congruence. assert (r0 = r) as <- by congruence. assert (v0 = v) as <- by congruence.
        replace (pos + 6 * Z.of_nat 0) with pos by lia. replace (pos + 4) with (pos + 2 + 2) by lia. auto.
      * destruct (N _ _ _ _ H) as (N1 & N2 & N3). replace (pos + 6 * Z.of_nat (S i)) with (pos + 2 + 2 + 2 + 6 * Z.of_nat i) by lia. auto.
Qed.

Lemma value_latest : forall ps l r, match kern_value (rev ps) l r with
  | Some v => exists i, nth_error ps i = Some (l, r, v) /\ forall j v', (i < j)%nat -> nth_error ps j <> Some (l, r, v')
  | None => forall i v', nth_error ps i <> Some (l, r, v') end.
Proof.
  intros ps l r. induction ps as [|[[a b] v] ps IH] using rev_ind.
  - cbn. intros [|i] v' H; discriminate H.
  - rewrite rev_app_distr. cbn [rev app kern_value]. destruct ((a =? l) && (b =? r)) eqn:E.
    + apply andb_true_iff in E. destruct E as (E1 & E2). assert (a = l) as -> by lia. assert (b = r) as -> by lia. exists (List.length ps). split.
      * rewrite nth_error_app2 by lia. rewrite Nat.sub_diag. reflexivity.
      * intros j v' Hj. rewrite nth_error_app2 by lia. destruct (j - List.length ps)%nat as [|m] eqn:Em; [lia|]. destruct m; discriminate.
    + assert (Last : forall v', nth_error (ps ++ [(a, b, v)]) (List.length ps) <> Some (l, r, v')).
      { intros v' H. rewrite nth_error_app2, Nat.sub_diag in H by lia. cbn [nth_error] in H. assert (a = l) by congruence. assert (b = r) by congruence. lia. }
      assert (Behind : forall j x, (List.length ps < j)%nat -> nth_error (ps ++ [(a, b, v)]) j <> Some x).
      { intros j x Hj H. assert (X : (j < List.length (ps ++ [(a, b, v)]))%nat) by (apply nth_error_Some; congruence). rewrite app_length in X. cbn [List.length] in X. lia. }
      destruct (kern_value (rev ps) l r) as [w|].
      * destruct IH as (i & Ei & N). assert (Hi : (i < List.length ps)%nat) by (apply nth_error_Some; congruence). exists i. split; [rewrite nth_error_app1 by lia; exact Ei|].
        intros j v' Hj. destruct (Nat.lt_trichotomy j (List.length ps)) as [Lt|[->|Gt]]; [rewrite nth_error_app1 by lia; apply N; lia|apply Last|apply Behind; lia].
      * intros j v'. destruct (Nat.lt_trichotomy j (List.length ps)) as [Lt|[->|Gt]]; [rewrite nth_error_app1 by lia; apply IH|apply Last|apply Behind; lia].
Qed.

(** ** Subtables *)
Definition looked_up (k : kernpairs) (l r : Z) : Z := match kern_value k l r with Some v => v | None => 0 end.
Definition like_sub (d : bytes) (s : sub) (k : kernpairs) : Prop := forall l r v, sub_value d s l r v -> looked_up k l r = v.

Lemma land_240 : forall c, Z.land c 240 = 0 <-> (c / 16) mod 16 = 0.
Proof.
  intros c. assert (E : Z.land c 240 = ((c / 16) mod 16) * 16).
  { change 240 with (Z.shiftl 15 4). change 16 with (2 ^ 4) at 1 2. rewrite <- (Z.land_ones _ 4) by lia. rewrite <- (Z.shiftr_div_pow2 c 4) by lia.
    change 16 with (2 ^ 4). rewrite <- (Z.shiftl_mul_pow2 _ 4) by lia. change (Z.ones 4) with 15. apply Z.bits_inj'. intros n Hn. rewrite Z.land_spec. rewrite !Z.shiftl_spec by lia.
    destruct (Z_lt_ge_dec n 4).
    - rewrite (Z.testbit_neg_r 15), (Z.testbit_neg_r (Z.land _ _)) by lia. apply andb_false_r.
    - rewrite Z.land_spec, Z.shiftr_spec by lia. replace (n - 4 + 4) with n by lia. reflexivity. }
  rewrite E. lia.
Qed.

Lemma subtable_ok : forall d p c n, Forall bytep d -> 0 <= p -> u16 d (p + 4) = Some c -> u16 d (p + 6) = Some n -> p + 14 + 6 * n <= blen d ->
  (reserved_clear (mkSub p c n) -> exists k, kern_subtable d p = Ok (k, p + 14 + 6 * n) /\ like_sub d (mkSub p c n) k) /\
  (~ reserved_clear (mkSub p c n) -> kern_subtable d p = Err EOther).
Proof.
  intros d p c n Hb Hp Ec En Hl. pose proof (u16_range _ _ _ Hb En) as Hn. unfold kern_subtable. rewrite readUShort_eq by lia. rewrite Ec. cbn [bind]. unfold reserved_clear. cbn [sub_coverage].
  rewrite <- land_240. split; intros H.
  - rewrite H. cbn [Z.eqb negb]. rewrite readUShort_eq by lia. replace (p + 4 + 2) with (p + 6) by lia. rewrite En.
    destruct (pairs_ok d (Z.to_nat n) (p + 6 + 2 + 6) [] ltac:(lia) ltac:(lia)) as (ps & E & L & N). exists (rev ps). split.
    + rewrite E, app_nil_r. f_equal. f_equal. lia.
    + assert (At : forall i l r v, nth_error ps i = Some (l, r, v) -> pair_at d p (Z.of_nat i) l r v).
      { intros i l r v Hi. destruct (N _ _ _ _ Hi) as (N1 & N2 & N3). unfold pair_at. replace (p + 14 + 6 * Z.of_nat i) with (p + 6 + 2 + 6 + 6 * Z.of_nat i) by lia. auto. }
      assert (From : forall i l r v, 0 <= i < n -> pair_at d p i l r v -> nth_error ps (Z.to_nat i) = Some (l, r, v)).
      { intros i l r v Hi (P1 & P2 & P3). destruct (nth_error ps (Z.to_nat i)) as [[[l1 r1] v1]|] eqn:Ex. 2:{ apply nth_error_None in Ex. lia. }
        destruct (At _ _ _ _ Ex) as (Q1 & Q2 & Q3). rewrite Z2Nat.id in Q1, Q2, Q3 by lia. congruence. }
      intros l r v V. unfold looked_up. pose proof (value_latest ps l r) as VL. unfold sub_value in V. cbn [sub_count sub_pos] in V. destruct (kern_value (rev ps) l r) as [w|].
      * destruct VL as (i & Ei & Nx). assert (Hi : (i < List.length ps)%nat) by (apply nth_error_Some; congruence).
        destruct V as [(j & Hj & Pj & Nj)|(No & _)].
        -- pose proof (From _ _ _ _ Hj Pj) as Fj. destruct (Nat.lt_trichotomy i (Z.to_nat j)) as [Lt|[Eq|Gt]].
           ++ exfalso. apply (Nx _ v Lt). exact Fj.
           ++ rewrite <- Eq in Fj. congruence.
           ++ exfalso. apply (Nj (Z.of_nat i) w); [lia|]. apply At. exact Ei.
        -- exfalso. apply (No (Z.of_nat i) w); [lia|]. apply At. exact Ei.
      * destruct V as [(j & Hj & Pj & Nj)|(No & ->)]; [|reflexivity]. exfalso. apply (VL (Z.to_nat j) v). apply From; assumption.
  - destruct (Z.eqb_spec (Z.land c 240) 0); [contradiction|]. reflexivity.
Qed.

Lemma subtables_ok : forall d l p k0, Forall bytep d -> 0 <= p -> subtables d p l ->
  (Forall reserved_clear l -> exists k, kern_subtables d (List.length l) p k0 = Ok k /\ (forall s0, like_sub d s0 k0 -> like_sub d (last l s0) k) /\ (l = [] -> k = k0)) /\
  (~ Forall reserved_clear l -> kern_subtables d (List.length l) p k0 = Err EOther).
Proof.
  intros d. induction l as [|s l IH]; intros p k0 Hb Hp H.
  - split; [|intros N; exfalso; apply N; constructor]. intros _. exists k0. cbn. auto.
  - inversion H as [|p' c n l' Ec En Hl Hr]; subst. pose proof (u16_range _ _ _ Hb En) as Hn. destruct (subtable_ok d p c n Hb Hp Ec En Hl) as (G & N). cbn [List.length kern_subtables]. split.
    + intros F. inversion F as [|x y F1 F2]; subst. destruct (G F1) as (k & E & V). rewrite E. cbn [bind]. destruct (IH (p + 14 + 6 * n) k Hb ltac:(lia) Hr) as (IH1 & _). destruct (IH1 F2) as (k' & E' & V' & W').
      exists k'. split; [exact E'|]. split; [|discriminate]. intros s0 _. specialize (V' _ V). destruct l as [|s1 l]; [exact V'|]. cbn [last] in V' |- *.
      assert (X : forall (l : list sub) a b, l <> [] -> last l a = last l b) by (clear; induction l as [|x l IH]; intros a b H; [congruence|destruct l; [reflexivity|apply (IH a b); discriminate]]).
      destruct l as [|s2 l]; [exact V'|]. rewrite (X (s2 :: l) s0 (mkSub p c n)) by discriminate. exact V'.
    + intros F. destruct (Z.eq_dec ((c / 16) mod 16) 0) as [E|E].
      * destruct (G E) as (k & Ek & _). rewrite Ek. cbn [bind]. destruct (IH (p + 14 + 6 * n) k Hb ltac:(lia) Hr) as (_ & IH2). apply IH2. intros X. apply F. constructor; assumption.
      * rewrite (N E). reflexivity.
Qed.

(** ** The table *)
Lemma kern_ok : forall d t l, Forall bytep d -> parseTtf d = Ok t -> kern_table d l ->
  (Forall reserved_clear l -> exists k, parseKern d (tables t) = Ok k /\ (forall s, like_sub d (last l s) k \/ l = []) /\ (l = [] -> k = [])) /\
  (~ Forall reserved_clear l -> parseKern d (tables t) = Err EOther).
Proof.
  intros d t l Hb Pt (off & len & Ht & E0 & E1 & Hs). pose proof (parse_ok _ _ Hb Pt) as P. destruct (table_spec _ _ _ _ _ (p_dir _ _ P) Ht) as (e & Te & <- & _).
  pose proof (has_table_range _ _ _ _ Hb Ht) as (R & _). unfold parseKern. rewrite Te. rewrite readUShort_eq by lia. destruct (u16 d (toffset e)) as [v|]; [|congruence]. cbn [bind].
  rewrite readUShort_eq by lia. rewrite E1. cbn [bind]. rewrite Nat2Z.id. replace (toffset e + 2 + 2) with (toffset e + 4) by lia.
  destruct (subtables_ok d l (toffset e + 4) [] Hb ltac:(lia) Hs) as (G & N). split; [|exact N]. intros F. destruct (G F) as (k & E & V & W). exists k. split; [exact E|]. split; [|exact W].
  intros s. destruct l as [|s1 l]; [auto|left]. specialize (V (mkSub 0 0 0)).
  assert (Z0 : like_sub d (mkSub 0 0 0) []). { intros a b v0 [(i & Hi & _)|(_ & ->)]; [cbn in Hi; lia|reflexivity]. }
  specialize (V Z0). assert (X : forall (l : list sub) a b, l <> [] -> last l a = last l b) by (clear; induction l as [|x l IH]; intros a b H; [congruence|destruct l; [reflexivity|apply (IH a b); discriminate]]).
  rewrite (X (s1 :: l) s (mkSub 0 0 0)) by discriminate. exact V.
Qed.
Lemma no_kern_ok : forall d t, Forall bytep d -> parseTtf d = Ok t -> no_kern_table d -> parseKern d (tables t) = Ok [].
Proof.
  intros d t Hb Pt N. pose proof (parse_ok _ _ Hb Pt) as P. unfold parseKern. destruct (table_of (tables t) (B"kern")) as [e|] eqn:E; [|reflexivity].
  destruct (table_dir _ _ _ _ (p_dir _ _ P) E) as (i & _ & T & _). exfalso. apply (N i). exact T.
Qed.

(** ** Fonts of a document *)

(** The value between two glyphs, of the table or of the function of KernOverride *)
Definition wanted (a : afont) (p x : Z * Z) (v : Z) : Z := match af_over a with Some h => h (fst p) (fst x) (snd p) (snd x) v | None => v end.
Lemma added_nth : forall rnd cfg w g0 t g n a f, g_start rnd cfg gp0 = Ok g0 -> runs w g0 t g -> nth_error (added t) n = Some a -> nth_error (g_fonts g) n = Some f -> same_font a f.
Proof.
  intros rnd cfg w g0 t g n a f S R Na Nf. pose proof (added_run _ _ _ _ _ _ S R) as F. clear S R. revert n Na Nf. induction F as [|x y lx ly H F IH]; intros [|n] Na Nf; cbn [nth_error] in *; try discriminate.
  - assert (x = a) as <- by congruence. assert (y = f) as <- by congruence. exact H.
  - eapply IH; eauto.
Qed.
Lemma run_kerning : forall rnd cfg w g0 t g n a f u, g_start rnd cfg gp0 = Ok g0 -> runs w g0 t g -> nth_error (added t) n = Some a -> nth_error (g_fonts g) n = Some f ->
  Forall bytep (af_file a) -> units_per_em (af_file a) u ->
  (af_kerning a = false -> forall p x, kern_units f (Some p) x = 0) /\
  (af_kerning a = true -> no_kern_table (af_file a) -> forall p x, kern_units f (Some p) x = Z.quot (1000 * wanted a p x 0) u) /\
  (af_kerning a = true -> forall l s, kern_table (af_file a) (l ++ [s]) -> Forall reserved_clear (l ++ [s]) /\
    forall p x v, sub_value (af_file a) s (snd p) (snd x) v -> kern_units f (Some p) x = Z.quot (1000 * wanted a p x v) u).
Proof.
  intros rnd cfg w g0 t g n a f u S R Na Nf Hb U. destruct (added_nth _ _ _ _ _ _ _ _ _ S R Na Nf) as (_ & _ & Pt & K & Pk & O).
  pose proof (units_ok _ _ _ Hb (parse_ok _ _ Hb Pt) U) as Eu. unfold kern_units, pair_value, wanted. rewrite K, Eu, O. split; [|split].
  - intros -> p x. reflexivity.
  - intros Ka No p x. rewrite Ka in *. rewrite (no_kern_ok _ _ Hb Pt No) in Pk. assert (gf_pairs f = []) as -> by congruence. reflexivity.
  - intros Ka l s T. rewrite Ka in *. destruct (kern_ok _ _ _ Hb Pt T) as (G & N).
    assert (D : Forall reserved_clear (l ++ [s]) \/ ~ Forall reserved_clear (l ++ [s])).
    { assert (Dec : {Forall reserved_clear (l ++ [s])} + {~ Forall reserved_clear (l ++ [s])}) by (apply Forall_dec; intros y; apply Z.eq_dec). destruct Dec; auto. }
    destruct D as [D|D]. 2:{ rewrite (N D) in Pk. discriminate. }
    split; [exact D|]. intros p x v V. destruct (G D) as (k & Ek & L & _). assert (gf_pairs f = k) as -> by congruence.
    destruct (L s) as [L1|L1]; [|destruct l; discriminate]. rewrite last_last in L1. specialize (L1 _ _ _ V). unfold looked_up in L1. rewrite L1. reflexivity.
Qed.

(** AddTTFFont with kerning fails at a subtable in which one of the bits is set. *)
Lemma add_kerned : forall w g family style file beyond l t, Forall bytep file -> parseTtf file = Ok t -> kern_table file l -> ~ Forall reserved_clear l ->
  gstep w g (AddFont family true style (Some file) beyond) = Ok (g, Some EOther).
Proof.
  intros w g family style file beyond l t Hb Pt T N. cbn [gstep]. unfold g_add_font. rewrite Pt. cbn [bind]. destruct (kern_ok _ _ _ Hb Pt T) as (_ & X). rewrite (X N). reflexivity.
Qed.
