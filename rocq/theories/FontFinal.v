(** The embedded font program, in terms of the two font files. *)
From Coq Require Import String List ZArith Lia Bool Sorted Permutation.
From Verif Require Import Base BaseProofs CryptoSpec Ttf TtfSpec TtfProofs TtfTables TtfCmap Subset CharMap FontFile FontGlyphs FontClosure FontEmbed FontTotal.
Open Scope Z_scope.
Open Scope list_scope.

(** [n] glyphs, each with a complete outline whose components are glyphs of the
    font. *)
Record sound_font (d : bytes) (n : Z) : Prop := {
  sf_bytes : Forall bytep d;
  sf_count : num_glyphs d n;
  sf_shape : forall g, 0 <= g < n -> drawable d g;
  sf_parts : forall g o c, outline d g o -> component o c -> c < n;
  sf_head : exists hb, table d (B"head") hb /\ 52 <= blen hb }.

Definition drawn (m : charmap) (g : Z) : Prop := exists r, In (r, g) m.
(** Glyph 0, the glyphs of the characters, and their components *)
Definition used (d : bytes) (m : charmap) (g : Z) : Prop :=
  g = 0 \/ drawn m g \/ exists v o, drawn m v /\ outline d v o /\ component o g.
(** No two characters have the same glyph. *)
Definition one_each (m : charmap) : Prop := NoDup (map snd m).
Definition within (n : Z) (m : charmap) : Prop := forall r g, In (r, g) m -> 0 <= g < n.

Lemma drawn_glyphs : forall m g, drawn m g <-> In g (glyphs m).
Proof.
  intros m g. unfold drawn, glyphs. rewrite in_map_iff. split.
  - intros (r & H). exists (r, g). auto.
  - intros ([r g'] & <- & H). exists r. auto.
Qed.

Lemma add_all_prefix : forall l gs, exists k, add_all gs l = gs ++ k.
Proof.
  induction l as [|g l IH]; intros gs; cbn [add_all fold_left]; [exists []; rewrite app_nil_r; auto|].
  fold (add_all (add_glyph gs g) l). destruct (IH (add_glyph gs g)) as (k & ->). unfold add_glyph. destruct (existsb _ gs); [eauto|].
  rewrite <- app_assoc. eauto.
Qed.
Lemma components_prefix : forall fuel d p gs gs', components fuel d p gs = Ok gs' -> exists k, gs' = gs ++ k.
Proof.
  induction fuel as [|fuel IH]; intros d p gs gs' H; [discriminate|]. cbn [components] in H.
  apply bind_ok in H as (fl & _ & H). apply bind_ok in H as (c & _ & H). cbv zeta in H.
  assert (P : exists k, add_glyph gs c = gs ++ k) by (unfold add_glyph; destruct (existsb _ gs); [exists []; rewrite app_nil_r; auto|eauto]).
  destruct P as (k & E). destruct (negb _).
  - exists k. congruence.
  - apply IH in H as (k2 & ->). exists (k ++ k2). rewrite E, app_assoc. reflexivity.
Qed.
Lemma closure_prefix : forall t beyond vs gs gs', closure_loop t beyond vs gs = Ok gs' -> exists k, gs' = gs ++ k.
Proof.
  intros t beyond. induction vs as [|v vs IH]; intros gs gs' H; cbn [closure_loop] in H; [exists []; rewrite app_nil_r; congruence|].
  apply bind_ok in H as (g1 & H1 & H). apply IH in H as (k & ->).
  assert (P : exists k, g1 = gs ++ k).
  { unfold add_composite in H1. apply bind_ok in H1 as (a & _ & H1). apply bind_ok in H1 as (b & _ & H1). destruct (a =? b); [exists []; rewrite app_nil_r; congruence|].
    cbv zeta in H1. apply bind_ok in H1 as (c & _ & H1). destruct (0 <=? c); [exists []; rewrite app_nil_r; congruence|]. apply components_prefix in H1. exact H1. }
  destruct P as (k2 & ->). exists (k2 ++ k). rewrite app_assoc. reflexivity.
Qed.

Lemma component_range : forall o c, Forall bytep o -> component o c -> 0 <= c.
Proof.
  intros o c Hb (n & _ & _ & H). induction H as [p fl g Hf Hg|p fl g Hf H5 H IH]; [|auto]. apply u16_range in Hg; auto. lia.
Qed.
Lemma outline_bytes : forall d g o, Forall bytep d -> outline d g o -> Forall bytep o.
Proof.
  intros d g o Hb (h & hl & x & xl & l & ll & fm & a & z & T1 & T2 & T3 & F & G1 & G2 & A & Z1 & E).
  apply bytes_at_some in E as (_ & _ & _ & _ & u & v & -> & _). apply Forall_app in Hb as [_ Hb]. apply Forall_app in Hb as [Hb _]. exact Hb.
Qed.

Section Facts.
Variables (d : bytes) (n : Z) (t : ttf) (beyond : bytes) (m : charmap) (f : bytes).
Hypotheses (S : sound_font d n) (P : parseTtf d = Ok t) (W : within n m) (M : make_font t beyond m = Ok f) (L : blen f < 4294967296).

Lemma facts_closure : exists gs, glyph_closure t beyond m = Ok gs /\ (NoDup (glyphs m) -> NoDup gs) /\ (forall g, In g gs <-> used d m g) /\
  (forall g o, 0 <= g < n -> outline d g o -> outline f g (if taken (sort gs) 0 g then o else [])).
Proof.
  pose proof (sf_bytes _ _ S) as Hb. pose proof (parse_ok _ _ Hb P) as Pd.
  assert (F : Forall (drawable d) (glyphs m)).
  { apply Forall_forall. intros g Hg. apply drawn_glyphs in Hg as (r & Hr). apply (sf_shape _ _ S). eauto. }
  destruct (closure_ok d t beyond m Hb Pd F) as (gs & E & N & I). exists gs. split; [auto|]. split; [auto|]. split.
  - intros g. rewrite I. unfold used. rewrite drawn_glyphs. split.
    + intros [H|[H|(v & o & H1 & H2)]]; [auto|auto|]. right. right. exists v, o. rewrite drawn_glyphs. auto.
    + intros [H|[H|(v & o & H1 & H2)]]; [auto|auto|]. right. right. exists v, o. rewrite drawn_glyphs in H1. auto.
  - destruct (sf_head _ _ S) as (hb & H1 & H2). eapply embedded; eauto; [apply (sf_count _ _ S)|].
    intros g Hg. destruct (sf_shape _ _ S g Hg) as (o & Ho & _). eauto.
Qed.

Lemma facts_range : forall g, used d m g -> 0 <= g.
Proof.
  intros g [->|[(r & H)|(v & o & (r & H) & Ho & Hc)]]; [lia|apply W in H; lia|].
  eapply component_range; [|eauto]. exact (outline_bytes d v o (sf_bytes _ _ S) Ho).
Qed.

Theorem outlines_kept : one_each m -> forall g o, 0 <= g < n -> outline d g o ->
  (used d m g -> outline f g o) /\ (~ used d m g -> outline f g []).
Proof.
  intros N g o Hg Ho. destruct facts_closure as (gs & E & Nd & I & X). specialize (X g o Hg Ho). specialize (Nd N).
  rewrite taken_sorted in X.
  - split; intros U.
    + replace (existsb (Z.eqb g) (sort gs)) with true in X; [auto|]. symmetry. apply existsb_exists. exists g. rewrite Z.eqb_refl. split; [|auto].
      apply (Permutation_in g (sort_perm gs)). apply I. auto.
    + replace (existsb (Z.eqb g) (sort gs)) with false in X; [auto|]. symmetry. apply not_true_iff_false. rewrite existsb_exists.
      intros (x & Hx & Ex). apply Z.eqb_eq in Ex. subst x. apply U. apply I. apply (Permutation_in g (Permutation_sym (sort_perm gs))). auto.
  - apply sorted_strict; [apply sort_sorted|]. apply (Permutation_NoDup (sort_perm gs)). auto.
  - apply Forall_forall. intros x Hx. apply facts_range. apply I. apply (Permutation_in x (Permutation_sym (sort_perm gs))). auto.
Qed.

(** Behind a glyph two characters share every outline is lost. *)
Theorem outlines_lost : forall i j r1 r2 v, i <> j -> nth_error m i = Some (r1, v) -> nth_error m j = Some (r2, v) ->
  forall g, v < g < n -> outline f g [].
Proof.
  intros i j r1 r2 v Hij Hi Hj g Hg. assert (0 <= v) by (apply nth_error_In in Hi; apply W in Hi; lia).
  destruct (sf_shape _ _ S g ltac:(lia)) as (o & Ho & _).
  destruct facts_closure as (gs & E & _ & _ & X). specialize (X g o ltac:(lia) Ho). rewrite (taken_dup _ _ v) in X; [auto|apply sort_sorted| |lia].
  change (closure_loop t beyond (glyphs m) (add_glyph (glyphs m) 0) = Ok gs) in E. apply closure_prefix in E as (k & ->).
  rewrite <- (proj1 (Permutation_count_occ Z.eq_dec _ _) (sort_perm (add_glyph (glyphs m) 0 ++ k)) v).
  assert (C : forall l a b, a <> b -> nth_error l a = Some v -> nth_error l b = Some v -> (2 <= count_occ Z.eq_dec l v)%nat).
  { induction l as [|x l IH]; intros a b Hab Ha Hb0; [destruct a; discriminate|].
    assert (One : forall c, nth_error l c = Some v -> (1 <= count_occ Z.eq_dec l v)%nat) by (intros c Hc; apply nth_error_In in Hc; apply (count_occ_In Z.eq_dec) in Hc; lia).
    cbn [count_occ]. destruct a as [|a], b as [|b]; cbn [nth_error] in Ha, Hb0; [congruence| | |].
    - injection Ha as ->. destruct (Z.eq_dec v v); [|congruence]. specialize (One _ Hb0). lia.
    - injection Hb0 as ->. destruct (Z.eq_dec v v); [|congruence]. specialize (One _ Ha). lia.
    - specialize (IH a b ltac:(congruence) Ha Hb0). destruct (Z.eq_dec x v); lia. }
  assert (C2 : (2 <= count_occ Z.eq_dec (glyphs m) v)%nat).
  { apply (C _ i j Hij); unfold glyphs; rewrite nth_error_map; [rewrite Hi|rewrite Hj]; reflexivity. }
  rewrite count_occ_app. assert (exists x, add_glyph (glyphs m) 0 = glyphs m ++ x) as (x & ->) by (unfold add_glyph; destruct (existsb _ _); [exists []; rewrite app_nil_r; auto|eauto]).
  rewrite count_occ_app. lia.
Qed.

(** Glyphs reached through components *)
Inductive reach : Z -> Z -> Prop :=
| reach_self : forall g, reach g g
| reach_part : forall g o c x, outline d g o -> component o c -> reach c x -> reach g x.

Theorem parts_kept : one_each m ->
  (forall g o c p x, drawn m g -> outline d g o -> component o c -> outline d c p -> ~ component p x) ->
  forall g x o, drawn m g -> reach g x -> outline d x o -> outline f x o.
Proof.
  intros N H1 g x o Hg R Ho.
  assert (U : used d m x /\ x < n).
  { assert (D : drawn m g \/ exists v q, drawn m v /\ outline d v q /\ component q g) by auto.
    assert (B1 : g < n) by (destruct Hg as (r & Hr); apply W in Hr; lia).
    clear Hg Ho. induction R as [g|g q c x Hq Hc R IH].
    - split; [|auto]. unfold used. tauto.
    - apply IH; [|exact (sf_parts _ _ S _ _ _ Hq Hc)]. right. destruct D as [D|(v & p & D1 & D2 & D3)].
      + exists g, q. auto.
      + exfalso. eapply H1; eauto. }
  destruct U as [U1 U2]. apply (outlines_kept N x o); auto. split; [apply (facts_range _ U1)|auto].
Qed.
End Facts.

(** ** Characters *)
Lemma lookup4 : forall d t cmap len off c sx i, Forall bytep d -> blen d < 4611686018427387904 -> parseTtf d = Ok t ->
  has_table d (B"cmap") cmap len -> cmap_subtable d cmap 3 1 off -> 0 <= c <= 65535 ->
  u16 d (cmap + off + 6) = Some sx -> segment d (cmap + off) (sx / 2) c i -> in_array4 d (cmap + off) c ->
  exists g, glyph_of4 d (cmap + off) c g /\ glyph_index t c = Ok g.
Proof.
  intros d t cmap len off c sx i Hb Hl P T Sb Hc Hx Hi Ha. pose proof (parse_ok _ _ Hb P) as Pd.
  pose proof (cmap4_ok _ _ _ _ _ Hb Hl Pd T Sb) as C. destruct (c4_n _ _ _ C) as (sx' & E1 & E2). assert (sx' = sx) by congruence. subst sx'.
  unfold glyph_index. destruct (Z.leb_spec c 65535); [|lia]. apply glyph4_ok; auto. exists i. rewrite E2. auto.
Qed.
Lemma lookup4_panics : forall d t cmap len off c, Forall bytep d -> blen d < 4611686018427387904 -> parseTtf d = Ok t ->
  has_table d (B"cmap") cmap len -> cmap_subtable d cmap 3 1 off -> 0 <= c <= 65535 ->
  (forall sx n i e, u16 d (cmap + off + 6) = Some sx -> n = sx / 2 -> 0 <= i < n -> end_code d (cmap + off) i = Some e -> e < c) ->
  glyph_index t c = Panic.
Proof.
  intros d t cmap len off c Hb Hl P T Sb Hc N. pose proof (parse_ok _ _ Hb P) as Pd.
  pose proof (cmap4_ok _ _ _ _ _ Hb Hl Pd T Sb) as C. destruct (c4_n _ _ _ C) as (sx & E1 & E2).
  unfold glyph_index. destruct (Z.leb_spec c 65535); [|lia]. eapply glyph4_panics; [exact C|]. intros i e Hi He. exact (N sx _ i e E1 E2 Hi He).
Qed.
Lemma group_glyph : forall d s gs c i st en g0, groups12 d s gs -> nth_error gs i = Some (st, en, g0) -> st <= c <= en ->
  glyph_of12 d s c (g0 + (c - st)).
Proof.
  intros d s gs c i st en g0 [G1 G2] N R. destruct (G2 _ _ _ _ N) as (E1 & E2 & E3).
  exists (Z.of_nat (List.length gs)), (Z.of_nat i), st, en, g0. assert (i < List.length gs)%nat by (apply nth_error_Some; congruence).
  repeat (split; [first [assumption|lia]|]). reflexivity.
Qed.
Lemma lookup12_sound : forall d t cmap len off c g, Forall bytep d -> parseTtf d = Ok t ->
  has_table d (B"cmap") cmap len -> cmap_subtable d cmap 3 10 off -> 65535 < c -> glyph_index t c = Ok g -> glyph_of12 d (cmap + off) c g.
Proof.
  intros d t cmap len off c g Hb P T Sb Hc H. pose proof (cmap12_ok _ _ _ _ _ Hb (parse_ok _ _ Hb P) T Sb) as G.
  unfold glyph_index in H. destruct (Z.leb_spec c 65535); [lia|]. apply glyph12_sound in H as (i & st & en & g0 & N & R & ->).
  eapply group_glyph; eauto. lia.
Qed.
(** A character that is not the last one of its group is found. *)
Lemma lookup12_found : forall d t cmap len off c n i st en, Forall bytep d -> parseTtf d = Ok t ->
  has_table d (B"cmap") cmap len -> cmap_subtable d cmap 3 10 off -> 65535 < c ->
  u32 d (cmap + off + 12) = Some n -> 0 <= i < n -> u32 d (cmap + off + 16 + 12 * i) = Some st -> u32 d (cmap + off + 16 + 12 * i + 4) = Some en ->
  st <= c < en -> exists g, glyph_index t c = Ok g.
Proof.
  intros d t cmap len off c n i st en Hb P T Sb Hc Hn Hi Hs He R. pose proof (cmap12_ok _ _ _ _ _ Hb (parse_ok _ _ Hb P) T Sb) as [G1 G2].
  unfold glyph_index. destruct (Z.leb_spec c 65535); [lia|].
  destruct (nth_error (groups t) (Z.to_nat i)) as [[[a b] g0]|] eqn:N; [|apply nth_error_None in N; assert (n = Z.of_nat (List.length (groups t))) by congruence; lia].
  destruct (G2 _ _ _ _ N) as (E1 & E2 & _). rewrite Z2Nat.id in E1, E2 by lia. assert (a = st) by congruence. assert (b = en) by congruence. subst a b.
  eapply glyph12_found; eauto.
Qed.
(** The last character of a group is not, unless another group has it. *)
Lemma lookup12_last : forall d t cmap len off c, Forall bytep d -> parseTtf d = Ok t ->
  has_table d (B"cmap") cmap len -> cmap_subtable d cmap 3 10 off -> 65535 < c ->
  (forall i st en, u32 d (cmap + off + 16 + 12 * i) = Some st -> u32 d (cmap + off + 16 + 12 * i + 4) = Some en -> ~ (st <= c < en)) ->
  glyph_index t c = Err EOther.
Proof.
  intros d t cmap len off c Hb P T Sb Hc H. pose proof (cmap12_ok _ _ _ _ _ Hb (parse_ok _ _ Hb P) T Sb) as [G1 G2].
  unfold glyph_index. destruct (Z.leb_spec c 65535); [lia|]. apply glyph12_missing. intros i st en g0 N. destruct (G2 _ _ _ _ N) as (E1 & E2 & _). eauto.
Qed.
