(** When the embedded font can be made. *)
From Coq Require Import String List ZArith Lia Bool Sorted Permutation.
From Verif Require Import Base BaseProofs Ttf TtfSpec TtfProofs TtfTables Subset FontFile FontGlyphs FontClosure FontEmbed.
Open Scope Z_scope.
Open Scope list_scope.

Lemma sizes_total : forall d t gs, Forall bytep d -> parsed d t -> Forall (fun g => exists o, outline d g o) gs ->
  exists k, sizes t gs = Ok k /\ 0 <= k.
Proof.
  intros d t gs Hb P. induction gs as [|g gs IH]; intros F; cbn [sizes]; [exists 0; split; [auto|lia]|].
  inversion F as [|? ? (o & Ho) F']; subst. destruct (outline_data _ _ _ _ Hb P Ho) as [_ E]. rewrite E. cbn [bind].
  destruct (IH F') as (k & -> & Hk). cbn [bind]. eexists. split; [reflexivity|]. pose proof (blen_nonneg o). lia.
Qed.
Lemma fill_total : forall d t, Forall bytep d -> parsed d t -> forall n idx gs off size k,
  Forall (fun g => exists o, outline d g o) gs -> sizes t gs = Ok k -> off + k <= size -> exists r, fill t n idx gs off size = Ok r.
Proof.
  intros d t Hb P. induction n as [|n IH]; intros idx gs off size k F S L; cbn [fill]; [eauto|].
  destruct gs as [|g gs'].
  - destruct (IH (idx + 1) [] off size k F S L) as ([r l] & ->). cbn [bind]. eauto.
  - destruct (Z.eqb_spec g idx) as [->|].
    + inversion F as [|? ? (o & Ho) F']; subst. destruct (outline_data _ _ _ _ Hb P Ho) as [E1 E2]. rewrite E1. cbn [bind].
      cbn [sizes] in S. rewrite E2 in S. cbn [bind] in S. destruct (sizes_total _ _ _ Hb P F') as (k' & S' & Hk').
      rewrite S' in S. cbn [bind] in S. assert (k = blen o + k') by congruence. subst k.
      destruct (Z.ltb_spec size (off + blen o)); [lia|].
      destruct (IH (idx + 1) gs' (off + blen o) size k' F' S' ltac:(lia)) as ([r l] & ->). cbn [bind]. eauto.
    + destruct (IH (idx + 1) (g :: gs') off size k F S L) as ([r l] & ->). cbn [bind]. eauto.
Qed.


(** The tables that are copied end before [size], with their padding. *)
Definition tables_inside (d : bytes) (size : Z) : Prop :=
  forall n tag i off len, u16 d 4 = Some n -> 0 <= i < n -> In tag copied_tags -> dir_tag d i = Some tag -> dir_off d i = Some off -> dir_len d i = Some len -> off + pad4 len <= size.

Lemma slice_total : forall d a b, 0 <= a <= b -> b <= blen d -> exists s, slice d a b = Ok s.
Proof.
  intros d a b H1 H2. unfold slice. destruct (Z.leb_spec 0 a); [|lia]. destruct (Z.leb_spec a b); [|lia].
  destruct (Z.leb_spec b (blen d)); [|lia]. cbn [andb]. eauto.
Qed.

Lemma font_table_total : forall d t beyond glyf loca tag, Forall bytep d -> parsed d t -> blen glyf mod 4 = 0 ->
  tables_inside d (blen d + blen beyond) -> In tag tags -> exists r, font_table t beyond glyf loca tag = Ok r.
Proof.
  intros d t beyond glyf loca tag Hb P Hg Hi Ht. unfold font_table.
  destruct (beqb_spec tag (B"glyf")) as [->|N1].
  { rewrite check_sum_ok by auto. cbn [bind]. rewrite padded_same by auto. pose proof (blen_nonneg glyf).
    destruct (slice_total glyf 0 (blen glyf)) as (s & ->); [lia|lia|]. cbn [bind]. eauto. }
  destruct (beqb_spec tag (B"loca")) as [->|N2].
  { cbv zeta. rewrite check_sum_ok by apply loca_bytes_len. cbn [bind]. eauto. }
  assert (Hc : In tag copied_tags).
  { cbn in Ht. destruct Ht as [H|[H|[H|[H|[H|[H|[H|[H|[H|[]]]]]]]]]]; subst tag; try (exfalso; first [apply N1; reflexivity|apply N2; reflexivity]);
      [idtac|do 1 right|do 2 right|do 3 right|do 4 right|do 5 right|do 6 right]; left; reflexivity. }
  rewrite (p_data _ _ P). unfold table0. destruct (table_of (tables t) tag) as [e|] eqn:E.
  - destruct (table_dir _ _ _ _ (p_dir _ _ P) E) as (i & Ri & D1 & _ & D2 & D3). cbn [fst snd] in *.
    pose proof (Hi _ _ _ _ _ (proj1 (p_dir _ _ P)) Ri Hc D1 D2 D3) as L. pose proof (table_range _ _ _ _ Hb (p_dir _ _ P) E). pose proof (padded_le (tlength e)).
    change (pad4 (tlength e)) with (paddedLength (tlength e)) in L.
    destruct (slice_total (d ++ beyond) (toffset e) (toffset e + paddedLength (tlength e))) as (s & ->); [lia|rewrite blen_app; lia|].
    cbn [bind]. eauto.
  - cbn [toffset tlength checkSum]. destruct (slice_total (d ++ beyond) 0 (0 + paddedLength 0)) as (s & E0); [change (paddedLength 0) with 0; lia|change (paddedLength 0) with 0; pose proof (blen_nonneg (d ++ beyond)); lia|].
    rewrite E0. cbn [bind]. eauto.
Qed.
Lemma font_loop_total : forall d t beyond glyf loca, Forall bytep d -> parsed d t -> blen glyf mod 4 = 0 ->
  tables_inside d (blen d + blen beyond) -> forall ts, incl ts tags -> forall idx pos b, exists r, font_loop t beyond glyf loca ts idx pos b = Ok r.
Proof.
  intros d t beyond glyf loca Hb P Hg Hi. induction ts as [|tag ts IH]; intros I idx pos b; cbn [font_loop]; [eauto|].
  destruct (font_table_total d t beyond glyf loca tag Hb P Hg Hi (I _ (or_introl eq_refl))) as ([[data cs] len] & ->). cbn [bind]. cbv zeta.
  apply IH. intros x Hx. apply I. right. auto.
Qed.

Lemma make_font_total : forall d t beyond m, Forall bytep d -> parsed d t -> Forall (drawable d) (glyphs m) ->
  (exists o, outline d 0 o) ->
  (forall v o c, In v (glyphs m) -> outline d v o -> component o c -> exists o', outline d c o') ->
  tables_inside d (blen d + blen beyond) -> exists f, make_font t beyond m = Ok f.
Proof.
  intros d t beyond m Hb P F H0 Hc Hi. destruct (closure_ok d t beyond m Hb P F) as (gs & E & _ & I).
  assert (Fg : Forall (fun g => exists o, outline d g o) (sort gs)).
  { apply Forall_forall. intros g Hg. apply (Permutation_in g (Permutation_sym (sort_perm gs))) in Hg. apply I in Hg as [Hg|[->|(v & o & H1 & H2 & H3)]].
    - rewrite Forall_forall in F. destruct (F _ Hg) as (o & Ho & _). eauto.
    - auto.
    - eauto. }
  assert (G : exists glyf loca, glyf_and_loca t beyond m = Ok (glyf, loca)).
  { unfold glyf_and_loca. rewrite E. cbn [bind]. cbv zeta. destruct (sizes_total _ _ _ Hb P Fg) as (k & Sk & Hk). rewrite Sk. cbn [bind].
    pose proof (padded_le k). destruct (Z.ltb_spec (paddedLength k) 0); [lia|].
    destruct (fill_total d t Hb P (Z.to_nat (numGlyphs t)) 0 (sort gs) 0 (paddedLength k) k Fg Sk ltac:(lia)) as ([b l] & ->). cbn [bind]. eauto. }
  destruct G as (glyf & loca & G). unfold make_font. rewrite G. cbn [bind]. cbv zeta.
  destruct (glyf_and_loca_ok _ _ _ _ _ G) as (_ & _ & _ & _ & _ & _ & G4).
  match goal with |- context [font_loop _ _ _ _ _ ?i ?p ?b] => destruct (font_loop_total d t beyond glyf loca Hb P G4 Hi tags ltac:(intros x Hx; exact Hx) i p b) as (r & ->) end.
  cbn [bind]. eauto.
Qed.
