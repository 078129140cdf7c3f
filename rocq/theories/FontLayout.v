(** The layout of the embedded font program, and its metrics. *)
From Coq Require Import String List ZArith Lia Bool Sorted Permutation.
From Verif Require Import Base BaseProofs CryptoSpec Ttf TtfSpec TtfProofs TtfTables Subset FontFile FontGlyphs FontClosure FontEmbed FontTotal FontFinal.
Open Scope Z_scope.
Open Scope list_scope.

Definition made_tags : list bytes := B"glyf" :: B"loca" :: copied_tags.
Lemma made_tags_index : forall tag, In tag made_tags <-> exists k, nth_error tags k = Some tag.
Proof.
  intros tag. split.
  - intros H. unfold made_tags in H. destruct H as [<-|[<-|H]]; [exists 2%nat; reflexivity|exists 6%nat; reflexivity|].
    destruct (copied_index _ H) as (k & Hk & _). eauto.
  - intros (k & Hk). apply nth_error_In in Hk. cbn in Hk |- *. tauto.
Qed.

Lemma made_len : forall t beyond glyf loca tag data cs len, blen glyf mod 4 = 0 -> made t beyond glyf loca (tag, data, cs, len) -> blen data = pad4 len.
Proof.
  intros t beyond glyf loca tag data cs len Hg H. pose proof (made_cases _ _ _ _ _ _ _ _ Hg H) as [(-> & -> & -> & ->)|[(-> & -> & -> & ->)|(_ & _ & e & -> & -> & -> & E)]].
  - symmetry. apply padded_same. auto.
  - unfold loca_bytes. set (d := if isShortIndex t then _ else _).
    assert (L : blen d = Z.of_nat (List.length loca) * (if isShortIndex t then 2 else 4)).
    { unfold d. clear. destruct (isShortIndex t); induction loca as [|v l IH]; try reflexivity; cbn [flat_map List.length]; rewrite blen_app, IH, ?be2_len, ?be4_len; lia. }
    rewrite <- L, blen_app, blen_repeat. pose proof (padded_le (blen d)). unfold pad4. fold (paddedLength (blen d)). lia.
  - apply bytes_at_some in E as (_ & _ & _ & -> & _). reflexivity.
Qed.

Lemma pos_apart : forall l i j x, (i < j)%nat -> nth_error l i = Some x -> pos_of l i + blen (data_of x) <= pos_of l j.
Proof.
  intros l i j x H E. unfold pos_of. replace j with (i + (j - i))%nat by lia. rewrite <- (firstn_skipn i l) at 2.
  rewrite firstn_app. replace (List.length (firstn i l)) with i.
  2:{ rewrite firstn_length. assert (i < List.length l)%nat by (apply nth_error_Some; congruence). lia. }
  replace (i + (j - i) - i)%nat with (j - i)%nat by lia. rewrite datas_app, blen_app.
  rewrite (firstn_all2 (n := (i + (j - i))%nat) (firstn i l)) by (rewrite firstn_length; lia).
  apply nth_error_split in E as (l1 & l2 & -> & <-).
  replace (skipn (List.length l1) (l1 ++ x :: l2)) with (x :: l2) by (rewrite skipn_app, skipn_all, Nat.sub_diag, skipn_O; reflexivity).
  destruct (j - List.length l1)%nat as [|k] eqn:K; [lia|]. cbn [firstn datas flat_map]. rewrite blen_app.
  pose proof (blen_nonneg (flat_map data_of (firstn k l2))). lia.
Qed.

Section Layout.
Variables (d : bytes) (t : ttf) (beyond : bytes) (m : charmap) (f : bytes).
Hypotheses (Hb : Forall bytep d) (P : parseTtf d = Ok t) (M : make_font t beyond m = Ok f) (L : blen f < 4294967296).

Theorem layout : u16 f 4 = Some 9 /\
  (forall tag, In tag made_tags -> exists cs off len b, has_table f tag off len /\ table_sum f tag cs /\ off mod 4 = 0 /\ 156 <= off /\ 0 <= len /\
     bytes_at f off (pad4 len) = Some b /\ (tag = B"glyf" \/ tag = B"loca" -> cs = words b mod 4294967296)) /\
  (forall tag1 tag2 o1 l1 o2 l2, In tag1 made_tags -> In tag2 made_tags -> tag1 <> tag2 -> has_table f tag1 o1 l1 -> has_table f tag2 o2 l2 ->
     o1 + pad4 l1 <= o2 \/ o2 + pad4 l2 <= o1).
Proof.
  pose proof (parse_ok _ _ Hb P) as Pd. destruct (cut_ok _ _ _ _ _ Hb Pd M L) as (gs & b & glyf & loca & l & C).
  pose proof C as (_ & _ & _ & G4 & C5 & _ & C7 & C8 & _). split; [rewrite C7; apply header_count|]. split.
  - intros tag Ht. apply made_tags_index in Ht as (k & Hk).
    destruct (cut_table _ _ _ _ _ _ _ _ _ _ _ _ C L Hk) as (data & cs & len & E & T & D & Bt & Md & A).
    pose proof (made_len _ _ _ _ _ _ _ _ G4 Md) as Ln. exists cs, (pos_of l k), len, data.
    split; [exact T|]. split.
    { destruct (made_tag4 _ C5) as [T4 Hl]. rewrite C7 in L. destruct (file_entry l k tag data cs len T4 Hl C8 L E) as (R1 & _). rewrite <- C7 in R1.
      exists 9, (Z.of_nat k). assert (k < 9)%nat by (rewrite <- Hl; apply nth_error_Some; congruence).
      split; [rewrite C7; apply header_count|]. split; [lia|]. auto. }
    split; [exact A|]. split; [unfold pos_of; pose proof (blen_nonneg (datas (firstn k l))); lia|].
    split; [rewrite Forall_forall in C8; apply nth_error_In in E; apply C8 in E; cbn in E; lia|].
    split; [rewrite <- Ln; exact Bt|]. intros Hgl.
    destruct (made_cases _ _ _ _ _ _ _ _ G4 Md) as [(_ & -> & -> & _)|[(_ & _ & -> & _)|(N1 & N2 & _)]]; [reflexivity|reflexivity|].
    destruct Hgl; congruence.
  - intros tag1 tag2 o1 l1 o2 l2 H1 H2 Ne T1 T2. apply made_tags_index in H1 as (k1 & K1). apply made_tags_index in H2 as (k2 & K2).
    destruct (cut_table _ _ _ _ _ _ _ _ _ _ _ _ C L K1) as (data1 & cs1 & len1 & E1 & T1' & _ & _ & Md1 & _).
    destruct (cut_table _ _ _ _ _ _ _ _ _ _ _ _ C L K2) as (data2 & cs2 & len2 & E2 & T2' & _ & _ & Md2 & _).
    destruct (has_table_unique _ _ _ _ _ _ T1 T1') as [-> ->]. destruct (has_table_unique _ _ _ _ _ _ T2 T2') as [-> ->].
    rewrite <- (made_len _ _ _ _ _ _ _ _ G4 Md1), <- (made_len _ _ _ _ _ _ _ _ G4 Md2).
    destruct (Nat.lt_total k1 k2) as [K|[K|K]]; [left; apply (pos_apart _ _ _ _ K E1)|congruence|right; apply (pos_apart _ _ _ _ K E2)].
Qed.

Lemma table_sum_spec : forall tag off len cs, has_table d tag off len -> table_sum d tag cs -> checkSum (table0 (tables t) tag) = cs.
Proof.
  intros tag off len cs T (n' & i' & N' & I' & T' & S'). pose proof (parse_ok _ _ Hb P) as Pd. destruct (p_dir _ _ Pd) as [Hn Hd].
  destruct (table_spec _ _ _ _ _ (p_dir _ _ Pd) T) as (e & Ee & _). unfold table0. rewrite Ee.
  assert (X : exists i, nth_error (tables t) i = Some (tag, e)).
  { clear - Ee. induction (tables t) as [|[k x] r IH]; cbn [table_of] in Ee; [discriminate|]. destruct (table_of r tag) as [e'|] eqn:E.
    - destruct (IH Ee) as (i & Hi). exists (S i). exact Hi.
    - destruct (beqb_spec k tag) as [->|]; [|discriminate]. exists 0%nat. cbn. congruence. }
  destruct X as (i & Hi). pose proof (Hd _ _ Hi) as (T1 & S1 & _). cbn [fst snd] in T1, S1.
  destruct T as (n & j & N & J & _ & _ & _ & U).
  assert (i < List.length (tables t))%nat by (apply nth_error_Some; congruence).
  assert (n = n') by congruence. assert (n = Z.of_nat (List.length (tables t))) by congruence.
  assert (Z.of_nat i = j) by (apply U; [lia|auto]). assert (i' = j) by (apply U; [lia|auto]). congruence.
Qed.

(** Copied tables keep the checksum they came with. *)
Theorem copied_sum : forall tag off len cs, In tag copied_tags -> has_table d tag off len -> table_sum d tag cs -> table_sum f tag cs.
Proof.
  intros tag off len cs Ht T S. pose proof (parse_ok _ _ Hb P) as Pd. destruct (cut_ok _ _ _ _ _ Hb Pd M L) as (gs & b & glyf & loca & l & C).
  pose proof C as (_ & _ & _ & G4 & C5 & _ & C7 & C8 & _). destruct (copied_index _ Ht) as (k & Hk & N1 & N2).
  destruct (cut_table _ _ _ _ _ _ _ _ _ _ _ _ C L Hk) as (data & cs' & len' & E & T' & D & Bt & Md & A).
  destruct (made_cases _ _ _ _ _ _ _ _ G4 Md) as [(-> & _)|[(-> & _)|(_ & _ & e & -> & -> & _)]]; [congruence|congruence|].
  rewrite (table_sum_spec _ _ _ _ T S) in *.
  destruct (made_tag4 _ C5) as [T4 Hl]. rewrite C7 in L. destruct (file_entry l k tag data cs len' T4 Hl C8 L E) as (R1 & _). rewrite <- C7 in R1.
  exists 9, (Z.of_nat k). assert (k < 9)%nat by (rewrite <- Hl; apply nth_error_Some; congruence).
  split; [rewrite C7; apply header_count|]. split; [lia|]. auto.
Qed.

(** ... and the bytes they are padded with. *)
Theorem copied_padded : forall tag off len b, In tag copied_tags -> has_table d tag off len -> bytes_at d off (pad4 len) = Some b ->
  exists off', has_table f tag off' len /\ bytes_at f off' (pad4 len) = Some b.
Proof.
  intros tag off len b Ht T Bt. pose proof (parse_ok _ _ Hb P) as Pd. destruct (cut_ok _ _ _ _ _ Hb Pd M L) as (gs & gb & glyf & loca & l & C).
  pose proof C as (_ & _ & _ & G4 & _). destruct (copied_index _ Ht) as (k & Hk & N1 & N2).
  destruct (cut_table _ _ _ _ _ _ _ _ _ _ _ _ C L Hk) as (data & cs & len' & E & T' & _ & Bt' & Md & _).
  destruct (made_cases _ _ _ _ _ _ _ _ G4 Md) as [(-> & _)|[(-> & _)|(_ & _ & e & -> & _ & -> & X)]]; [congruence|congruence|].
  destruct (table_spec _ _ _ _ _ (p_dir _ _ Pd) T) as (e & Ee & Eo & El). unfold table0 in *. rewrite Ee in *. subst off len.
  exists (pos_of l k). split; [exact T'|]. rewrite (p_data _ _ Pd) in X. change (paddedLength (tlength e)) with (pad4 (tlength e)) in X.
  pose proof (bytes_at_more _ _ _ _ beyond Bt) as Y. assert (data = b) by congruence. subst data.
  apply bytes_at_some in X as (_ & _ & _ & Lb & _). rewrite <- Lb. exact Bt'.
Qed.

(** The advance widths stay. *)
Theorem advance_kept : metrics_inside d -> forall g w, 0 <= g -> advance d g w -> advance f g w.
Proof.
  intros (hb & xb & n & (h & hl & Th & Bh) & (x & xl & Tx & Bx) & Lh & En & Hn & Ln) g w Hg A.
  pose proof (parse_ok _ _ Hb P) as Pd.
  assert (Ch : table f (B"hhea") hb) by (eapply copied; eauto; [cbn; tauto|exists h, hl; auto]).
  assert (Cx : table f (B"hmtx") xb) by (eapply copied; eauto; [cbn; tauto|exists x, xl; auto]).
  destruct A as (h' & hl' & x' & xl' & n' & Th' & Tx' & En' & Hn' & Ew).
  destruct (has_table_unique _ _ _ _ _ _ Th Th') as [<- <-]. destruct (has_table_unique _ _ _ _ _ _ Tx Tx') as [<- <-].
  destruct Ch as (h2 & hl2 & Th2 & Bh2). destruct Cx as (x2 & xl2 & Tx2 & Bx2).
  assert (U : forall dd p len b q, bytes_at dd p len = Some b -> 0 <= q -> q + 2 <= blen b -> u16 dd (p + q) = u16 b q).
  { intros dd p len b q H Hq Hl. apply bytes_at_some in H as (_ & _ & _ & _ & u & v & -> & <-). apply u16_app; auto. }
  rewrite (U _ _ _ _ _ Bh) in En' by lia. assert (n' = n) by congruence. subst n'.
  rewrite (U _ _ _ _ _ Bx) in Ew by lia.
  exists h2, hl2, x2, xl2, n. split; [auto|]. split; [auto|]. split; [rewrite (U _ _ _ _ _ Bh2) by lia; auto|]. split; [auto|].
  rewrite (U _ _ _ _ _ Bx2) by lia. auto.
Qed.
End Layout.
