(** The bytes GetBytesPdf gives: objects, table, trailer. *)
From Coq Require Import String List ZArith Lia Bool.
From Coq.Floats Require Import SpecFloat.
From Verif Require Import Base BaseProofs Output OutputSpec OutputProofs PdfSyntax PdfSyntaxProofs Float64 GoPdf GoPdfSpec.
Open Scope Z_scope.
Open Scope list_scope.

(** ** The loop *)

Definition wrapped (id : Z) (b : bytes) : bytes := itoa id ++ B" 0 obj" ++ [10] ++ b ++ B"endobj" ++ [10; 10].
Fixpoint texts (id : Z) (l : list bytes) : bytes := match l with [] => [] | b :: l => wrapped id b ++ texts (id + 1) l end.
Fixpoint offsets (id at0 : Z) (l : list bytes) : list Z :=
  match l with [] => [] | b :: l => at0 :: offsets (id + 1) (at0 + blen (wrapped id b)) l end.

Definition is_procset (k : gkind) : bool := match k with KProcSet _ _ => true | _ => false end.

Lemma build1_l : forall w g l id k b k' l', build1 w g l id k = Ok (b, k', l') -> is_procset k = false -> l' = l.
Proof.
  intros w g l id k b k' l' H P. destruct k; cbn [build1 is_procset] in H, P; try discriminate; try (injection H as <- <- <-; reflexivity);
  repeat match type of H with
  | (match nth_error ?a ?n with _ => _ end) = _ => destruct (nth_error a n); cbn [bind] in H; [|discriminate]
  | bind ?e _ = _ => destruct e as [?| | |]; cbn [bind] in H; try discriminate
  | (let '(_, _) := ?x in _) = _ => destruct x
  end; try (injection H as <- <- <-; reflexivity).
Qed.

Lemma build_loop_ok : forall w g todo id l buf offs done os' l' buf' offs',
  build_loop w g todo id l buf offs done = Ok (os', l', buf', offs') ->
  exists bs os1, os' = done ++ os1 /\ buf' = buf ++ texts id bs /\ offs' = offs ++ offsets id (blen buf) bs /\
    List.length bs = List.length todo /\ List.length os1 = List.length todo /\
    forall k o, nth_error todo k = Some o -> exists lk b kd lk', build1 w g lk (id + Z.of_nat k) (o_kind o) = Ok (b, kd, lk') /\
      nth_error bs k = Some (o_buf o ++ b) /\ nth_error os1 k = Some (mkGO (o_buf o ++ b) kd) /\
      ((forall j o', (j < k)%nat -> nth_error todo j = Some o' -> is_procset (o_kind o') = false) -> lk = l).
Proof.
  intros w g. induction todo as [|o todo IH]; intros id l buf offs done os' l' buf' offs' H; cbn [build_loop] in H.
  - injection H as <- <- <- <-. exists [], []. cbn [texts offsets List.length]. rewrite !app_nil_r.
    split; [reflexivity|]. split; [reflexivity|]. split; [reflexivity|]. split; [reflexivity|]. split; [reflexivity|].
    intros k o E. destruct k; discriminate.
  - destruct (build1 w g l id (o_kind o)) as [[[b kd] l1]| | |] eqn:E1; cbn [bind] in H; try discriminate.
    apply IH in H. destruct H as (bs & os1 & -> & -> & -> & L1 & L2 & K).
    exists ((o_buf o ++ b) :: bs), (mkGO (o_buf o ++ b) kd :: os1). cbn [texts offsets List.length o_buf].
    split; [rewrite <- app_assoc; reflexivity|].
    split; [unfold wrapped; rewrite <- !app_assoc; reflexivity|].
    split.
    { rewrite <- app_assoc. cbn [app]. do 3 f_equal. rewrite blen_app. unfold wrapped. reflexivity. }
    split; [lia|]. split; [lia|].
    intros k o' E. destruct k as [|k]; cbn [nth_error] in E.
    + injection E as <-. exists l, b, kd, l1. replace (id + Z.of_nat 0) with id by lia. cbn [nth_error]. auto.
    + destruct (K k o' E) as (lk & b' & kd' & lk' & B1 & N1 & N2 & Hl). exists lk, b', kd', lk'.
      replace (id + Z.of_nat (S k)) with (id + 1 + Z.of_nat k) by lia. cbn [nth_error]. split; [exact B1|]. split; [exact N1|]. split; [exact N2|].
      intros Hj. assert (l1 = l) as <-.
      { eapply build1_l; [exact E1|]. apply (Hj 0%nat); [lia|reflexivity]. }
      apply Hl. intros j o2 Hlt E2. apply (Hj (S j)); [lia|exact E2].
Qed.

(** ** The file *)

Lemma offsets_len : forall l id a, List.length (offsets id a l) = List.length l.
Proof. induction l as [|b l IH]; intros id a; cbn [offsets List.length]; [reflexivity|]. rewrite IH. reflexivity. Qed.
Lemma offsets_at : forall l id a k b, nth_error l k = Some b ->
  exists p q, texts id l = p ++ wrapped (id + Z.of_nat k) b ++ q /\ nth_error (offsets id a l) k = Some (a + blen p).
Proof.
  induction l as [|x l IH]; intros id a k b E; [destruct k; discriminate|]. destruct k as [|k]; cbn [nth_error] in E.
  - injection E as ->. exists [], (texts (id + 1) l). cbn [texts offsets nth_error app]. replace (id + Z.of_nat 0) with id by lia.
    split; [reflexivity|]. f_equal. unfold blen. cbn [List.length]. lia.
  - destruct (IH (id + 1) (a + blen (wrapped id x)) k b E) as (p & q & T & O). exists (wrapped id x ++ p), q. cbn [texts offsets nth_error].
    rewrite T, O. replace (id + 1 + Z.of_nat k) with (id + Z.of_nat (S k)) by lia. rewrite <- app_assoc. split; [reflexivity|].
    f_equal. rewrite blen_app. lia.
Qed.

Definition row_of (o : Z) : bytes := formatXrefline o ++ B" 00000 n " ++ [10].
Definition file (bs : list bytes) (enc : option Z) (info : option ginfo) : bytes :=
  pdf_header ++ texts 1 bs ++ g_xref (offsets 1 (blen pdf_header) bs) (blen (pdf_header ++ texts 1 bs)) enc info.

Definition trailer_dict (n : Z) (enc : option Z) (info : option ginfo) (r : bytes) : bytes :=
  B"<<" ++ [10] ++ B"/Size " ++ itoa (n + 1) ++ [10] ++ B"/Root 1 0 R" ++ [10]
  ++ match enc with Some e => B"/Encrypt " ++ itoa e ++ B" 0 R" ++ [10] ++ B"/ID [()()]" ++ [10] | None => [] end
  ++ match info with Some i => info_text i | None => [] end
  ++ B">>" ++ [10] ++ r.

Section File.
Variables (bs : list bytes) (enc : option Z) (info : option ginfo).
Let F := file bs enc info.
Let n := Z.of_nat (List.length bs).
Let body := pdf_header ++ texts 1 bs.
Let offs := offsets 1 (blen pdf_header) bs.
Let head := B"xref" ++ [10] ++ B"0 " ++ itoa (n + 1) ++ [10].
Let zero_row := B"0000000000 65535 f " ++ [10].
Let tail_ := B"startxref" ++ [10] ++ itoa (blen body) ++ [10] ++ B"%%EOF" ++ [10].
Hypothesis small : blen F < 10 ^ 10.

Lemma file_parts : F = body ++ head ++ zero_row ++ flat_map row_of offs ++ B"trailer" ++ [10] ++ trailer_dict n enc info tail_.
Proof.
  unfold F, file, g_xref, trailer_dict, body, head, zero_row, tail_, offs. rewrite offsets_len. fold n. cbv zeta.
  rewrite <- !app_assoc. reflexivity.
Qed.

Lemma offs_ok : forall k b, nth_error bs k = Some b -> exists p q, body = p ++ wrapped (1 + Z.of_nat k) b ++ q /\ nth_error offs k = Some (blen p) /\ 0 <= blen p < 10 ^ 10.
Proof.
  intros k b E. destruct (offsets_at bs 1 (blen pdf_header) k b E) as (p & q & T & O). exists (pdf_header ++ p), q.
  unfold body, offs. rewrite T, O, blen_app, <- app_assoc. split; [reflexivity|]. split; [reflexivity|].
  pose proof (blen_nonneg pdf_header). pose proof (blen_nonneg p). split; [lia|]. pose proof small as Hs. rewrite file_parts in Hs. unfold body in Hs. rewrite T in Hs.
  rewrite !blen_app in Hs.
  pose proof (blen_nonneg (wrapped (1 + Z.of_nat k) b)). pose proof (blen_nonneg q). pose proof (blen_nonneg head). pose proof (blen_nonneg zero_row).
  pose proof (blen_nonneg (flat_map row_of offs)). pose proof (blen_nonneg (B"trailer")). pose proof (blen_nonneg [10]). pose proof (blen_nonneg (trailer_dict n enc info tail_)). lia.
Qed.

Lemma offs_range : Forall (fun o => 0 <= o < 10 ^ 10) offs.
Proof.
  apply Forall_forall. intros o H. apply In_nth_error in H. destruct H as (k & E).
  assert (L : (k < List.length bs)%nat). { rewrite <- (offsets_len bs 1 (blen pdf_header)). apply nth_error_Some. fold offs. congruence. }
  destruct (nth_error bs k) as [b|] eqn:Eb; [|apply nth_error_None in Eb; lia].
  destruct (offs_ok k b Eb) as (p & q & _ & O & R). assert (o = blen p) by congruence. lia.
Qed.

Lemma rows_len : forall l, Forall (fun o => 0 <= o < 10 ^ 10) l -> blen (flat_map row_of l) = 20 * Z.of_nat (List.length l).
Proof.
  induction 1 as [|o l H _ IH]; [reflexivity|]. cbn [flat_map List.length]. rewrite blen_app, IH. unfold row_of. rewrite blen_app.
  destruct (formatXrefline_numeral o H) as (_ & L). unfold blen at 1. rewrite L. change (blen (B" 00000 n " ++ [10])) with 10. lia.
Qed.

Definition base_ := blen body + blen head.

Lemma file_startxref : startxref_is F (blen body).
Proof.
  rewrite file_parts. unfold trailer_dict, tail_. eexists. exists (itoa (blen body)). split; [|apply numeral_itoa, blen_nonneg].
  rewrite !app_assoc. do 6 f_equal.
Qed.

Lemma file_table : table F (n + 1) base_.
Proof.
  exists (blen body). split; [exact file_startxref|]. exists (itoa (n + 1)). split; [apply numeral_itoa; lia|]. split; [|reflexivity].
  rewrite file_parts. apply text_at_app. reflexivity.
Qed.

Lemma file_free : row_at F base_ 0 0 65535 102.
Proof.
  exists (B"0000000000"), (B"65535"). split; [apply (numeral_pad 9 [48] 0); apply (numeral_itoa 0); lia|]. split; [reflexivity|].
  split; [apply num65535|]. split; [reflexivity|].
  replace (base_ + 20 * 0) with (blen (body ++ head)) by (unfold base_; rewrite blen_app; lia).
  rewrite file_parts, app_assoc. apply text_at_app. reflexivity.
Qed.

Lemma file_row : forall k o, nth_error offs k = Some o -> row_at F base_ (1 + Z.of_nat k) o 0 110.
Proof.
  intros k o E. pose proof (nth_error_split _ _ E) as (a & c & Eo & L).
  pose proof offs_range as R. rewrite Eo in R. apply Forall_app in R. destruct R as (Ra & Rc). inversion Rc as [|? ? Ho _]; subst.
  destruct (formatXrefline_numeral o Ho) as (N & L10). exists (formatXrefline o), (B"00000").
  split; [exact N|]. split; [exact L10|]. split; [apply num00000|]. split; [reflexivity|].
  rewrite file_parts, Eo, flat_map_app. cbn [flat_map]. unfold row_of at 2.
  rewrite <- !app_assoc. rewrite (app_assoc body), (app_assoc _ zero_row), (app_assoc _ (flat_map row_of a)).
  assert (X : forall x, formatXrefline o ++ B" 00000 n " ++ [10] ++ x = (formatXrefline o ++ [32] ++ B"00000" ++ [32; 110; 32; 10]) ++ x)
    by (intros x; rewrite <- !app_assoc; reflexivity).
  rewrite X.
  apply text_at_app. rewrite !blen_app, rows_len by exact Ra. unfold base_. change (blen zero_row) with 20. lia.
Qed.

Lemma file_object : forall k b, nth_error bs k = Some b -> exists t, object_text F (1 + Z.of_nat k) (b ++ B"endobj" ++ [10] ++ t).
Proof.
  intros k b E. destruct (offs_ok k b E) as (p & q & Eb & O & R).
  exists ([10] ++ q ++ head ++ zero_row ++ flat_map row_of offs ++ B"trailer" ++ [10] ++ trailer_dict n enc info tail_), (n + 1), base_, (blen p), (itoa (1 + Z.of_nat k)).
  split; [exact file_table|].
  assert (k < List.length bs)%nat by (apply nth_error_Some; congruence).
  split; [lia|]. split; [apply file_row; exact O|]. split; [apply numeral_itoa; lia|]. split; [lia|].
  rewrite file_parts, Eb. unfold blen. rewrite Nat2Z.id. rewrite <- app_assoc. rewrite skipn_app, skipn_all, Nat.sub_diag. cbn [app].
  unfold wrapped. rewrite <- !app_assoc. reflexivity.
Qed.

Lemma file_trailer : exists base, table F (n + 1) base /\ 0 <= base /\
  skipn (Z.to_nat (base + 20 * (n + 1))) F = B"trailer" ++ [10] ++ trailer_dict n enc info tail_.
Proof.
  exists base_. split; [exact file_table|]. split; [unfold base_; pose proof (blen_nonneg body); pose proof (blen_nonneg head); lia|].
  replace (base_ + 20 * (n + 1)) with (blen (((body ++ head) ++ zero_row) ++ flat_map row_of offs)).
  2:{ rewrite !blen_app, rows_len by exact offs_range. unfold base_, offs. rewrite offsets_len. fold n. change (blen zero_row) with 20. lia. }
  rewrite file_parts. rewrite (app_assoc body), (app_assoc _ zero_row), (app_assoc _ (flat_map row_of offs)).
  unfold blen. rewrite Nat2Z.id, skipn_app, skipn_all, Nat.sub_diag. reflexivity.
Qed.
End File.

(** ** From GetBytesPdf *)

Lemma bytes_file : forall w g g' F, g_bytes w g = Ok (g', F) ->
  exists gp bs, g_prepare g = Ok gp /\ List.length bs = List.length (g_objs gp) /\
    F = file bs (if cfg_use (g_cfg gp) then Some (g_enc gp) else None) (g_info gp) /\
    forall k o, nth_error (g_objs gp) k = Some o -> exists lk b kd lk', build1 w gp lk (1 + Z.of_nat k) (o_kind o) = Ok (b, kd, lk') /\
      nth_error bs k = Some (o_buf o ++ b) /\
      ((forall j o', (j < k)%nat -> nth_error (g_objs gp) j = Some o' -> is_procset (o_kind o') = false) -> lk = u_l (g_cur gp)).
Proof.
  intros w g g' F H. unfold g_bytes, compile in H. destruct (g_prepare g) as [gp| | |] eqn:P; cbn [bind] in H; try discriminate.
  destruct (build_loop w gp (g_objs gp) 1 (u_l (g_cur gp)) pdf_header [] []) as [[[[os l] buf] offs]| | |] eqn:E; cbn [bind] in H; try discriminate.
  injection H as _ <-. cbn [g_buf g_set_buf]. apply build_loop_ok in E. destruct E as (bs & os1 & -> & -> & -> & L1 & _ & K).
  exists gp, bs. split; [reflexivity|]. split; [exact L1|]. split; [unfold file; rewrite <- app_assoc; reflexivity|].
  intros k o Ek. destruct (K k o Ek) as (lk & b & kd & lk' & B1 & N1 & _ & Hl). exists lk, b, kd, lk'. auto.
Qed.

(** ** What is found is unique *)

Lemma numeral_unique : forall d a b, numeral d a -> numeral d b -> a = b.
Proof. intros d a b (_ & _ & <-) (_ & _ & <-). reflexivity. Qed.
Lemma numeral_digits : forall d a, numeral d a -> Forall (fun c => is_digit c = true) d.
Proof. intros d a (_ & H & _). eapply Forall_impl; [|exact H]. intros c Hc. cbv beta in Hc. unfold is_digit. apply andb_true_iff. split; apply Z.leb_le; lia. Qed.
Lemma digits_split : forall d d' x y r r', Forall (fun c => is_digit c = true) d -> Forall (fun c => is_digit c = true) d' ->
  is_digit x = false -> is_digit y = false -> d ++ x :: r = d' ++ y :: r' -> d = d' /\ x :: r = y :: r'.
Proof.
  induction d as [|a d IH]; intros [|a' d'] x y r r' H H' X Y E; cbn [app] in E.
  - split; [reflexivity|exact E].
  - injection E as -> _. inversion H'; subst. congruence.
  - injection E as <- _. inversion H; subst. congruence.
  - inversion H; inversion H'; subst. injection E as <- E. destruct (IH _ _ _ _ _ H3 H7 X Y E) as (-> & E2). auto.
Qed.

Lemma startxref_unique : forall F a b, startxref_is F a -> startxref_is F b -> a = b.
Proof.
  intros F a b (p & d & E & N) (p' & d' & E' & N'). rewrite E in E'. apply (f_equal (@rev Z)) in E'. rewrite !rev_app_distr in E'.
  rewrite <- !app_assoc in E'.
  change (rev [10]) with [10] in E'. change (rev (B"%%EOF")) with (B"FOE%%") in E'.
  apply app_inv_head, app_inv_head, app_inv_head in E'.
  assert (D : Forall (fun c => is_digit c = true) (rev d)) by (apply Forall_rev, (numeral_digits _ _ N)).
  assert (D' : Forall (fun c => is_digit c = true) (rev d')) by (apply Forall_rev, (numeral_digits _ _ N')).
  cbn [app] in E'. destruct (digits_split _ _ 10 10 _ _ D D' eq_refl eq_refl E') as (Ed & _).
  apply (f_equal (@rev Z)) in Ed. rewrite !rev_involutive in Ed. subst d'. eapply numeral_unique; eauto.
Qed.

Lemma text_at_split : forall F off s, text_at F off s -> exists r, skipn (Z.to_nat off) F = s ++ r.
Proof. intros F off s (_ & E). exists (skipn (List.length s) (skipn (Z.to_nat off) F)). rewrite <- E at 1. symmetry. apply firstn_skipn. Qed.

Lemma sect_unique : forall F x N b N' b', sect F x N b -> sect F x N' b' -> N = N' /\ b = b'.
Proof.
  intros F x N b N' b' (d & ND & T & ->) (d' & ND' & T' & ->).
  apply text_at_split in T. apply text_at_split in T'. destruct T as (r & T). destruct T' as (r' & T'). rewrite T in T'.
  rewrite <- !app_assoc in T'. do 3 apply app_inv_head in T'.
  destruct (digits_split _ _ 10 10 _ _ (numeral_digits _ _ ND) (numeral_digits _ _ ND') eq_refl eq_refl T') as (-> & _).
  split; [eapply numeral_unique; eauto|reflexivity].
Qed.

Lemma table_unique : forall F N b N' b', table F N b -> table F N' b' -> N = N' /\ b = b'.
Proof. intros F N b N' b' (x & S1 & S2) (x' & S1' & S2'). rewrite <- (startxref_unique _ _ _ S1 S1') in S2'. eapply sect_unique; eauto. Qed.

Lemma row_unique : forall F b j n g f n' g' f', row_at F b j n g f -> row_at F b j n' g' f' -> n = n'.
Proof.
  intros F b j n g f n' g' f' (dn & dg & N & L & _ & _ & T) (dn' & dg' & N' & L' & _ & _ & T').
  apply text_at_split in T. apply text_at_split in T'. destruct T as (r & T). destruct T' as (r' & T'). rewrite T in T'.
  rewrite <- !app_assoc in T'. assert (dn = dn').
  { rewrite <- L' in L. clear - L T'. revert dn' L T'. induction dn as [|c dn IH]; intros [|c' dn'] L T'; try discriminate; [reflexivity|].
    cbn [app] in T'. injection T' as -> T'. f_equal. apply IH; [cbn [List.length] in L; lia|exact T']. }
  subst dn'. eapply numeral_unique; eauto.
Qed.

Theorem object_text_unique : forall F id s s', object_text F id s -> object_text F id s' -> s = s'.
Proof.
  intros F id s s' (N & b & off & d & T & _ & R & D & _ & E) (N' & b' & off' & d' & T' & _ & R' & D' & _ & E').
  destruct (table_unique _ _ _ _ _ T T') as (<- & <-). rewrite <- (row_unique _ _ _ _ _ _ _ _ _ R R') in E'. rewrite E in E'.
  change (B" 0 obj" ++ ?x) with (32 :: B"0 obj" ++ x) in E'.
  destruct (digits_split _ _ 32 32 _ _ (numeral_digits _ _ D) (numeral_digits _ _ D') eq_refl eq_refl E') as (_ & E2).
  apply (app_inv_head (B" 0 obj" ++ [10])) in E2. exact E2.
Qed.
Theorem object_unique : forall F id v v', object_is F id v -> object_is F id v' -> v = v'.
Proof. intros F id v v' (s & r & T & R & _) (s' & r' & T' & R' & _). rewrite <- (object_text_unique _ _ _ _ T T') in R'. apply (reads_unique _ _ _ _ _ R R'). Qed.
