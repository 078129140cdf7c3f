From Coq Require Import String List ZArith Lia Bool.
From Verif Require Import Base BaseProofs Output OutputSpec.
Open Scope Z_scope.
Open Scope list_scope.

(** ** Offsets of objects *)

Lemma write_objs_fst : forall objs buff xs,
  fst (write_objs objs buff xs) = buff ++ concat (map obj_text objs).
Proof.
  induction objs as [|o objs IH]; intros; cbn [write_objs map concat fst].
  - now rewrite app_nil_r.
  - rewrite IH, <- app_assoc. auto.
Qed.

(** Lookup in the offset map gives the position of the last object with that number. *)
Lemma write_objs_get : forall objs buff xs j,
  match map_get (snd (write_objs objs buff xs)) j with
  | Some off =>
      (exists pre o post, objs = pre ++ o :: post /\ oid o = j /\
         Forall (fun o' => oid o' <> j) post /\ off = blen (buff ++ concat (map obj_text pre)))
      \/ (Forall (fun o' => oid o' <> j) objs /\ map_get xs j = Some off)
  | None => Forall (fun o' => oid o' <> j) objs /\ map_get xs j = None
  end.
Proof.
  induction objs as [|o objs IH]; intros; cbn [write_objs snd].
  - destruct (map_get xs j); auto.
  - specialize (IH (buff ++ obj_text o) ((oid o, blen buff) :: xs) j).
    destruct (map_get (snd (write_objs objs (buff ++ obj_text o) ((oid o, blen buff) :: xs))) j) as [off|].
    + destruct IH as [(pre & o1 & post & -> & H1 & H2 & H3)|[H1 H2]].
      * left. exists (o :: pre), o1, post. repeat split; auto.
        cbn [map concat]. rewrite app_assoc. auto.
      * cbn [map_get] in H2. destruct (Z.eqb_spec j (oid o)) as [->|Hn].
        -- inversion H2; subst. left. exists [], o, objs. repeat split; auto.
           cbn. rewrite app_nil_r. auto.
        -- right. split; auto.
    + destruct IH as [H1 H2]. cbn [map_get] in H2.
      destruct (Z.eqb_spec j (oid o)) as [->|Hn]; [discriminate|]. auto.
Qed.

(** ** Rows *)

(** Closed form: next free number after [k], up to [m]; 0 if none. *)
Fixpoint next_free (ll : list (Z * Z)) (js : list nat) : Z :=
  match js with
  | [] => 0
  | j :: js' => match map_get ll (Z.of_nat j) with Some _ => next_free ll js' | None => Z.of_nat j end
  end.

Definition is_free (ll : list (Z * Z)) (k : nat) : bool :=
  (k =? 0)%nat || match map_get ll (Z.of_nat k) with Some _ => false | None => true end.

Definition row_spec (ll : list (Z * Z)) (m k : nat) : xrefrow :=
  if is_free ll k then mkRow (next_free ll (seq (S k) (m - k))) (B"65535") (B"f")
  else match map_get ll (Z.of_nat k) with
       | Some off => mkRow off (B"00000") (B"n")
       | None => mkRow 0 [] []
       end.

Fixpoint last_free (ll : list (Z * Z)) (m : nat) : nat :=
  match m with
  | O => O
  | S m' => if is_free ll (S m') then S m' else last_free ll m'
  end.

Lemma xref_loop_app : forall ll a b rows lf,
  xref_loop ll (a ++ b) rows lf =
  let '(r, l) := xref_loop ll a rows lf in xref_loop ll b r l.
Proof.
  induction a as [|j a IH]; intros; [reflexivity|].
  cbn [app xref_loop]. destruct (map_get ll (Z.of_nat j)); apply IH.
Qed.

Lemma next_free_app : forall ll a b,
  next_free ll (a ++ b) = if next_free ll a =? 0 then
      (if forallb (fun j => match map_get ll (Z.of_nat j) with Some _ => true | None => false end) a
       then next_free ll b else 0)
    else next_free ll a.
Proof.
  induction a as [|j a IH]; intros; [reflexivity|].
  cbn [app next_free forallb]. destruct (map_get ll (Z.of_nat j)) eqn:E.
  - cbn [andb]. apply IH.
  - cbn [andb]. destruct (Z.of_nat j =? 0) eqn:E2; lia.
Qed.

Lemma next_free_0 : forall ll n k, (1 <= k)%nat ->
  next_free ll (seq k n) = 0 ->
  forallb (fun j => match map_get ll (Z.of_nat j) with Some _ => true | None => false end) (seq k n) = true.
Proof.
  induction n; intros k Hk H; [reflexivity|].
  cbn [seq next_free forallb] in *. destruct (map_get ll (Z.of_nat k)).
  - rewrite IHn; auto.
  - lia.
Qed.

Lemma next_free_step : forall ll m k, (k <= m)%nat ->
  next_free ll (seq (S k) (S m - k)) =
  if next_free ll (seq (S k) (m - k)) =? 0
  then (if is_free ll (S m) then Z.of_nat (S m) else 0)
  else next_free ll (seq (S k) (m - k)).
Proof.
  intros. replace (S m - k)%nat with (m - k + 1)%nat by lia.
  rewrite seq_app, next_free_app.
  destruct (Z.eqb_spec (next_free ll (seq (S k) (m - k))) 0) as [E|E]; auto.
  rewrite next_free_0 by (auto; lia).
  replace (S k + (m - k))%nat with (S m) by lia.
  cbn [seq next_free]. unfold is_free. cbn [Nat.eqb orb].
  destruct (map_get ll (Z.of_nat (S m))); auto.
Qed.

Lemma last_free_le : forall ll m, (last_free ll m <= m)%nat.
Proof. induction m; cbn [last_free]; [lia|]. destruct (is_free ll (S m)); lia. Qed.

Lemma last_free_free : forall ll m, is_free ll (last_free ll m) = true.
Proof. induction m; cbn [last_free]; auto. destruct (is_free ll (S m)) eqn:E; auto. Qed.

(** Below the last free number the next one exists; at it there is none. *)
Lemma next_free_last : forall ll m k, (k <= m)%nat -> is_free ll k = true ->
  (next_free ll (seq (S k) (m - k)) = 0 <-> k = last_free ll m).
Proof.
  induction m as [|m IH]; intros k Hk Hf.
  - assert (k = 0)%nat by lia. subst. simpl. tauto.
  - destruct (Nat.eq_dec k (S m)) as [->|Hne].
    + cbn [last_free]. rewrite Hf, Nat.sub_diag. simpl. tauto.
    + rewrite next_free_step by lia. cbn [last_free].
      destruct (Z.eqb_spec (next_free ll (seq (S k) (m - k))) 0) as [E|E].
      * apply IH in E; [|lia|auto]. destruct (is_free ll (S m)) eqn:F; [|tauto].
        split; [lia|]. intros ->. lia.
      * destruct (is_free ll (S m)) eqn:F.
        -- split; [congruence|]. intros ->. lia.
        -- rewrite IH in E by (auto; lia). split; [|congruence].
           intros H. exfalso. apply E. apply IH; auto; lia.
Qed.

Lemma set_nth_map_seq : forall A (f : A -> A) (g : nat -> A) n a i, (i < n)%nat ->
  set_nth i f (map g (seq a n)) = map (fun k => if (k =? a + i)%nat then f (g k) else g k) (seq a n).
Proof.
  induction n; intros a i H; [lia|].
  cbn [seq map]. destruct i; cbn [set_nth].
  - rewrite Nat.add_0_r, Nat.eqb_refl. f_equal. apply map_ext_in. intros k Hk. apply in_seq in Hk.
    destruct (Nat.eqb_spec k a); auto; lia.
  - destruct (Nat.eqb_spec a (a + S i)); [lia|]. f_equal.
    rewrite IHn by lia. apply map_ext. intros k. replace (S a + i)%nat with (a + S i)%nat by lia. auto.
Qed.

Lemma xref_loop_spec : forall ll m,
  xref_loop ll (seq 1 m) [mkRow 0 (B"65535") (B"f")] 0%nat =
  (map (row_spec ll m) (seq 0 (S m)), last_free ll m).
Proof.
  induction m as [|m IH]; [reflexivity|].
  rewrite (seq_S m 1). change (1 + m)%nat with (S m).
  rewrite xref_loop_app, IH. cbn [xref_loop].
  destruct (map_get ll (Z.of_nat (S m))) as [off|] eqn:E.
  - assert (F : is_free ll (S m) = false) by (unfold is_free; rewrite E; auto).
    cbn [last_free]. rewrite F.
    f_equal. rewrite (seq_S (S m) 0). change (0 + S m)%nat with (S m).
    rewrite map_app. f_equal.
    + apply map_ext_in. intros k Hk. apply in_seq in Hk. unfold row_spec.
      destruct (is_free ll k); auto. rewrite next_free_step by lia. rewrite F.
      destruct (Z.eqb_spec (next_free ll (seq (S k) (m - k))) 0); congruence.
    + cbn [map]. unfold row_spec. rewrite F, E. auto.
  - assert (F : is_free ll (S m) = true) by (unfold is_free; rewrite E; auto).
    rewrite app_length, map_length, seq_length. cbn [List.length].
    replace (S m + 1 - 1)%nat with (S m) by lia.
    cbn [last_free]. rewrite F. f_equal.
    assert (Happ : map (row_spec ll m) (seq 0 (S m)) ++ [mkRow 0 (B "65535") (B "f")] =
            map (fun k => if (k =? S m)%nat then mkRow 0 (B "65535") (B "f") else row_spec ll m k) (seq 0 (S (S m)))).
    { rewrite (seq_S (S m) 0). change (0 + S m)%nat with (S m).
      rewrite map_app. f_equal.
      - apply map_ext_in. intros k Hk. apply in_seq in Hk. destruct (Nat.eqb_spec k (S m)); [lia|auto].
      - cbn [map]. rewrite Nat.eqb_refl. auto. }
    rewrite Happ. pose proof (last_free_le ll m).
    rewrite set_nth_map_seq by lia. rewrite Nat.add_0_l.
    apply map_ext_in. intros k Hk. apply in_seq in Hk.
    destruct (Nat.eqb_spec k (S m)) as [->|Hne].
    + destruct (Nat.eqb_spec (S m) (last_free ll m)); [lia|].
      unfold row_spec. rewrite F, Nat.sub_diag. reflexivity.
    + destruct (Nat.eqb_spec k (last_free ll m)) as [->|Hnl].
      * pose proof (last_free_free ll m) as FF. unfold row_spec. rewrite FF.
        cbn [xr_gen xr_flag]. f_equal. rewrite next_free_step by lia.
        rewrite (proj2 (next_free_last ll m (last_free ll m) ltac:(lia) FF) eq_refl). cbn [Z.eqb].
        rewrite F. auto.
      * unfold row_spec. destruct (is_free ll k) eqn:Fk; auto.
        rewrite next_free_step by lia.
        destruct (Z.eqb_spec (next_free ll (seq (S k) (m - k))) 0) as [E0|E0]; auto.
        apply next_free_last in E0; auto; [congruence|lia].
Qed.

Lemma xref_rows_spec : forall ll size, 0 <= size ->
  xref_rows ll size = map (row_spec ll (Z.to_nat size)) (seq 0 (S (Z.to_nat size))).
Proof. intros. unfold xref_rows. rewrite xref_loop_spec. auto. Qed.

(** ** Bytes *)
Lemma fold_dec : forall s a, fold_left (fun a c => 10 * a + (c - 48)) s a = dec_value a s.
Proof. induction s; intros; cbn [fold_left dec_value]; auto. Qed.

Lemma numeral_utoa : forall n, 0 <= n -> numeral (utoa n) n.
Proof.
  intros. repeat split.
  - apply utoa_nonnil.
  - apply utoa_Forall; auto.
  - rewrite fold_dec. apply utoa_value; auto.
Qed.

Lemma numeral_itoa : forall n, 0 <= n -> numeral (itoa n) n.
Proof. intros. rewrite itoa_nonneg by auto. apply numeral_utoa; auto. Qed.

Lemma numeral_pad : forall k s n, numeral s n -> numeral (repeat 48 k ++ s) n.
Proof.
  intros k s n (H1 & H2 & H3). repeat split.
  - destruct (repeat 48 k); destruct s; simpl; congruence.
  - apply Forall_app. split; auto. apply Forall_forall. intros c Hc. apply repeat_spec in Hc. lia.
  - rewrite fold_dec in *. rewrite dec_value_zeros. auto.
Qed.

Lemma formatXrefline_numeral : forall n, 0 <= n < 10 ^ 10 ->
  numeral (formatXrefline n) n /\ List.length (formatXrefline n) = 10%nat.
Proof.
  intros n H. unfold formatXrefline. split.
  - apply numeral_pad, numeral_itoa. lia.
  - rewrite itoa_nonneg by lia. rewrite app_length, repeat_length.
    pose proof (utoa_len n 10 ltac:(lia) H). lia.
Qed.

Lemma text_at_app : forall a s b off, off = blen a -> text_at (a ++ s ++ b) off s.
Proof.
  intros a s b off ->. split; [apply blen_nonneg|]. unfold blen. rewrite Nat2Z.id.
  rewrite skipn_app, skipn_all, Nat.sub_diag. cbn [skipn app].
  rewrite firstn_app, Nat.sub_diag, firstn_all. cbn [firstn]. apply app_nil_r.
Qed.

Lemma num65535 : numeral (B"65535") 65535.
Proof. split; [discriminate|]. split; [cbn; repeat (apply Forall_cons; [lia|]); apply Forall_nil | reflexivity]. Qed.
Lemma num00000 : numeral (B"00000") 0.
Proof. split; [discriminate|]. split; [cbn; repeat (apply Forall_cons; [lia|]); apply Forall_nil | reflexivity]. Qed.

Lemma row_text_len : forall ll m k, (forall j off, map_get ll j = Some off -> 0 <= off < 10 ^ 10) ->
  (Z.of_nat m < 10 ^ 10) -> (k <= m)%nat ->
  exists dn dg fl, row_text (row_spec ll m k) = dn ++ [32] ++ dg ++ [32; fl; 32; 10] /\
   List.length dn = 10%nat /\ List.length dg = 5%nat /\
   numeral dn (xr_off (row_spec ll m k)) /\
   (if is_free ll k then fl = 102 /\ numeral dg 65535 else fl = 110 /\ numeral dg 0).
Proof.
  intros ll m k Hoff Hm Hk. unfold row_text, row_spec.
  destruct (is_free ll k) eqn:F.
  - cbn [xr_off xr_gen xr_flag].
    assert (Hn : 0 <= next_free ll (seq (S k) (m - k)) < 10 ^ 10).
    { clear -Hm Hk. assert (forall js, (forall j, In j js -> (j <= m)%nat) -> 0 <= next_free ll js < 10 ^ 10).
      { induction js as [|j js IH]; intros Hj; cbn [next_free]; [lia|].
        destruct (map_get ll (Z.of_nat j)); [apply IH; intros; apply Hj; right; auto|].
        specialize (Hj j (or_introl eq_refl)). lia. }
      apply H. intros j Hj. apply in_seq in Hj. lia. }
    destruct (formatXrefline_numeral _ Hn) as [N L].
    exists (formatXrefline (next_free ll (seq (S k) (m - k)))), (B"65535"), 102.
    auto 10 using num65535.
  - unfold is_free in F. apply orb_false_iff in F. destruct F as [F0 F].
    destruct (map_get ll (Z.of_nat k)) as [off|] eqn:E; [|discriminate].
    cbn [xr_off xr_gen xr_flag]. apply Hoff in E.
    destruct (formatXrefline_numeral _ E) as [N L].
    exists (formatXrefline off), (B"00000"), 110.
    auto 10 using num00000.
Qed.

Lemma concat_len20 : forall (l : list bytes), Forall (fun r => List.length r = 20%nat) l ->
  List.length (concat l) = (20 * List.length l)%nat.
Proof. induction 1; cbn [concat List.length]; auto. rewrite app_length. lia. Qed.

(** ** The whole file *)
Section File.
Variables (objs : list obj) (lastID root : Z) (enc : option Z).
Hypothesis Hsize : 0 <= lastID.
Let F := write_file objs lastID root enc.
Hypothesis Hlen : blen F < 10 ^ 10.

Let body := pdf_header ++ concat (map obj_text objs).
Let ll := snd (write_objs objs pdf_header []).
Let m := Z.to_nat lastID.

Lemma F_eq : F = body ++ xref_head lastID ++ concat (map row_text (xref_rows ll lastID))
                 ++ trailer_text lastID root enc (blen body).
Proof.
  unfold F, write_file, ll. pose proof (write_objs_fst objs pdf_header []) as H.
  destruct (write_objs objs pdf_header []) as [b x] eqn:E. cbn [fst] in H. subst b.
  fold body. unfold xref_text. cbn [snd]. auto.
Qed.

Lemma ll_get : forall j off, map_get ll j = Some off ->
  exists pre o post, objs = pre ++ o :: post /\ oid o = j /\ Forall (fun o' => oid o' <> j) post /\
    off = blen (pdf_header ++ concat (map obj_text pre)).
Proof.
  intros j off H. pose proof (write_objs_get objs pdf_header [] j) as G. fold ll in G.
  rewrite H in G. destruct G as [G|[_ G]]; [auto|discriminate].
Qed.

Lemma ll_none : forall j, map_get ll j = None <-> ~ In j (map oid objs).
Proof.
  intros j. pose proof (write_objs_get objs pdf_header [] j) as G. fold ll in G.
  destruct (map_get ll j) as [off|] eqn:E.
  - split; [discriminate|]. intros Hn. exfalso. apply Hn.
    destruct (ll_get _ _ E) as (pre & o & post & Ho & <- & _).
    rewrite Ho, map_app. apply in_app_iff. right. left. auto.
  - destruct G as [G _]. split; auto. intros _ Hin. apply in_map_iff in Hin.
    destruct Hin as (o & <- & Ho). rewrite Forall_forall in G. apply G in Ho. congruence.
Qed.

Lemma body_le : blen body <= blen F.
Proof. rewrite F_eq, !blen_app. pose proof (blen_nonneg (xref_head lastID)).
  pose proof (blen_nonneg (concat (map row_text (xref_rows ll lastID)))).
  pose proof (blen_nonneg (trailer_text lastID root enc (blen body))). lia. Qed.

Lemma ll_range : forall j off, map_get ll j = Some off -> 0 <= off < 10 ^ 10.
Proof.
  intros j off H. destruct (ll_get _ _ H) as (pre & o & post & Ho & _ & _ & ->).
  split; [apply blen_nonneg|]. pose proof body_le as BL. unfold body in BL.
  rewrite Ho, map_app, concat_app, !blen_app in BL. rewrite blen_app.
  pose proof (blen_nonneg (concat (map obj_text (o :: post)))). lia.
Qed.

Lemma m_range : Z.of_nat m < 10 ^ 10.
Proof.
  assert (H : forall r, 1 <= blen (row_text r)).
  { intros r. unfold row_text. rewrite !blen_app. change (blen [32]) with 1.
    pose proof (blen_nonneg (formatXrefline (xr_off r))). pose proof (blen_nonneg (xr_gen r)).
    pose proof (blen_nonneg (xr_flag r)). pose proof (blen_nonneg [32; 10]). lia. }
  assert (G : forall l, Z.of_nat (List.length l) <= blen (concat (map row_text l))).
  { induction l as [|r l IH]; cbn [map concat List.length]; [reflexivity|].
    rewrite blen_app. specialize (H r). lia. }
  specialize (G (xref_rows ll lastID)). rewrite F_eq, !blen_app in Hlen.
  rewrite (xref_rows_spec ll lastID Hsize), map_length, seq_length in G. fold m in G.
  rewrite (xref_rows_spec ll lastID Hsize) in Hlen. fold m in Hlen.
  pose proof (blen_nonneg body). pose proof (blen_nonneg (xref_head lastID)).
  pose proof (blen_nonneg (trailer_text lastID root enc (blen body))). lia.
Qed.

Let base := blen body + blen (xref_head lastID).

Lemma startxref_thm : startxref_is F (blen body).
Proof.
  rewrite F_eq. unfold trailer_text.
  eexists (body ++ xref_head lastID ++ concat (map row_text (xref_rows ll lastID)) ++
    B"trailer" ++ [10] ++ B"<<" ++ [10] ++ B"/Size " ++ itoa (lastID + 1) ++ [10]
    ++ B"/Root " ++ itoa root ++ B" 0 R" ++ [10]
    ++ (match enc with
      | Some e => B"/Encrypt " ++ itoa e ++ B" 0 R" ++ [10] ++ B"/ID [()()]" ++ [10]
      | None => []
      end) ++ B">>" ++ [10]), (itoa (blen body)).
  split; [rewrite <- !app_assoc; reflexivity|].
  apply numeral_itoa, blen_nonneg.
Qed.

Lemma section_thm : xref_section F (blen body) (lastID + 1) base.
Proof.
  exists (itoa (lastID + 1)). split; [apply numeral_itoa; lia|]. split.
  - rewrite F_eq. apply text_at_app. auto.
  - reflexivity.
Qed.

Lemma row_pos : forall k, (k <= m)%nat ->
  text_at F (base + 20 * Z.of_nat k) (row_text (row_spec ll m k)).
Proof.
  intros k Hk. rewrite F_eq, (xref_rows_spec ll lastID Hsize). fold m.
  replace (seq 0 (S m)) with (seq 0 k ++ k :: seq (S k) (m - k)).
  2:{ replace (S m) with (k + S (m - k))%nat by lia. rewrite seq_app. reflexivity. }
  rewrite !map_app, concat_app. cbn [map concat].
  set (R := concat (map row_text (map (row_spec ll m) (seq 0 k)))).
  rewrite <- !app_assoc. rewrite (app_assoc (xref_head lastID)), (app_assoc body).
  apply text_at_app. rewrite !blen_app. unfold base.
  assert (blen R = 20 * Z.of_nat k).
  { unfold R, blen. rewrite concat_len20.
    - rewrite !map_length, seq_length. lia.
    - apply Forall_forall. intros r Hr. rewrite map_map in Hr. apply in_map_iff in Hr.
      destruct Hr as (i & <- & Hi). apply in_seq in Hi.
      destruct (row_text_len ll m i ll_range m_range ltac:(lia)) as (dn & dg & fl & -> & L1 & L2 & _).
      rewrite !app_length, L1, L2. reflexivity. }
  lia.
Qed.

Lemma row_thm : forall k, (k <= m)%nat ->
  row_at F base (Z.of_nat k) (xr_off (row_spec ll m k))
    (if is_free ll k then 65535 else 0) (if is_free ll k then 102 else 110).
Proof.
  intros k Hk. pose proof (row_pos k Hk) as P.
  destruct (row_text_len ll m k ll_range m_range Hk) as (dn & dg & fl & E & L1 & L2 & N & G).
  rewrite E in P. exists dn, dg. destruct (is_free ll k); destruct G as [-> G]; auto 10.
Qed.

(** In-use rows. *)
Lemma inuse_thm : forall pre o post, objs = pre ++ o :: post -> 1 <= oid o <= lastID ->
  Forall (fun o' => oid o' <> oid o) post ->
  exists off, row_at F base (oid o) off 0 110 /\ object_at F off (oid o) (trim_space (odata o)).
Proof.
  intros pre o post Hobjs Hid Hpost.
  assert (Hin : In (oid o) (map oid objs)).
  { rewrite Hobjs, map_app. apply in_app_iff. right. left. auto. }
  destruct (map_get ll (oid o)) as [off|] eqn:E.
  2:{ apply ll_none in E. tauto. }
  pose proof E as E2.
  apply ll_get in E2. destruct E2 as (pre' & o' & post' & Ho & Hid' & Hp' & Hoff).
  assert (pre' = pre /\ o' = o) as [-> ->].
  { rewrite Hobjs in Ho. clear -Ho Hid' Hp' Hpost.
    revert pre' Ho. induction pre as [|x pre IH]; intros [|y pre'] H; cbn [app] in H; inversion H; subst; auto.
    - exfalso. rewrite Forall_forall in Hpost. apply (Hpost o'); auto. apply in_app_iff. right; left; auto.
    - exfalso. rewrite Forall_forall in Hp'. apply (Hp' o); auto. apply in_app_iff. right; left; auto.
    - destruct (IH _ H2). subst; auto. }
  exists off. split.
  - pose proof (row_thm (Z.to_nat (oid o)) ltac:(unfold m; lia)) as R.
    rewrite Z2Nat.id in R by lia.
    assert (Hf : is_free ll (Z.to_nat (oid o)) = false).
    { unfold is_free. rewrite Z2Nat.id, E by lia. lia. }
    rewrite Hf in R. unfold row_spec in R. rewrite Hf, Z2Nat.id, E in R by lia. exact R.
  - exists (itoa (oid o)). split; [apply numeral_itoa; lia|].
    rewrite F_eq. unfold body. rewrite Hobjs, map_app, concat_app. cbn [map concat].
    rewrite <- !app_assoc. rewrite (app_assoc pdf_header).
    replace ([10] ++ itoa (oid o) ++ B " 0 obj" ++ [10] ++ trim_space (odata o) ++ [10] ++ B "endobj" ++ [10])
      with (obj_text o).
    + apply text_at_app. exact Hoff.
    + unfold obj_text, obj_header. rewrite <- !app_assoc. reflexivity.
Qed.

Lemma rows_len : blen (concat (map row_text (xref_rows ll lastID))) = 20 * (lastID + 1).
Proof.
  rewrite (xref_rows_spec ll lastID Hsize). unfold blen. rewrite concat_len20.
  - rewrite !map_length, seq_length. lia.
  - apply Forall_forall. intros r Hr. rewrite map_map in Hr. apply in_map_iff in Hr.
    destruct Hr as (i & <- & Hi). apply in_seq in Hi.
    destruct (row_text_len ll m i ll_range m_range ltac:(unfold m; lia)) as (dn & dg & fl & E & L1 & L2 & _).
    fold m. rewrite E, !app_length, L1, L2. reflexivity.
Qed.

Lemma trailer_pos : text_at F (base + 20 * (lastID + 1))
  (B"trailer" ++ [10] ++ B"<<" ++ [10] ++ B"/Size " ++ itoa (lastID + 1) ++ [10]
   ++ B"/Root " ++ itoa root ++ B" 0 R" ++ [10]).
Proof.
  rewrite F_eq. pose proof rows_len as RL.
  set (rows := concat (map row_text (xref_rows ll lastID))) in *.
  assert (T : exists t, trailer_text lastID root enc (blen body) =
    (B"trailer" ++ [10] ++ B"<<" ++ [10] ++ B"/Size " ++ itoa (lastID + 1) ++ [10]
     ++ B"/Root " ++ itoa root ++ B" 0 R" ++ [10]) ++ t).
  { unfold trailer_text. eexists. rewrite <- !app_assoc. reflexivity. }
  destruct T as [t ->].
  rewrite (app_assoc (xref_head lastID)), (app_assoc body).
  apply text_at_app. rewrite !blen_app, RL. unfold base. lia.
Qed.

(** Free chain. *)
Definition unused (lo n : nat) : list Z :=
  filter (fun j => match map_get ll j with Some _ => false | None => true end) (map Z.of_nat (seq lo n)).

Lemma next_free_unused : forall n lo, (1 <= lo)%nat ->
  match unused lo n with
  | [] => next_free ll (seq lo n) = 0
  | k :: _ => next_free ll (seq lo n) = k
  end.
Proof.
  induction n; intros lo Hlo; [reflexivity|].
  unfold unused. cbn [seq map filter next_free]. destruct (map_get ll (Z.of_nat lo)); auto.
  apply (IHn (S lo)). lia.
Qed.

Lemma unused_split : forall n lo k l, unused lo n = k :: l ->
  exists j, k = Z.of_nat j /\ (lo <= j < lo + n)%nat /\ map_get ll k = None /\ l = unused (S j) (lo + n - S j).
Proof.
  induction n; intros lo k l H; [discriminate|].
  unfold unused in H. cbn [seq map filter] in H. destruct (map_get ll (Z.of_nat lo)) eqn:E.
  - destruct (IHn (S lo) k l H) as (j & -> & Hj & Hn & ->). exists j. repeat split; auto; try lia.
    f_equal. lia.
  - inversion H. exists lo. repeat split; auto; try lia. unfold unused. do 3 f_equal. lia.
Qed.

Lemma chain_thm : forall l k, (k <= m)%nat -> is_free ll k = true -> unused (S k) (m - k) = l ->
  free_chain F base (Z.of_nat k) l.
Proof.
  induction l as [|x l IH]; intros k Hk Hf Hu.
  - pose proof (row_thm k Hk) as R. rewrite Hf in R.
    pose proof (next_free_unused (m - k) (S k) ltac:(lia)) as N. rewrite Hu in N.
    unfold row_spec in R. rewrite Hf in R. cbn [xr_off] in R. rewrite N in R. econstructor; eauto.
  - pose proof (row_thm k Hk) as R. rewrite Hf in R.
    pose proof (next_free_unused (m - k) (S k) ltac:(lia)) as N. rewrite Hu in N.
    unfold row_spec in R. rewrite Hf in R. cbn [xr_off] in R. rewrite N in R.
    destruct (unused_split _ _ _ _ Hu) as (j & -> & Hj & Hn & ->).
    apply fc_step with (g := 65535); [exact R | lia |].
    apply IH; [lia| |].
    + unfold is_free. rewrite Hn. lia.
    + f_equal. lia.
Qed.

Lemma free_thm : free_chain F base 0
  (filter (fun j => negb (existsb (Z.eqb j) (map oid objs))) (map Z.of_nat (seq 1 m))).
Proof.
  apply (chain_thm _ 0%nat); [lia|reflexivity|].
  unfold unused. rewrite Nat.sub_0_r. apply filter_ext. intros j.
  pose proof (ll_none j) as N. destruct (map_get ll j).
  - destruct (existsb (Z.eqb j) (map oid objs)) eqn:E; auto.
    exfalso. assert (~ In j (map oid objs)).
    { intros Hin. assert (existsb (Z.eqb j) (map oid objs) = true); [|congruence].
      apply existsb_exists. exists j. split; auto. lia. }
    apply N in H. discriminate.
  - destruct (existsb (Z.eqb j) (map oid objs)) eqn:E; auto.
    apply existsb_exists in E. destruct E as (x & Hx & Heq). apply Z.eqb_eq in Heq. subst.
    destruct N as [N _]. exfalso. apply N; auto.
Qed.

End File.

(** ** Statements over toStream *)

(** The objects that end up in the file. *)
Definition saved (objs : list obj) (lastID : Z) (enObj : option bytes) : list obj :=
  match enObj with None => objs | Some d => objs ++ [mkObj (lastID + 1) d] end.
Definition saved_last (lastID : Z) (enObj : option bytes) : Z :=
  match enObj with None => lastID | Some _ => lastID + 1 end.
Definition saved_enc (lastID : Z) (enObj : option bytes) : option Z :=
  match enObj with None => None | Some _ => Some (lastID + 1) end.

Lemma toStream_write : forall objs lastID root enObj,
  toStream objs lastID root enObj =
  write_file (saved objs lastID enObj) (saved_last lastID enObj) root (saved_enc lastID enObj).
Proof. intros. destruct enObj; reflexivity. Qed.

Lemma saved_last_nonneg : forall lastID enObj, 0 <= lastID -> 0 <= saved_last lastID enObj.
Proof. intros. destruct enObj; simpl; lia. Qed.

Lemma xref_offsets : forall objs lastID root enObj,
  let F := toStream objs lastID root enObj in
  0 <= lastID -> blen F < 10 ^ 10 ->
  exists xoff N base,
    startxref_is F xoff /\ xref_section F xoff N base /\
    forall pre o post, saved objs lastID enObj = pre ++ o :: post ->
      1 <= oid o < N -> Forall (fun o' => oid o' <> oid o) post ->
      exists off, row_at F base (oid o) off 0 110 /\ object_at F off (oid o) (trim_space (odata o)).
Proof.
  intros objs lastID root enObj F H0 HF. unfold F in *. rewrite toStream_write in *.
  pose proof (saved_last_nonneg lastID enObj H0) as HS.
  do 3 eexists. split; [apply startxref_thm|]. split; [apply section_thm; auto|].
  intros pre o post Ho Hid Hp. eapply inuse_thm; eauto. lia.
Qed.

Lemma xref_shape : forall objs lastID root enObj,
  let F := toStream objs lastID root enObj in
  0 <= lastID -> blen F < 10 ^ 10 -> 0 <= root ->
  (forall o, In o objs -> oid o <= lastID) ->
  exists xoff N base,
    startxref_is F xoff /\ xref_section F xoff N base /\
    (forall o, In o (saved objs lastID enObj) -> oid o < N) /\
    (forall j, 0 <= j < N -> exists n g, row_at F base j n g 110 \/ row_at F base j n g 102) /\
    (exists dn dr, numeral dn N /\ numeral dr root /\
       text_at F (base + 20 * N) (B"trailer" ++ [10] ++ B"<<" ++ [10] ++ B"/Size " ++ dn ++ [10]
                                  ++ B"/Root " ++ dr ++ B" 0 R" ++ [10])).
Proof.
  intros objs lastID root enObj F H0 HF Hr Hids. unfold F in *. rewrite toStream_write in *.
  pose proof (saved_last_nonneg lastID enObj H0) as HS.
  exists (blen (pdf_header ++ concat (map obj_text (saved objs lastID enObj)))), (saved_last lastID enObj + 1).
  eexists. split; [apply startxref_thm|]. split; [apply section_thm; auto|]. split; [|split].
  - intros o Ho. destruct enObj; simpl in *.
    + apply in_app_iff in Ho. destruct Ho as [Ho|[<-|[]]]; [apply Hids in Ho; lia | simpl; lia].
    + apply Hids in Ho. lia.
  - intros j Hj.
    pose proof (row_thm (saved objs lastID enObj) (saved_last lastID enObj) root (saved_enc lastID enObj) HS HF
                  (Z.to_nat j) ltac:(lia)) as R.
    rewrite Z2Nat.id in R by lia. revert R.
    destruct (is_free _ (Z.to_nat j)); intros R; do 2 eexists; [right|left]; exact R.
  - exists (itoa (saved_last lastID enObj + 1)), (itoa root).
    split; [apply numeral_itoa; lia|]. split; [apply numeral_itoa; auto|].
    apply trailer_pos; auto.
Qed.

Lemma xref_free : forall objs lastID root enObj,
  let F := toStream objs lastID root enObj in
  0 <= lastID -> blen F < 10 ^ 10 ->
  exists xoff N base l,
    startxref_is F xoff /\ xref_section F xoff N base /\
    free_chain F base 0 l /\ increasing 0 l /\
    (forall j, In j l <-> 1 <= j < N /\ ~ In j (map oid (saved objs lastID enObj))).
Proof.
  intros objs lastID root enObj F H0 HF. unfold F in *. rewrite toStream_write in *.
  pose proof (saved_last_nonneg lastID enObj H0) as HS.
  do 4 eexists. split; [apply startxref_thm|]. split; [apply section_thm; auto|].
  split; [apply free_thm; auto|]. split.
  - assert (G : forall n lo a f, a < Z.of_nat lo -> increasing a (filter f (map Z.of_nat (seq lo n)))).
    { induction n; intros lo a f Ha; cbn [seq map filter]; [constructor|].
      destruct (f (Z.of_nat lo)).
      - constructor; auto. apply IHn. lia.
      - apply IHn. lia. }
    apply G. lia.
  - intros j. rewrite filter_In, in_map_iff. split.
    + intros [(x & <- & Hx) Hn]. apply in_seq in Hx. split; [lia|].
      intros Hin. rewrite negb_true_iff in Hn.
      assert (existsb (Z.eqb (Z.of_nat x)) (map oid (saved objs lastID enObj)) = true); [|congruence].
      apply existsb_exists. exists (Z.of_nat x). split; auto. apply Z.eqb_refl.
    + intros [Hj Hn]. split.
      * exists (Z.to_nat j). split; [lia|]. apply in_seq. lia.
      * rewrite negb_true_iff. destruct (existsb _ _) eqn:E; auto. exfalso.
        apply existsb_exists in E. destruct E as (x & Hx & He). apply Z.eqb_eq in He. subst. auto.
Qed.
