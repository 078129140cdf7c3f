(** C05 from the pieces; reading an object is not changed by writing it. *)
From Coq Require Import String List ZArith Lia Bool.
From Coq.Floats Require Import SpecFloat.
From Verif Require Import Base BaseProofs Output OutputSpec OutputProofs Props PropsSpec PdfData Float64 Parse ParseFind ParseFile ParseTrailer ParseProofs ParseSpec.
Open Scope Z_scope.
Open Scope list_scope.

Lemma free_no_occ : forall p s, free_of p s -> no_occ p s.
Proof. intros p s H n (a & b & E & _). exact (H a b E). Qed.

Lemma latest_current : forall os o, latest os o <-> current os (oid o) = Some o.
Proof.
  intros os o. rewrite current_split. split.
  - intros (pre & post & E & N). exists pre, post. repeat split; auto. apply Forall_forall. intros o' Ho' Ei. apply N.
    apply in_map_iff. eauto.
  - intros (pre & post & E & _ & F). exists pre, post. split; auto. intros Hin. apply in_map_iff in Hin. destruct Hin as (o' & Ei & Ho').
    rewrite Forall_forall in F. exact (F o' Ho' Ei).
Qed.

Lemma listing_in : forall os last o', 0 <= last -> (In o' (listing os last) <->
  exists o, latest os o /\ 1 <= oid o <= last /\ o' = stored o).
Proof.
  intros os last o' Hl. unfold listing. rewrite in_flat_map. split.
  - intros (k & Hk & Ho). apply in_seq in Hk. destruct (current os (Z.of_nat k)) as [o|] eqn:E; [|destruct Ho].
    destruct Ho as [<-|[]]. assert (oid o = Z.of_nat k) by (apply current_split in E; destruct E as (? & ? & _ & ? & _); auto).
    exists o. repeat split; try lia. apply latest_current. congruence.
  - intros (o & Ho & Hr & ->). exists (Z.to_nat (oid o)). split; [apply in_seq; lia|]. rewrite Z2Nat.id by lia.
    apply latest_current in Ho. rewrite Ho. left; reflexivity.
Qed.

Lemma listing_sorted : forall os last, increasing 0 (map oid (listing os last)).
Proof.
  intros os last. unfold listing.
  assert (G : forall n lo a, a < Z.of_nat lo ->
    increasing a (map oid (flat_map (fun k => match current os (Z.of_nat k) with Some o => [reread o] | None => [] end) (seq lo n)))).
  { induction n as [|n IH]; intros lo a Ha; cbn [seq flat_map map]; [constructor|]. rewrite map_app.
    destruct (current os (Z.of_nat lo)) as [o|] eqn:E.
    - cbn [map app]. assert (oid o = Z.of_nat lo) by (apply current_split in E; destruct E as (? & ? & _ & ? & _); auto).
      constructor; [cbn [oid reread]; lia|]. cbn [oid reread]. apply IH. lia.
    - cbn [map app]. apply IH. lia. }
  apply G. lia.
Qed.

Definition nodoc : doc := mkDoc (mkPdf 0 []) [] [].

Lemma plain_kw : forall os, Forall plain_object os ->
  Forall (kw_free (B"xref")) os /\ Forall (kw_free (B"trailer")) os /\ Forall (kw_free (B"endobj")) os.
Proof.
  intros os H. repeat split; (eapply Forall_impl; [|exact H]; intros o (H1 & H2 & H3); apply free_no_occ; auto).
Qed.

(** The document after reading, as far as the objects. *)
Lemma reopen_doc : forall float fuel os last rt en, 0 <= last -> 0 <= rt < 2 ^ 63 ->
  blen (toStream os last rt en) < 10 ^ 10 -> Forall plain_object (saved os last en) ->
  exists xs, PDFParse float fuel (toStream os last rt en) nodoc =
    let p := mkPdf rt (listing (saved os last en) (saved_last last en)) in
    match setPagesObj p with
    | Ok _ => match getPageObjIDs fuel p with
              | Ok ids => let '(s, r3) := page_sizes float (objs p) 0 ids [] in (mkDoc p xs s, r3)
              | Err e => (mkDoc p xs [], Err e)
              | Panic => (mkDoc p xs [], Panic)
              | Diverge => (mkDoc p xs [], Diverge)
              end
    | Err e => (mkDoc p xs [], Err e)
    | Panic => (mkDoc p xs [], Panic)
    | Diverge => (mkDoc p xs [], Diverge)
    end.
Proof.
  intros float fuel os last rt en Hl Hr HF HP. destruct (plain_kw _ HP) as (Kx & Kt & Ke).
  rewrite toStream_write in *.
  assert (HL : 0 <= saved_last last en) by (apply saved_last_nonneg; auto).
  assert (HR : 0 <= rt <= int64_max) by (unfold int64_max; lia).
  assert (HE : match saved_enc last en with Some e => 0 <= e | None => True end) by (destruct en; cbn; [lia|exact I]).
  unfold PDFParse. cbn [d_xrefs nodoc d_pdf d_sizes objs].
  rewrite (parseXref_file _ _ _ _ HL HR HE HF Kx).
  rewrite (parseTrailer_file _ _ _ _ HL HR HE HF Kx Kt).
  eexists. 
  rewrite (parseObjs_file _ _ _ _ HL HF Ke) by reflexivity. cbn [root]. cbv zeta. reflexivity.
Qed.

Lemma reopen_objs : forall float fuel os last rt en d r, 0 <= last -> 0 <= rt < 2 ^ 63 ->
  blen (toStream os last rt en) < 10 ^ 10 -> Forall plain_object (saved os last en) ->
  PDFParse float fuel (toStream os last rt en) nodoc = (d, r) ->
  d_pdf d = mkPdf rt (listing (saved os last en) (saved_last last en)).
Proof.
  intros float fuel os last rt en d r Hl Hr HF HP H.
  destruct (reopen_doc float fuel os last rt en Hl Hr HF HP) as [xs E]. rewrite E in H. clear E. cbv zeta in H.
  set (p := mkPdf rt (listing (saved os last en) (saved_last last en))) in *.
  destruct (setPagesObj p); try (injection H as <- _; reflexivity).
  destruct (getPageObjIDs fuel p) as [ids| | |]; try (injection H as <- _; reflexivity).
  destruct (page_sizes float (objs p) 0 ids []) as [s r3]. injection H as <- _. reflexivity.
Qed.

Lemma reopen : forall float fuel os last rt en d r, 0 <= last -> 0 <= rt < 2 ^ 63 ->
  blen (toStream os last rt en) < 10 ^ 10 -> Forall plain_object (saved os last en) ->
  PDFParse float fuel (toStream os last rt en) nodoc = (d, r) ->
  root (d_pdf d) = rt /\ increasing 0 (map oid (objs (d_pdf d))) /\
  forall o', In o' (objs (d_pdf d)) <-> exists o, latest (saved os last en) o /\ 1 <= oid o <= saved_last last en /\ o' = stored o.
Proof.
  intros float fuel os last rt en d r Hl Hr HF HP H. rewrite (reopen_objs float fuel os last rt en d r Hl Hr HF HP H).
  split; [reflexivity|]. split; [apply listing_sorted|]. intros o'. apply listing_in. apply saved_last_nonneg; auto.
Qed.

(** ** Objects in order *)
Lemma increasing_lt : forall l a, increasing a l -> forall x, In x l -> a < x.
Proof. induction 1 as [|a b l Hab H IH]; intros x Hx; [destruct Hx|]. destruct Hx as [<-|Hx]; auto. specialize (IH _ Hx). lia. Qed.

Lemma increasing_unique : forall l l' a, increasing a l -> increasing a l' -> (forall x, In x l <-> In x l') -> l = l'.
Proof.
  induction l as [|x l IH]; intros l' a H H' E.
  - destruct l' as [|y l']; auto. destruct (proj2 (E y) (or_introl eq_refl)).
  - destruct l' as [|y l']; [destruct (proj1 (E x) (or_introl eq_refl))|].
    inversion H as [|? ? ? Hax Hl]; inversion H' as [|? ? ? Hay Hl']; subst.
    assert (x = y).
    { destruct (proj1 (E x) (or_introl eq_refl)) as [|Hx]; auto. destruct (proj2 (E y) (or_introl eq_refl)) as [|Hy]; auto.
      apply (increasing_lt _ _ Hl') in Hx. apply (increasing_lt _ _ Hl) in Hy. lia. }
    subst y. f_equal. apply (IH l' x); auto. intros z. split; intros Hz.
    + destruct (proj1 (E z) (or_intror Hz)) as [<-|]; auto. apply (increasing_lt _ _ Hl) in Hz. lia.
    + destruct (proj2 (E z) (or_intror Hz)) as [<-|]; auto. apply (increasing_lt _ _ Hl') in Hz. lia.
Qed.

Lemma increasing_nodup : forall l a, increasing a l -> NoDup l.
Proof.
  induction 1 as [|a b l Hab H IH]; constructor; auto. intros Hin. apply (increasing_lt _ _ H) in Hin. lia.
Qed.

(** Two lists of objects with increasing numbers and the same members. *)
Lemma objs_unique : forall l l' a, increasing a (map oid l) -> increasing a (map oid l') -> (forall x, In x l <-> In x l') -> l = l'.
Proof.
  induction l as [|x l IH]; intros l' a H H' E.
  - destruct l' as [|y l']; auto. destruct (proj2 (E y) (or_introl eq_refl)).
  - destruct l' as [|y l']; [destruct (proj1 (E x) (or_introl eq_refl))|].
    cbn [map] in H, H'. inversion H as [|? ? ? Hax Hl]; inversion H' as [|? ? ? Hay Hl']; subst.
    assert (x = y).
    { destruct (proj1 (E x) (or_introl eq_refl)) as [|Hx]; auto. destruct (proj2 (E y) (or_introl eq_refl)) as [|Hy]; auto.
      apply (in_map oid) in Hx. apply (increasing_lt _ _ Hl') in Hx. apply (in_map oid) in Hy. apply (increasing_lt _ _ Hl) in Hy. lia. }
    subst y. f_equal. apply (IH l' (oid x)); auto. intros z. split; intros Hz.
    + destruct (proj1 (E z) (or_intror Hz)) as [<-|]; auto. apply (in_map oid) in Hz. apply (increasing_lt _ _ Hl) in Hz. lia.
    + destruct (proj2 (E z) (or_intror Hz)) as [<-|]; auto. apply (in_map oid) in Hz. apply (increasing_lt _ _ Hl') in Hz. lia.
Qed.

Lemma nodup_latest : forall os o, NoDup (map oid os) -> In o os -> latest os o.
Proof.
  intros os o N Ho. apply in_split in Ho. destruct Ho as (pre & post & ->). exists pre, post. split; auto.
  rewrite map_app in N. cbn [map] in N. apply NoDup_remove_2 in N. intros Hin. apply N. apply in_app_iff. auto.
Qed.

Lemma latest_in : forall os o, latest os o -> In o os.
Proof. intros os o (pre & post & -> & _). apply in_app_iff. right; left; auto. Qed.

Lemma listing_in_order : forall os last, 0 <= last -> increasing 0 (map oid os) -> (forall o, In o os -> oid o <= last) ->
  listing os last = map stored os.
Proof.
  intros os last Hl Hi Hm. apply (objs_unique _ _ 0).
  - apply listing_sorted.
  - rewrite map_map. cbn [stored oid]. exact Hi.
  - intros x. rewrite listing_in by auto. rewrite in_map_iff. split.
    + intros (o & Ho & _ & ->). exists o. split; auto. now apply latest_in.
    + intros (o & <- & Ho). exists o. split; [apply nodup_latest; auto; eapply increasing_nodup; eauto|].
      split; auto. split; [|auto]. apply (in_map oid) in Ho. apply (increasing_lt _ _ Hi) in Ho. lia.
Qed.

Lemma stored_trim : forall o, trim_space (odata (stored o)) = trim_space (odata o).
Proof. intros o. cbn [stored odata]. apply trim_space_pad; auto. apply trim_space_trimmed. Qed.

Lemma stored_text : forall o, obj_text (stored o) = obj_text o.
Proof. intros o. unfold obj_text. rewrite stored_trim. reflexivity. Qed.

Lemma write_stored : forall os buff xs, write_objs (map stored os) buff xs = write_objs os buff xs.
Proof. induction os as [|o os IH]; intros; [reflexivity|]. cbn [map write_objs]. rewrite stored_text. apply IH. Qed.

Lemma save_stored : forall os last rt, toStream (map stored os) last rt None = toStream os last rt None.
Proof. intros. unfold toStream, write_file. now rewrite write_stored. Qed.

Lemma reopen_in_order : forall float fuel os last rt d r, 0 <= last -> 0 <= rt < 2 ^ 63 ->
  blen (toStream os last rt None) < 10 ^ 10 -> Forall plain_object os ->
  increasing 0 (map oid os) -> (forall o, In o os -> oid o <= last) ->
  PDFParse float fuel (toStream os last rt None) nodoc = (d, r) ->
  objs (d_pdf d) = map stored os /\ toStream (objs (d_pdf d)) last (root (d_pdf d)) None = toStream os last rt None.
Proof.
  intros float fuel os last rt d r Hl Hr HF HP Hi Hm H. rewrite (reopen_objs float fuel os last rt None d r Hl Hr HF HP H).
  cbn [objs root saved saved_last]. rewrite listing_in_order by auto. split; auto. apply save_stored.
Qed.

(** ** Reading an object after writing it *)
Definition outer (c : Z) : Prop := c <= 32 \/ 128 <= c.

Lemma space_len_outer : forall s, Forall outer (firstn (space_len s) s).
Proof.
  intros [|c [|d [|e s]]]; cbn [space_len]; try constructor.
  - destruct (is_space1 c) eqn:E; constructor; [|constructor]. unfold is_space1, outer in *. lia.
  - destruct (is_space1 c) eqn:E; [constructor; [|constructor]; unfold is_space1, outer in *; lia|].
    destruct (is_space2 c d) eqn:E2; [|constructor]. unfold is_space2 in E2.
    constructor; [unfold outer; lia|]. constructor; [unfold outer; lia|constructor].
  - destruct (is_space1 c) eqn:E; [constructor; [|constructor]; unfold is_space1, outer in *; lia|].
    destruct (is_space2 c d) eqn:E2.
    + unfold is_space2 in E2. constructor; [unfold outer; lia|]. constructor; [unfold outer; lia|constructor].
    + destruct (is_space3 c d e) eqn:E3; [|constructor]. unfold is_space3 in E3.
      constructor; [unfold outer; lia|]. constructor; [unfold outer; lia|]. constructor; [unfold outer; lia|constructor].
Qed.

Lemma rspace_len_outer : forall s, Forall outer (firstn (rspace_len s) s).
Proof.
  intros [|c [|d [|e s]]]; cbn [rspace_len]; try constructor.
  - destruct (is_space1 c) eqn:E; constructor; [|constructor]. unfold is_space1, outer in *. lia.
  - destruct (is_space1 c) eqn:E; [constructor; [|constructor]; unfold is_space1, outer in *; lia|].
    destruct (is_space2 d c) eqn:E2; [|constructor]. unfold is_space2 in E2.
    constructor; [unfold outer; lia|]. constructor; [unfold outer; lia|constructor].
  - destruct (is_space1 c) eqn:E; [constructor; [|constructor]; unfold is_space1, outer in *; lia|].
    destruct (is_space2 d c) eqn:E2.
    + unfold is_space2 in E2. constructor; [unfold outer; lia|]. constructor; [unfold outer; lia|constructor].
    + destruct (is_space3 e d c) eqn:E3; [|constructor]. unfold is_space3 in E3.
      constructor; [unfold outer; lia|]. constructor; [unfold outer; lia|]. constructor; [unfold outer; lia|constructor].
Qed.

Lemma drop_outer : forall len, (forall s, Forall outer (firstn (len s) s)) -> forall f s, exists a, s = a ++ drop_runs len f s /\ Forall outer a.
Proof.
  intros len HL. induction f as [|f IH]; intros s; cbn [drop_runs]; [exists []; auto|].
  destruct (len s) as [|k] eqn:E; [exists []; auto|]. destruct (IH (skipn (S k) s)) as (a & Ea & Ha).
  exists (firstn (S k) s ++ a). split.
  - rewrite <- app_assoc, <- Ea. symmetry. apply firstn_skipn.
  - apply Forall_app. split; auto. rewrite <- E. apply HL.
Qed.

Lemma trim_outer : forall s, exists a b, s = a ++ trim_space s ++ b /\ Forall outer a /\ Forall outer b.
Proof.
  intros s. unfold trim_space. destruct (drop_outer space_len space_len_outer (List.length s) s) as (a & Ea & Ha).
  fold (trim_left_space s) in Ea. set (t := trim_left_space s) in *. clearbody t.
  destruct (drop_outer rspace_len rspace_len_outer (List.length t) (rev t)) as (b & Eb & Hb).
  exists a, (rev b). repeat split; auto.
  - rewrite Ea at 1. f_equal. unfold trim_right_space. rewrite <- rev_app_distr, <- Eb, rev_involutive. auto.
  - apply Forall_rev. auto.
Qed.

Lemma occ_inside : forall p a t b n, p <> [] -> Forall (fun c => 33 <= c < 128) p -> Forall outer a -> Forall outer b ->
  (occ p (a ++ t ++ b) n <-> exists m, n = (List.length a + m)%nat /\ occ p t m).
Proof.
  intros p a t b n Hp HP Ha Hb. split.
  - intros (u & v & E & L).
    assert (D : forall i c, nth_error (a ++ t ++ b) i = Some c -> 33 <= c < 128 -> (List.length a <= i < List.length a + List.length t)%nat).
    { intros i c Hi Hc. destruct (Nat.lt_ge_cases i (List.length a)) as [L1|L1].
      - rewrite nth_error_app1 in Hi by lia. apply nth_error_In in Hi. rewrite Forall_forall in Ha. apply Ha in Hi. unfold outer in Hi. lia.
      - split; auto. destruct (Nat.lt_ge_cases i (List.length a + List.length t)) as [L2|L2]; auto.
        rewrite nth_error_app2 in Hi by lia. rewrite nth_error_app2 in Hi by lia. apply nth_error_In in Hi. rewrite Forall_forall in Hb. apply Hb in Hi. unfold outer in Hi. lia. }
    assert (P : forall k, (k < List.length p)%nat -> (List.length a <= List.length u + k < List.length a + List.length t)%nat).
    { intros k Hk. destruct (nth_error p k) as [c|] eqn:Ec; [|apply nth_error_None in Ec; lia].
      apply (D _ c).
      - rewrite E, nth_error_app2 by lia. replace (List.length u + k - List.length u)%nat with k by lia. rewrite nth_error_app1; auto.
      - rewrite Forall_forall in HP. apply HP. eapply nth_error_In; eauto. }
    destruct p as [|x p]; [congruence|]. cbn [List.length] in P.
    pose proof (P O ltac:(lia)) as P0. pose proof (P (List.length p) ltac:(lia)) as P1.
    exists (List.length u - List.length a)%nat. split; [lia|].
    apply occ_nth. split; [|lia].
    assert (Q : occ (x :: p) (a ++ t ++ b) (List.length u)) by (exists u, v; auto).
    apply occ_nth in Q. destruct Q as [Q _].
    rewrite skipn_app in Q. rewrite skipn_all2 in Q by lia. cbn [app] in Q.
    rewrite skipn_app in Q. rewrite firstn_app in Q. rewrite skipn_length in Q.
    replace (List.length (x :: p) - (List.length t - (List.length u - List.length a)))%nat with O in Q by (cbn [List.length]; lia).
    change (firstn 0 ?z) with (@nil Z) in Q. rewrite app_nil_r in Q. exact Q.
  - intros (m & -> & O). apply occ_skip. apply occ_app_l. exact O.
Qed.

Lemma index_inside : forall p a t b, p <> [] -> Forall (fun c => 33 <= c < 128) p -> Forall outer a -> Forall outer b ->
  index p (a ++ t ++ b) = option_map (fun n => (List.length a + n)%nat) (index p t).
Proof.
  intros p a t b Hp HP Ha Hb. destruct (index p t) as [n|] eqn:E; cbn [option_map].
  - apply index_some in E. destruct E as [E1 E2]. apply index_intro.
    + apply occ_inside; auto. eauto.
    + intros m Hm O. apply occ_inside in O; auto. destruct O as (k & -> & O). apply (E2 k); [lia|auto].
  - apply index_none. intros m O. apply occ_inside in O; auto. destruct O as (k & -> & O).
    pose proof (proj1 (index_none p t) E k). auto.
Qed.

Lemma last_index_inside : forall p a t b, p <> [] -> Forall (fun c => 33 <= c < 128) p -> Forall outer a -> Forall outer b ->
  last_index p (a ++ t ++ b) = option_map (fun n => (List.length a + n)%nat) (last_index p t).
Proof.
  intros p a t b Hp HP Ha Hb. pose proof (last_index_spec p t) as S. destruct (last_index p t) as [n|] eqn:E; cbn [option_map].
  - destruct S as [E1 E2]. apply last_index_intro.
    + apply occ_inside; auto. eauto.
    + intros m Hm O. apply occ_inside in O; auto. destruct O as (k & -> & O). apply (E2 k); [lia|auto].
  - pose proof (last_index_spec p (a ++ t ++ b)) as S2. destruct (last_index p (a ++ t ++ b)) as [n|]; auto.
    destruct S2 as [O _]. apply occ_inside in O; auto. destruct O as (k & -> & O). destruct (S k O).
Qed.

Lemma slice_inside : forall a t b i j, 0 <= i <= j -> j <= blen t -> slice (a ++ t ++ b) (blen a + i) (blen a + j) = slice t i j.
Proof.
  intros a t b i j Hi Hj. pose proof (blen_nonneg a) as N. unfold slice. rewrite !blen_app. pose proof (blen_nonneg b).
  replace ((0 <=? blen a + i) && (blen a + i <=? blen a + j) && (blen a + j <=? blen a + (blen t + blen b))) with true by lia.
  replace ((0 <=? i) && (i <=? j) && (j <=? blen t)) with true by lia. f_equal.
  replace (blen a + j - (blen a + i)) with (j - i) by lia.
  unfold blen in *. rewrite skipn_app. rewrite skipn_all2 by lia. cbn [app].
  replace (Z.to_nat (Z.of_nat (List.length a) + i) - List.length a)%nat with (Z.to_nat i) by lia.
  rewrite skipn_app, firstn_app, skipn_length.
  replace (Z.to_nat (j - i) - (List.length t - Z.to_nat i))%nat with O by lia.
  change (firstn 0 ?z) with (@nil Z). apply app_nil_r.
Qed.

Lemma read_inside : forall a t b, Forall outer a -> Forall outer b -> readProperties (a ++ t ++ b) = readProperties t.
Proof.
  intros a t b Ha Hb. unfold readProperties.
  assert (PS : Forall (fun c => 33 <= c < 128) stream_kw) by (apply Forall_forall; intros c Hc; cbn in Hc; repeat destruct Hc as [<-|Hc]; try destruct Hc; lia).
  assert (PL : Forall (fun c => 33 <= c < 128) (B"<<")) by (apply Forall_forall; intros c Hc; cbn in Hc; repeat destruct Hc as [<-|Hc]; try destruct Hc; lia).
  assert (PG : Forall (fun c => 33 <= c < 128) (B">>")) by (apply Forall_forall; intros c Hc; cbn in Hc; repeat destruct Hc as [<-|Hc]; try destruct Hc; lia).
  rewrite index_inside by (auto; discriminate).
  set (t0 := match index stream_kw t with Some n => firstn n t | None => t end).
  assert (T0 : exists b', Forall outer b' /\ match option_map (fun n => (List.length a + n)%nat) (index stream_kw t) with
             | Some n => firstn n (a ++ t ++ b) | None => a ++ t ++ b end = a ++ t0 ++ b').
  { unfold t0. destruct (index stream_kw t) as [n|] eqn:E; cbn [option_map].
    - exists []. split; [constructor|]. apply index_some in E. destruct E as [E _]. apply occ_len in E.
      rewrite firstn_app, firstn_all2 by lia. f_equal. replace (List.length a + n - List.length a)%nat with n by lia.
      rewrite firstn_app. replace (n - List.length t)%nat with O by lia. reflexivity.
    - exists b. auto. }
  destruct T0 as (b' & Hb' & T0). rewrite T0.
  rewrite index_inside, last_index_inside by (auto; discriminate).
  assert (L0 : (List.length t0 <= List.length t)%nat).
  { unfold t0. destruct (index stream_kw t); auto. rewrite firstn_length. lia. }
  destruct (index (B"<<") t0) as [s|] eqn:Es; cbn [option_map]; [|reflexivity].
  destruct (last_index (B">>") t0) as [e|] eqn:Ee; cbn [option_map]; [|reflexivity].
  destruct (Nat.ltb_spec e s) as [L|L]; destruct (Nat.ltb_spec (List.length a + e) (List.length a + s)) as [L'|L']; try lia; [reflexivity|].
  apply last_index_some in Ee. pose proof (occ_len _ _ _ Ee) as Le. change (List.length (B">>")) with 2%nat in Le.
  apply index_some in Es. destruct Es as [Es _].
  assert (e <> s /\ e <> S s) as [Ne1 Ne2].
  { split; intros ->; apply occ_nth in Ee; apply occ_nth in Es; destruct Ee as [Ee _], Es as [Es _].
    - change (List.length (B">>")) with (List.length (B"<<")) in Ee. rewrite Es in Ee. discriminate.
    - change (List.length (B"<<")) with 2%nat in Es. change (List.length (B">>")) with 2%nat in Ee.
      destruct (skipn s t0) as [|x [|y w]] eqn:K; try discriminate Es. cbn [firstn] in Es. injection Es as -> ->.
      assert (K2 : skipn (S s) t0 = 60 :: w).
      { replace (S s) with (s + 1)%nat by lia. rewrite <- skipn_add, K. reflexivity. }
      rewrite K2 in Ee. destruct w; discriminate Ee. }
  replace (Z.of_nat (List.length a + s) + 2) with (blen a + (Z.of_nat s + 2)) by (unfold blen; lia).
  replace (Z.of_nat (List.length a + e)) with (blen a + Z.of_nat e) by (unfold blen; lia).
  rewrite slice_inside by (unfold blen; lia). reflexivity.
Qed.

Lemma read_stored : forall o, readProperties (odata (stored o)) = readProperties (odata o).
Proof.
  intros o. destruct (trim_outer (odata o)) as (a & b & E & Ha & Hb). rewrite E at 1.
  rewrite (read_inside a _ b) by auto. cbn [stored odata]. apply read_inside; (constructor; [unfold outer; lia|constructor]).
Qed.
