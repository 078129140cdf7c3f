(** Saving a protected document. *)
From Coq Require Import String List ZArith Lia Bool Permutation.
From Coq.Floats Require Import SpecFloat.
From Verif Require Import Base BaseProofs CryptoSpec Output Props PdfData PagesSpec Crawl Inject InjectSpec Parse Md5Rc4 Crypto CryptoProofs Api SaveGoesSpec.
Open Scope Z_scope.
Open Scope list_scope.

(** The same without protection. *)
Definition unlocked (s : state) : state :=
  mkState (s_doc s) (s_names s) (s_fonts s) (s_imgs s) (s_cache s) (s_fname s) (s_style s) (s_size s) (s_line s) (s_cont s) None.

Lemma occ_iff : forall p s n, occ p s n <-> exists a b, s = a ++ p ++ b /\ List.length a = n.
Proof. intros p s n. split; [intros (a & b & E & L)|intros (a & b & E & L)]; exists a, b; auto. Qed.

Lemma encrypt_ends : forall pr o, ends_stream (odata o) -> exists o', encrypt pr o = Ok o'.
Proof.
  intros pr o H. unfold encrypt. destruct (index (B"stream") (odata o)) as [n|] eqn:I; [|eauto].
  apply index_some in I as (O1 & O2). apply occ_iff in O1 as (a & b & E & L).
  destruct (H a b E) as (x & y & Eb).
  { intros a' b' E'. destruct (Nat.le_gt_cases (List.length a) (List.length a')) as [X|X]; [exact X|]. exfalso. apply (O2 (List.length a')); [lia|]. apply occ_iff. eauto. }
  assert (O3 : occ (B"endstream") (odata o) (List.length a + 6 + List.length x)). { apply occ_iff. exists (a ++ B"stream" ++ x), y. split; [rewrite E, Eb, <- !app_assoc; reflexivity|]. rewrite !app_length. change (List.length (B"stream")) with 6%nat. lia. }
  destruct (last_index (B"endstream") (odata o)) as [m|] eqn:J; [|exfalso; exact (last_index_none _ _ J _ O3)].
  assert (Hm : (List.length a + 6 + List.length x <= m)%nat). { pose proof (last_index_spec (B"endstream") (odata o)) as S. rewrite J in S. destruct S as (_ & S). destruct (Nat.le_gt_cases (List.length a + 6 + List.length x) m) as [X|X]; [exact X|]. exfalso. apply (S (List.length a + 6 + List.length x)%nat); [lia|exact O3]. }
  pose proof (last_index_some _ _ _ J) as O4. apply occ_iff in O4 as (a4 & b4 & E4 & L4).
  assert (Hb : Z.of_nat m <= blen (odata o)) by (unfold blen; rewrite E4, app_length; lia).
  unfold slice. destruct (Z.leb_spec 0 (Z.of_nat n + 6)); [|lia]. destruct (Z.leb_spec (Z.of_nat n + 6) (Z.of_nat m)); [|lia]. destruct (Z.leb_spec (Z.of_nat m) (blen (odata o))); [|lia]. cbn [andb bind]. cbv zeta.
  match goal with |- context [rc4 ?k ?d] => destruct (rc4_ok 10 (encryptionKey pr ++ firstn 3 (le_bytes 4 (oid o mod 2 ^ 32)) ++ [0; 0]) d ltac:(lia)) as (t & T); change k with (firstn 10 (md5 (encryptionKey pr ++ firstn 3 (le_bytes 4 (oid o mod 2 ^ 32)) ++ [0; 0]))) end.
  rewrite T. cbn [bind]. eauto.
Qed.
Lemma encrypt_panics : forall pr o, ~ ends_stream (odata o) -> encrypt pr o = Panic.
Proof.
  intros pr o H. unfold encrypt. destruct (index (B"stream") (odata o)) as [n|] eqn:I.
  2:{ exfalso. apply H. intros a b E _. exfalso. apply (proj1 (index_none _ _) I (List.length a)). apply occ_iff. eauto. }
  apply index_some in I as (O1 & O2). apply occ_iff in O1 as (a & b & E & L).
  assert (N : forall m, last_index (B"endstream") (odata o) = Some m -> Z.of_nat m < Z.of_nat n + 6).
  { intros m J. destruct (Z.lt_ge_cases (Z.of_nat m) (Z.of_nat n + 6)) as [X|X]; [exact X|]. exfalso. apply H. intros a1 b1 E1 F1.
    pose proof (F1 a b E) as F. assert (F2 : (List.length a <= List.length a1)%nat). { destruct (Nat.le_gt_cases (List.length a) (List.length a1)) as [Y|Y]; [exact Y|]. exfalso. apply (O2 (List.length a1)); [lia|]. apply occ_iff. eauto. }
    assert (E2 : a1 ++ B"stream" = firstn (n + 6) (odata o)). { rewrite E1, app_assoc. replace (n + 6)%nat with (List.length (a1 ++ B"stream")) by (rewrite app_length; change (List.length (B"stream")) with 6%nat; lia). rewrite firstn_app, firstn_all, Nat.sub_diag. cbn [firstn]. rewrite app_nil_r. reflexivity. }
    assert (E3 : b1 = skipn (n + 6) (odata o)). { rewrite E1, app_assoc. replace (n + 6)%nat with (List.length (a1 ++ B"stream")) by (rewrite app_length; change (List.length (B"stream")) with 6%nat; lia). rewrite skipn_app, skipn_all, Nat.sub_diag. reflexivity. }
    pose proof (last_index_some _ _ _ J) as O4. apply occ_iff in O4 as (a4 & b4 & E4 & L4). exists (skipn (n + 6) a4), b4. rewrite E3, E4, skipn_app. replace (n + 6 - List.length a4)%nat with 0%nat by lia. reflexivity. }
  cbv zeta. match goal with |- context [slice ?d ?x ?e] => assert (X : slice d x e = Panic) end.
  { unfold slice. destruct (last_index (B"endstream") (odata o)) as [m|]; [pose proof (N m eq_refl)|]; match goal with |- context [?x <=? ?y] => idtac end;
      [destruct (Z.leb_spec (Z.of_nat n + 6) (Z.of_nat m)); [lia|]|destruct (Z.leb_spec (Z.of_nat n + 6) (-1)); [lia|]]; rewrite ?andb_false_r, ?andb_false_l; reflexivity. }
  rewrite X. reflexivity.
Qed.
Lemma ends_dec : forall d, ends_stream d \/ ~ ends_stream d.
Proof.
  intros d. destruct (encrypt (mkProt [] [] 0 []) (mkObj 0 d)) as [x|e| |] eqn:E; [left|right|right|right].
  - destruct (index (B"stream") d) as [n|] eqn:I; [|intros a b Ed _; exfalso; apply (proj1 (index_none _ _) I (List.length a)); apply occ_iff; eauto].
    intros a b Ed Fi. unfold encrypt in E. cbn [odata oid] in E. rewrite I in E. cbv zeta in E. apply bind_ok in E as (body & Sl & _).
    assert (En : n = List.length a). { apply index_some in I as (O1 & O2). apply occ_iff in O1 as (a1 & b1 & E1 & L1). pose proof (Fi a1 b1 E1). destruct (Nat.lt_ge_cases (List.length a) n) as [X|X]; [|lia]. exfalso. apply (O2 _ X). apply occ_iff. eauto. }
    destruct (last_index (B"endstream") d) as [m|] eqn:J.
    + unfold slice in Sl. destruct (Z.leb_spec (Z.of_nat n + 6) (Z.of_nat m)); [|rewrite andb_false_r in Sl; cbn [andb] in Sl; discriminate].
      apply last_index_some in J. apply occ_iff in J as (a4 & b4 & E4 & L4). exists (skipn (n + 6) a4), b4.
      assert (E3 : b = skipn (n + 6) d). { rewrite Ed, app_assoc. replace (n + 6)%nat with (List.length (a ++ B"stream")) by (rewrite app_length; change (List.length (B"stream")) with 6%nat; lia). rewrite skipn_app, skipn_all, Nat.sub_diag. reflexivity. }
      rewrite E3, E4, skipn_app. replace (n + 6 - List.length a4)%nat with 0%nat by lia. reflexivity.
    + unfold slice in Sl. destruct (Z.leb_spec (Z.of_nat n + 6) (-1)); [lia|]. rewrite andb_false_r in Sl. cbn [andb] in Sl. discriminate.
  - intros H. destruct (encrypt_ends (mkProt [] [] 0 []) (mkObj 0 d) H) as (o' & X). congruence.
  - intros H. destruct (encrypt_ends (mkProt [] [] 0 []) (mkObj 0 d) H) as (o' & X). congruence.
  - intros H. destruct (encrypt_ends (mkProt [] [] 0 []) (mkObj 0 d) H) as (o' & X). congruence.
Qed.
Lemma all_ends : forall pr os, Forall (fun o => ends_stream (odata o)) os -> exists os', encrypt_all pr os = Ok os'.
Proof. intros pr os H. induction H as [|o os H _ (os' & IH)]; [exists []; reflexivity|]. destruct (encrypt_ends pr o H) as (o' & E). cbn [encrypt_all]. rewrite E. cbn [bind]. rewrite IH. cbn [bind]. eauto. Qed.
Lemma some_panics : forall pr os o, In o os -> ~ ends_stream (odata o) -> encrypt_all pr os = Panic.
Proof.
  intros pr os o. induction os as [|x os IH]; intros H N; [destruct H|]. cbn [encrypt_all]. destruct H as [->|H]; [rewrite (encrypt_panics pr o N); reflexivity|].
  destruct (encrypt pr x) as [x'|e| |] eqn:E; cbn [bind]; try (rewrite (IH H N); reflexivity); [reflexivity|].
  exfalso. unfold encrypt in E. destruct (index _ _); [|discriminate]. cbv zeta in E. unfold slice in E. destruct (_ && _)%bool; [|discriminate]. cbn [bind] in E. unfold rc4 in E. repeat match type of E with context [match ?t with _ => _ end] => destruct t; cbn [bind] in E; try discriminate end.
Qed.

Theorem save_locked : forall w fuel ch s pr s0 F0, s_prot s = Some pr -> saveTo w fuel ch (unlocked s) = Ok (s0, Ok F0) ->
  exists os last r, F0 = toStream os last r None /\
    (Forall (fun o => ends_stream (odata o)) os -> exists s' F, saveTo w fuel ch s = Ok (s', Ok F)) /\
    (forall o, In o os -> ~ ends_stream (odata o) -> saveTo w fuel ch s = Panic).
Proof.
  intros w fuel ch s pr s0 F0 Pr H. unfold saveTo in *. unfold unlocked in H. cbn [s_doc s_names s_fonts s_imgs s_cont s_prot] in H. cbv zeta in *.
  destruct (build_fonts _ _ _ _) as (fs1, [next|e| |]); try discriminate.
  destruct (injectFonts _ _ _) as [(p1, idx)|e| |]; try discriminate.
  destruct (injectImgs _ _ _) as [(p4, names)|e| |]; try discriminate.
  destruct (injectContent _ _ _ _ _ _) as [p5|e| |]; try discriminate. rewrite Pr.
  match type of H with Ok (_, Ok ?x) = _ => assert (EF : F0 = x) by congruence end.
  eexists (objs p5), _, (root p5). split; [exact EF|]. split.
  - intros Fa. destruct (all_ends pr _ Fa) as (os' & ->). cbn [bind]. eauto.
  - intros o Ho N. rewrite (some_panics pr _ o Ho N). reflexivity.
Qed.
