(** Page contents. *)
From Coq Require Import String List ZArith Lia Bool Permutation.
From Verif Require Import Base BaseProofs Output Props PropsFlat PropsRead PropsWrite PropsNorm PropsStable PropsRefs PropsSpec PropsFinal PdfData PagesSpec PagesProofs PagesEdit PagesOps Crawl Inject CrawlProofs ContentSpec.
Open Scope Z_scope.
Open Scope list_scope.

Ltac chars := repeat (apply Forall_cons; [cbn; lia|]); apply Forall_nil.

(** ** Simple dictionaries *)
Lemma index_skip : forall x p a b, Forall (fun c => c <> x) a -> prefixb (x :: p) b = true ->
  index (x :: p) (a ++ b) = Some (List.length a).
Proof.
  intros x p a b F H. apply index_intro.
  - apply occ_0 in H. destruct H as (u & v & E & L). exists (a ++ u), v. rewrite E, app_assoc. split; [auto|].
    rewrite app_length. lia.
  - intros m Hm. apply no_occ_start; auto.
Qed.

Lemma index_no : forall x p a, Forall (fun c => c <> x) a -> index (x :: p) a = None.
Proof.
  intros x p a F. apply index_none. intros m (u & v & E & _). rewrite E in F.
  apply Forall_app in F. destruct F as (_ & F). inversion F; subst. congruence.
Qed.

Lemma read_simple : forall inner rest, Forall (fun c => c <> 115 /\ c <> 60 /\ c <> 62) inner ->
  (rest = [] \/ exists r, rest = B"stream" ++ r) ->
  readProperties (B"<<" ++ inner ++ B">>" ++ [10] ++ rest) = parse_props (norm (trim_space inner)).
Proof.
  intros inner rest F R. unfold readProperties.
  set (head := B"<<" ++ inner ++ B">>" ++ [10]).
  replace (B"<<" ++ inner ++ B">>" ++ [10] ++ rest) with (head ++ rest) by (unfold head; rewrite <- !app_assoc; reflexivity).
  assert (Hs : Forall (fun c => c <> 115) head).
  { unfold head. apply Forall_app. split; [chars|]. apply Forall_app. split.
    - eapply Forall_impl; [|exact F]. cbn beta. tauto.
    - chars. }
  assert (T0 : match index stream_kw (head ++ rest) with Some n => firstn n (head ++ rest) | None => head ++ rest end = head).
  { change stream_kw with (115 :: B"tream"). destruct R as [->|(r & ->)].
    - rewrite app_nil_r, index_no by auto. reflexivity.
    - rewrite index_skip; [|auto|reflexivity]. rewrite firstn_app, firstn_all, Nat.sub_diag. cbn [firstn]. apply app_nil_r. }
  rewrite T0.
  assert (I1 : index (B"<<") head = Some 0%nat) by (unfold head; reflexivity).
  assert (I2 : last_index (B">>") head = Some (2 + List.length inner)%nat).
  { apply last_index_intro.
    - exists (B"<<" ++ inner), [10]. split; [unfold head; rewrite <- !app_assoc; reflexivity|]. rewrite app_length. reflexivity.
    - intros m Hm O. pose proof (occ_len _ _ _ O) as L. unfold head in L. rewrite !app_length in L. cbn [List.length bytes_of_string] in L.
      assert (m = (3 + List.length inner)%nat) by lia. subst m. unfold head in O.
      replace (B"<<" ++ inner ++ B">>" ++ [10]) with ((B"<<" ++ inner ++ [62]) ++ [62; 10]) in O by (rewrite <- !app_assoc; reflexivity).
      replace (3 + List.length inner)%nat with (List.length (B"<<" ++ inner ++ [62%Z]) + 0)%nat in O
        by (rewrite !app_length; cbn [List.length bytes_of_string]; lia).
      apply (proj1 (occ_skip _ _ _ _)) in O. apply (proj1 (occ_0 _ _)) in O. discriminate O. }
  rewrite I1, I2. replace (2 + List.length inner <? 0)%nat with false by (symmetry; apply Nat.ltb_ge; lia).
  replace (head ++ rest) with (B"<<" ++ inner ++ (B">>" ++ [10] ++ rest)) by (unfold head; rewrite <- !app_assoc; reflexivity).
  rewrite (slice_app (B"<<") inner); [reflexivity| |]; unfold blen; cbn [List.length bytes_of_string]; lia.
Qed.

Lemma read_length : forall n rest, (rest = [] \/ exists r, rest = B"stream" ++ r) ->
  readProperties (B"<<" ++ ([10] ++ B"/Length " ++ itoa n ++ [10]) ++ B">>" ++ [10] ++ rest) = Ok [mkProp (B"Length") (itoa n)].
Proof.
  intros n rest R.
  assert (Hi : Forall (fun c => c <> 115 /\ c <> 60 /\ c <> 62) (itoa n)).
  { eapply Forall_impl; [|apply itoa_chars]. unfold num_char. cbn beta. intros. lia. }
  assert (Hl : Forall (fun c => c <> 115 /\ c <> 60 /\ c <> 62) (B"/Length ")) by (chars).
  rewrite read_simple; auto.
  2:{ rewrite !Forall_app. repeat (split; auto); chars. }
  assert (G : readProperties (setProperties [mkProp (B"Length") (itoa n)]) = Ok [mkProp (B"Length") (itoa n)]).
  { apply good_read. destruct (itoa_svalue n) as (S1 & S2 & S3 & S4 & S5 & S6 & S7 & S8). apply good_last.
    - unfold stable. cbn [pkey pval]. repeat (split; auto).
      + repeat (apply Forall_cons; [unfold key_char, ascii; cbn; lia|]). apply Forall_nil.
      + apply contains_false. reflexivity.
    - cbn [pval]. rewrite nrm_norm_id by auto. apply complete_not_stop. auto.
    - cbn [pkey pval]. rewrite last_app_space by auto. auto. }
  unfold setProperties in G. cbn [flat_map pkey pval] in G.
  replace (B"<<" ++ [10] ++ (([47] ++ B"Length" ++ [32] ++ itoa n) ++ []) ++ B">>" ++ [10])
    with (B"<<" ++ ([10] ++ B"/Length " ++ itoa n) ++ B">>" ++ [10] ++ []) in G
    by (rewrite !app_nil_r, <- !app_assoc; reflexivity).
  rewrite read_simple in G; auto.
  2:{ rewrite !Forall_app. repeat (split; auto); chars. }
  rewrite <- G. do 2 f_equal.
  assert (T : trimmed (B"/Length " ++ itoa n)).
  { destruct (@exists_last _ (itoa n) (itoa_nonnil n)) as (u & y & E). pose proof (itoa_chars n) as C. rewrite E in *.
    apply Forall_app in C. destruct C as (_ & C). inversion C as [|? ? Cy _]; subst. rewrite app_assoc.
    change (B"/Length ") with (47 :: B"Length "). cbn [app]. apply trimmed_ascii; unfold ascii, is_space1, num_char in *; lia. }
  pose proof (trim_space_pad [10] _ [10] eq_refl eq_refl T) as P1. rewrite <- !app_assoc in P1. rewrite P1.
  pose proof (trim_space_pad [10] _ [] eq_refl eq_refl T) as P. rewrite app_nil_r in P. symmetry. exact P.
Qed.

Lemma content_plain : forall s, plain_stream (content_object s) s.
Proof.
  intros s. exists (B"<<" ++ ([10] ++ B"/Length " ++ itoa (blen s) ++ [10]) ++ B">>" ++ [10]).
  assert (E : content_object s = (B"<<" ++ ([10] ++ B"/Length " ++ itoa (blen s) ++ [10]) ++ B">>" ++ [10]) ++ B"stream" ++ [10] ++ s ++ B"endstream").
  { unfold content_object. rewrite <- !app_assoc. reflexivity. }
  split; [exact E|]. split.
  - right. exists ([10] ++ s ++ B"endstream"). split; [rewrite E; reflexivity|].
    intros a b H. destruct (Nat.le_gt_cases (List.length (B"<<" ++ ([10] ++ B"/Length " ++ itoa (blen s) ++ [10]) ++ B">>" ++ [10])) (List.length a)) as [L|L]; auto.
    exfalso. rewrite E in H. revert L. set (hd := B"<<" ++ ([10] ++ B"/Length " ++ itoa (blen s) ++ [10]) ++ B">>" ++ [10]) in *. intros L.
    assert (Hs : Forall (fun c => c <> 115) hd).
    { unfold hd. rewrite !Forall_app. repeat split; try chars. eapply Forall_impl; [|apply itoa_chars]. unfold num_char. cbn beta. intros. lia. }
    apply (no_occ_start 115 (B"tream") hd (B"stream" ++ [10] ++ s ++ B"endstream") (List.length a) Hs L).
    exists a, b. split; [exact H|reflexivity].
  - rewrite E. rewrite <- !app_assoc.
    pose proof (read_length (blen s) (B"stream" ++ [10] ++ s ++ B"endstream")) as R. rewrite <- !app_assoc in *. apply R. eauto.
Qed.

(** ** Reading a stream *)
Lemma plain_start_space : forall s, plain_start s -> s <> [] -> forall t, space_len (s ++ t) = 0%nat.
Proof.
  intros [|c s] H N t; [congruence|]. cbn [plain_start] in H. cbn [app space_len].
  destruct H as (H1 & H2 & H3 & H4). unfold is_space1. replace (((9 <=? c) && (c <=? 13)) || (c =? 32)) with false by lia.
  destruct (s ++ t) as [|d u]; auto. unfold is_space2. replace (c =? 194) with false by lia. cbn [andb].
  destruct u as [|e w]; auto. unfold is_space3.
  replace (c =? 225) with false by lia. replace (c =? 226) with false by lia. replace (c =? 227) with false by lia. reflexivity.
Qed.

Lemma rawStream_ok : forall os d ps raw beyond, stream_text os d ps raw -> plain_start raw ->
  rawStream beyond d (blen raw) = Ok raw.
Proof.
  intros os d ps raw beyond (head & eol & t & u & E & BS & LE & Hu & _) PS. unfold rawStream.
  assert (I : index stream_kw d = Some (List.length head)).
  { destruct BS as [(-> & X)|(rest & E2 & Min)].
    - exfalso. eapply X. rewrite E at 1. reflexivity.
    - apply index_intro.
      + exists head, rest. split; [exact E2|reflexivity].
      + intros m Hm (a & b & Ea & La). apply Min in Ea. lia. }
  rewrite I.
  assert (L : blen d = Z.of_nat (List.length head) + 6 + blen (eol ++ raw ++ t ++ B"endstream" ++ u)).
  { rewrite E. rewrite !blen_app. unfold blen at 1 2. cbn [List.length bytes_of_string]. lia. }
  pose proof (blen_nonneg (eol ++ raw ++ t ++ B"endstream" ++ u)) as NN.
  destruct (Z.ltb_spec (blen d) (Z.of_nat (List.length head) + 6)); [lia|].
  assert (T : skipn (Z.to_nat (Z.of_nat (List.length head) + 6)) d = eol ++ raw ++ t ++ B"endstream" ++ u).
  { rewrite E. replace (Z.to_nat (Z.of_nat (List.length head) + 6)) with (List.length (head ++ B"stream"))
      by (rewrite app_length; cbn [List.length bytes_of_string]; lia).
    rewrite app_assoc, skipn_app, skipn_all, Nat.sub_diag. reflexivity. }
  rewrite T. destruct raw as [|c raw].
  - change (blen []) with 0. cbn [Z.leb Z.compare andb Z.to_nat firstn].
    match goal with |- context [0 <=? blen ?x] => destruct (Z.leb_spec 0 (blen x)) as [|Q]; [reflexivity|pose proof (blen_nonneg x); lia] end.
  - assert (SL : space_len ((c :: raw) ++ t ++ B"endstream" ++ u) = 0%nat) by (apply plain_start_space; [auto|discriminate]).
    assert (TL : trim_left_space (eol ++ (c :: raw) ++ t ++ B"endstream" ++ u) = (c :: raw) ++ t ++ B"endstream" ++ u).
    { rewrite trim_left_spaces; [apply trim_left_id; auto|]. destruct LE as [->| ->]; reflexivity. }
    assert (TS : trim_space (eol ++ (c :: raw) ++ t ++ B"endstream" ++ u) = (c :: raw) ++ t ++ B"endstream").
    { assert (Tr : trimmed ((c :: raw) ++ t ++ B"endstream")) by (split; [apply plain_start_space; [exact PS|discriminate]|rewrite !rev_app_distr; reflexivity]).
      pose proof (trim_space_pad eol _ u ltac:(destruct LE as [->| ->]; reflexivity) Hu Tr) as P. rewrite <- !app_assoc in P. exact P. }
    rewrite TS, TL. cbn [app]. rewrite <- !app_assoc.
    assert (LL : 0 <= blen (c :: raw) <= blen (c :: raw ++ t ++ B"endstream" ++ u ++ beyond)).
    { split; [apply blen_nonneg|]. rewrite !blen_cons, blen_app. pose proof (blen_nonneg (t ++ B"endstream" ++ u ++ beyond)). lia. }
    replace ((0 <=? blen (c :: raw)) && (blen (c :: raw) <=? blen (c :: raw ++ t ++ B"endstream" ++ u ++ beyond))) with true by lia.
    f_equal. unfold blen. rewrite Nat2Z.id. change (c :: raw ++ t ++ B"endstream" ++ u ++ beyond) with ((c :: raw) ++ t ++ B"endstream" ++ u ++ beyond).
    rewrite firstn_app, firstn_all, Nat.sub_diag. cbn [firstn]. apply app_nil_r.
Qed.

Lemma streamLength_ok : forall os d ps n, readProperties d = Ok ps -> declared os ps n -> streamLength os d = Ok n.
Proof.
  intros os d ps n R D. unfold streamLength, readProperty. rewrite R. cbn [bind].
  destruct D as [v V A | v id o V I W A]; rewrite (value_get _ _ _ V); cbn [bind pval].
  - rewrite (type_num _ _ A). auto.
  - rewrite (type_ref _ _ I), I. cbn [bind]. rewrite (version_get _ _ _ W). cbn [bind]. auto.
Qed.

(** ** The crawl for Contents *)
Definition strs (ps : list prop) : list item := map (fun p => IStr (pkey p) (pval p)) ps.

Lemma upd_app : forall A (f g : A -> A) k (m : list (Z * A)), upd_key k f (upd_key k g m) = upd_key k (fun x => f (g x)) m.
Proof.
  induction m as [|[k' v] m IH]; cbn [upd_key]; [reflexivity|].
  destruct (k =? k') eqn:E; cbn [upd_key]; rewrite E; [reflexivity|now rewrite IH].
Qed.

Lemma upd_id : forall A (f : A -> A) k (m : list (Z * A)), (forall x, f x = x) -> upd_key k f m = m.
Proof.
  induction m as [|[k' v] m IH]; intros H; cbn [upd_key]; [reflexivity|].
  destruct (k =? k'); [now rewrite H|now rewrite IH].
Qed.

Lemma upd_ext : forall A (f g : A -> A) k (m : list (Z * A)), (forall x, f x = g x) -> upd_key k f m = upd_key k g m.
Proof.
  induction m as [|[k' v] m IH]; intros H; cbn [upd_key]; [reflexivity|].
  destruct (k =? k'); [now rewrite H|now rewrite IH].
Qed.

Lemma next_skip : forall os key final rec id ps qs m, (forall q, In q ps -> pkey q <> key) ->
  next_props os key final rec (Some id) (ps ++ qs) m [] =
  next_props os key final rec (Some id) qs (upd_key id (fun l => l ++ strs ps) m) [].
Proof.
  intros os key final rec id. induction ps as [|p ps IH]; intros qs m H.
  - cbn [app strs map]. rewrite upd_id; [reflexivity|]. intros. apply app_nil_r.
  - cbn [app next_props]. destruct (beqb (pkey p) key) eqn:E.
    + apply beqb_eq in E. exfalso. eapply H; [left; reflexivity|auto].
    + cbn [negb emit]. rewrite IH by (intros q Hq; apply H; right; auto).
      rewrite upd_app. f_equal. apply upd_ext. intros l. rewrite <- app_assoc. reflexivity.
Qed.

Lemma valOf_strs : forall k ps, valOf k (strs ps) = option_map pval (getPropByKey k ps).
Proof.
  intros k. induction ps as [|p ps IH]; cbn [strs map valOf valOf_item getPropByKey]; [reflexivity|].
  destruct (beqb (pkey p) k); cbn [option_map]; [reflexivity|]. apply IH.
Qed.

(** The results hold the entries of the page, and other results are empty. *)
Lemma crawl_page : forall os key pid o ps v, version os pid o -> entries o ps -> only ps key v ->
  (exists id o', readObjID v = Ok id /\ getObj id os = Ok o') ->
  exists rs, crawl_checked os pid [key] = Ok rs /\ NoDup (map fst rs) /\ In (pid, strs ps) rs /\
    forall k l, In (k, l) rs -> k = pid \/ l = [].
Proof.
  intros os key pid o ps v V E (a & b & Ep & O) (cid & co & R & G).
  unfold crawl_checked, crawl_run. rewrite (version_get _ _ _ V). cbn [next]. unfold entries in E. rewrite E.
  rewrite Ep. rewrite next_skip by (intros q Hq; apply O; apply in_or_app; auto).
  cbn [touch mem_key app upd_key]. rewrite Z.eqb_refl. cbn [next_props pkey pval]. rewrite beqb_refl. cbn [negb].
  rewrite (type_ref _ _ R), R. cbn [bind]. rewrite G. cbn [bind next].
  set (m1 := touch cid _). cbn [emit].
  rewrite <- (app_nil_r b). rewrite next_skip by (intros q Hq; apply O; apply in_or_app; auto).
  cbn [next_props]. rewrite upd_app. rewrite app_nil_r.
  assert (S : strs a ++ [IStr key v] ++ strs b = strs (a ++ mkProp key v :: b)).
  { unfold strs. rewrite map_app. reflexivity. }
  unfold m1, touch. cbn [mem_key orb]. destruct (Z.eqb_spec cid pid) as [->|N]; cbn [orb app upd_key].
  - rewrite Z.eqb_refl. eexists. split; [reflexivity|]. rewrite <- app_assoc, S. split; [repeat constructor; auto|].
    split; [left; reflexivity|]. intros k l [H|[]]. inversion H. auto.
  - rewrite Z.eqb_refl. eexists. split; [reflexivity|]. rewrite <- app_assoc, S. split.
    + cbn [map fst]. constructor; [intros [H|[]]; congruence|]. repeat constructor; auto.
    + split; [left; reflexivity|]. intros k l [H|[H|[]]]; inversion H; auto.
Qed.

Lemma crawl_page_none : forall os key pid o ps, version os pid o -> entries o ps -> ~ has_key ps key ->
  crawl_checked os pid [key] = Ok [(pid, strs ps)].
Proof.
  intros os key pid o ps V E N. unfold crawl_checked, crawl_run. rewrite (version_get _ _ _ V).
  cbn [next]. unfold entries in E. rewrite E. rewrite <- (app_nil_r ps) at 1. rewrite next_skip.
  - cbn [next_props touch mem_key app upd_key]. rewrite Z.eqb_refl. reflexivity.
  - intros q Hq Hk. apply N. exists (pval q). subst. destruct q. auto.
Qed.

Lemma only_value : forall ps k v, only ps k v -> value ps k v.
Proof. intros ps k v (a & b & E & H). exists a, b. split; auto. intros q Hq. apply H, in_or_app. auto. Qed.

(** ** One page *)
Lemma pageResults_skip : forall inflate beyond os page rs buffs must,
  (forall k l, In (k, l) rs -> valOf (B"Contents") l = None) ->
  pageResults inflate beyond os page rs buffs must = Ok (buffs, must, false).
Proof.
  induction rs as [|[k l] rs IH]; intros buffs must H; cbn [pageResults]; [reflexivity|].
  rewrite (H k l) by (left; reflexivity). apply IH. intros k' l' H'. apply (H k'). right. auto.
Qed.

Lemma pageResults_one : forall inflate beyond os page a pid l b buffs must v,
  (forall k l, In (k, l) (a ++ b) -> valOf (B"Contents") l = None) -> valOf (B"Contents") l = Some v ->
  forall id co cps raw s, readObjID v = Ok id -> version os id co ->
  stream_text os (odata co) cps raw -> plain_start raw -> decodes inflate cps raw s ->
  pageResults inflate beyond os page (a ++ (pid, l) :: b) buffs must =
  Ok (match map_get buffs page with
      | Some t => (set_key page [] buffs, set_key id (content_object (s ++ [10] ++ t)) must, false)
      | None => (buffs, must, false)
      end).
Proof.
  induction a as [|[k l0] a IH]; intros pid l b buffs must v H Hv id co cps raw s R V ST PS D.
  - cbn [app pageResults]. rewrite Hv. unfold contentsID. rewrite (type_ref _ _ R), R. cbn [bind].
    rewrite (version_get _ _ _ V). cbn [bind].
    pose proof ST as ST0. destruct ST0 as (hd & eol & t & u & _ & _ & _ & _ & RP & DC).
    unfold readProperty. rewrite RP. cbn [bind]. rewrite (streamLength_ok _ _ _ _ RP DC). cbn [bind].
    unfold extractStream. rewrite (rawStream_ok _ _ _ _ (beyond id) ST PS). cbn [bind].
    assert (X : (if match getPropByKey (B"FlateDecode") cps with Some _ => true | None => false end then inflate raw else Ok raw) = Ok s).
    { destruct D as [_ N|s0 _ HK IF].
      - apply get_none in N. rewrite N. reflexivity.
      - destruct (has_get _ _ HK) as (q & Hq). rewrite Hq. auto. }
    rewrite X. cbn [bind]. destruct (map_get buffs page); apply pageResults_skip; intros; eapply H; eauto.
  - cbn [app pageResults]. rewrite (H k l0) by (left; reflexivity).
    eapply IH; eauto. intros k' l' Hi. apply (H k'). right. auto.
Qed.

(** ** The buffers *)
Definition insb (ins : inserts) (k : Z) : bool := existsb (fun i => fst i =? k) ins.
Definition calls (ins : inserts) : list (Z * res bytes) := map (fun i => (fst i, Ok (snd i))) ins.

Lemma insb_spec : forall ins k, insb ins k = true <-> inserted ins k.
Proof.
  intros ins k. unfold insb, inserted. rewrite existsb_exists. split.
  - intros ([j s] & H & E). cbn [fst] in E. apply Z.eqb_eq in E. subst. eauto.
  - intros (s & H). exists (k, s). split; [auto|]. apply Z.eqb_refl.
Qed.

Lemma pageBuffs_ok : forall ins m0, exists m, pageBuffs (calls ins) m0 = Ok m /\
  forall k, map_get m k = match map_get m0 k with
                          | Some b => Some (b ++ drawn ins k)
                          | None => if insb ins k then Some (drawn ins k) else None end.
Proof.
  induction ins as [|[j s] ins IH]; intros m0.
  - exists m0. split; [reflexivity|]. intros k. cbn [drawn insb existsb]. destruct (map_get m0 k); [rewrite app_nil_r|]; reflexivity.
  - cbn [calls map fst snd pageBuffs bind]. set (m1 := upd_key _ _ _). destruct (IH m1) as (m & E & H).
    exists m. split; [exact E|]. intros k. rewrite H. unfold m1. rewrite get_upd. cbn [drawn insb existsb fst].
    fold (insb ins k). destruct (mem_key j m0) eqn:M.
    + apply mem_get in M. destruct M as (w & M). rewrite (Z.eqb_sym j k). destruct (Z.eqb_spec k j) as [->|N].
      * unfold bytes in *. rewrite M. cbn [option_map orb]. rewrite app_assoc. reflexivity.
      * reflexivity.
    + apply mem_none in M. rewrite get_snoc by auto. rewrite (Z.eqb_sym j k). destruct (Z.eqb_spec k j) as [->|N].
      * unfold bytes in *. rewrite M. cbn [option_map orb app]. reflexivity.
      * reflexivity.
Qed.

(** ** All pages *)
Fixpoint lw (ins : inserts) (page : Z) (srcs : list (option (Z * bytes))) (must : list (Z * bytes)) : list (Z * bytes) :=
  match srcs with
  | [] => must
  | None :: r => lw ins (page + 1) r must
  | Some (cid, s) :: r =>
    lw ins (page + 1) r (if insb ins page then set_key cid (content_object (s ++ [10] ++ drawn ins page)) must else must)
  end.

Lemma pagesLoop_ok : forall ord inflate beyond os ins, fair ord -> forall srcs ids page buffs must,
  Forall2 (source inflate os) ids srcs ->
  (forall k, page <= k -> map_get buffs k = if insb ins k then Some (drawn ins k) else None) ->
  pagesLoop ord inflate beyond os page ids buffs must = Ok (lw ins page srcs must, false).
Proof.
  intros ord inflate beyond os ins F. induction srcs as [|src srcs IH]; intros ids page buffs must H Hb;
    inversion H as [|pid src0 ids' srcs0 Hs Ht E1 E2]; subst; [reflexivity|].
  cbn [pagesLoop lw]. inversion Hs as [o ps V E N Eq|o ps v cid co cps raw s V E O R Vc ST PS D Eq]; subst.
  - rewrite (crawl_page_none _ _ _ _ _ V E N). cbn [bind].
    assert (P : ord [21; page] _ [(pid, strs ps)] = [(pid, strs ps)]).
    { apply Permutation_length_1_inv. symmetry. apply F. }
    rewrite P. rewrite pageResults_skip.
    + cbn [bind]. apply IH; auto. intros k Hk. apply Hb. lia.
    + intros k l [X|[]]. inversion X; subst. rewrite valOf_strs. apply get_none in N. rewrite N. reflexivity.
  - destruct (crawl_page os (B"Contents") pid o ps v V E O) as (rs & Er & Nd & Hin & Hother).
    { exists cid, co. split; [auto|]. apply version_get. auto. }
    rewrite Er. cbn [bind].
    pose proof (F [21; page] _ rs) as P. remember (ord [21; page] (list item) rs) as rs' eqn:Ers.
    assert (Hin' : In (pid, strs ps) rs') by (eapply Permutation_in; [symmetry; exact P|auto]).
    assert (Nd' : NoDup (map fst rs')) by (eapply Permutation_NoDup; [symmetry; apply Permutation_map; exact P|auto]).
    apply in_split in Hin'. destruct Hin' as (a & b & E'). rewrite E'.
    assert (Hrest : forall k l, In (k, l) (a ++ b) -> valOf (B"Contents") l = None).
    { intros k l Hk. destruct (Hother k l) as [->| ->].
      - eapply Permutation_in; [exact P|]. rewrite E'. apply in_app_or in Hk. apply in_or_app. cbn [In]. tauto.
      - exfalso. rewrite E', map_app in Nd'. cbn [map fst] in Nd'. apply NoDup_remove_2 in Nd'. apply Nd'.
        rewrite <- map_app. apply (in_map fst) in Hk. exact Hk.
      - reflexivity. }
    erewrite (pageResults_one inflate beyond os page a pid (strs ps) b buffs must v Hrest); eauto.
    2:{ rewrite valOf_strs, (value_get _ _ _ (only_value _ _ _ O)). reflexivity. }
    cbn [bind]. rewrite (Hb page) by lia. destruct (insb ins page).
    + apply IH; auto. intros k Hk. rewrite get_set. replace (k =? page) with false by lia. apply Hb. lia.
    + apply IH; auto. intros k Hk. apply Hb. lia.
Qed.

Definition writes_at (page : Z) (srcs : list (option (Z * bytes))) (ins : inserts) (k cid : Z) (s : bytes) : Prop :=
  page <= k /\ nth_error srcs (Z.to_nat (k - page)) = Some (Some (cid, s)) /\ inserted ins k.

Lemma writes_at_head : forall page src srcs ins k cid s, writes_at page (src :: srcs) ins k cid s <->
  (k = page /\ src = Some (cid, s) /\ inserted ins page) \/ writes_at (page + 1) srcs ins k cid s.
Proof.
  intros. unfold writes_at. split.
  - intros (L & H & I). destruct (Z.eq_dec k page) as [->|N].
    + left. rewrite Z.sub_diag in H. cbn in H. inversion H. auto.
    + right. split; [lia|]. split; [|auto].
      replace (Z.to_nat (k - page)) with (S (Z.to_nat (k - (page + 1)))) in H by lia. exact H.
  - intros [(-> & -> & I)|(L & H & I)].
    + split; [lia|]. rewrite Z.sub_diag. auto.
    + split; [lia|]. split; [|auto]. replace (Z.to_nat (k - page)) with (S (Z.to_nat (k - (page + 1)))) by lia. exact H.
Qed.

Lemma lw_spec : forall ins srcs page must cid,
  (forall k s, writes_at page srcs ins k cid s -> (forall k' s', k < k' -> ~ writes_at page srcs ins k' cid s') ->
     map_get (lw ins page srcs must) cid = Some (content_object (s ++ [10] ++ drawn ins k))) /\
  ((forall k s, ~ writes_at page srcs ins k cid s) -> map_get (lw ins page srcs must) cid = map_get must cid).
Proof.
  intros ins. induction srcs as [|src srcs IH]; intros page must cid.
  - split; [|reflexivity]. intros k s (_ & H & _). destruct (Z.to_nat (k - page)); discriminate.
  - split.
    + intros k s W Last. apply writes_at_head in W. destruct W as [(-> & -> & I)|W].
      * cbn [lw]. apply insb_spec in I. rewrite I. rewrite (proj2 (IH _ _ _)).
        -- rewrite get_set, Z.eqb_refl. reflexivity.
        -- intros k s0 W. apply (Last k s0); [destruct W; lia|]. apply writes_at_head. auto.
      * assert (L2 : forall k' s', k < k' -> ~ writes_at (page + 1) srcs ins k' cid s').
        { intros k' s' L W2. apply (Last k' s' L). apply writes_at_head. auto. }
        cbn [lw]. destruct src as [[c0 s0]|]; apply (proj1 (IH _ _ _)); auto.
    + intros No. assert (No2 : forall k s, ~ writes_at (page + 1) srcs ins k cid s).
      { intros k s W. apply (No k s). apply writes_at_head. auto. }
      cbn [lw]. destruct src as [[c0 s0]|]; rewrite (proj2 (IH _ _ _)); auto.
      destruct (insb ins page) eqn:I; auto. rewrite get_set. destruct (Z.eqb_spec cid c0); auto. subst.
      exfalso. apply (No page s0). apply writes_at_head. left. apply insb_spec in I. auto.
Qed.

Lemma lw_nodup : forall ins srcs page must, NoDup (map fst must) -> NoDup (map fst (lw ins page srcs must)).
Proof.
  intros ins. induction srcs as [|[[c s]|] srcs IH]; intros page must H; cbn [lw]; auto.
  apply IH. destruct (insb ins page); auto. apply nodup_set. auto.
Qed.

Lemma lw_keys : forall ins srcs page must id, In id (map fst (lw ins page srcs must)) ->
  In id (map fst must) \/ exists k s, writes_at page srcs ins k id s.
Proof.
  intros ins. induction srcs as [|src srcs IH]; intros page must id H; cbn [lw] in H; auto.
  assert (S : forall X, (exists k s, writes_at (page + 1) srcs ins k id s) -> X \/ exists k s, writes_at page (src :: srcs) ins k id s).
  { intros X (k & s & W). right. exists k, s. apply writes_at_head. auto. }
  destruct src as [[c s]|]; apply IH in H; destruct H as [H|H]; auto.
  destruct (insb ins page) eqn:I; auto. apply mem_in, mem_get in H. destruct H as (w & H). rewrite get_set in H.
  destruct (Z.eqb_spec id c).
  - subst. right. exists page, s. apply writes_at_head. left. apply insb_spec in I. auto.
  - left. apply mem_in, mem_get. eauto.
Qed.

(** ** The object a number stands for *)
Lemma app_inv_len : forall A (a a' b b' : list A), a ++ b = a' ++ b' -> List.length a = List.length a' -> a = a' /\ b = b'.
Proof.
  induction a as [|x a IH]; intros [|y a'] b b' E L; cbn in *; try discriminate; auto.
  inversion E; subst. destruct (IH a' b b') as (-> & ->); auto.
Qed.

Lemma stands_idx : forall a o b, getIdx (oid o) (a ++ o :: b) = Some (List.length a) <-> stands a o b.
Proof.
  intros a o b. rewrite getIdx_eq. unfold stands. split.
  - destruct (lastA (oid o) (a ++ o :: b)) as [j|] eqn:L.
    + intros H. inversion H; subst j. apply lastA_some in L. destruct L as (a' & o' & b' & E & Ln & I & A & N).
      assert (a' = a /\ o' :: b' = o :: b) as (-> & E2) by (apply app_inv_len; auto).
      inversion E2; subst. left. split; [apply annots_spec; auto|]. intros q Hq Hi. apply annots_false. auto.
    + intros H. rewrite lastA_none in L. apply firstI_some in H. destruct H as (a' & o' & b' & E & Ln & I & N).
      assert (a' = a /\ o' :: b' = o :: b) as (-> & E2) by (apply app_inv_len; auto).
      right. split; [|auto]. intros q Hq Hi. apply annots_false. auto.
  - intros [(A & N)|(NA & N)].
    + rewrite (proj2 (lastA_some (oid o) (a ++ o :: b) (List.length a))); [reflexivity|].
      exists a, o, b. repeat split; auto; [apply annots_spec; auto|]. intros q Hq Hi. apply annots_false. auto.
    + rewrite (proj2 (lastA_none (oid o) (a ++ o :: b))).
      * apply firstI_some. exists a, o, b. auto.
      * intros q Hq Hi. apply annots_false. auto.
Qed.
