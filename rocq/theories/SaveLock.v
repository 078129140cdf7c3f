(** Saving a document with a password. *)
From Coq Require Import String List ZArith Lia Bool Permutation.
From Coq.Floats Require Import SpecFloat.
From Verif Require Import Base BaseProofs Output OutputSpec OutputProofs Props PropsSpec PdfData PagesSpec PagesProofs
  Crawl Inject InjectSpec ContentSpec ImgSpec Md5Rc4 Crypto CryptoSpec CryptoProofs FontChainSpec FontChain Parse Api ApiProofs ApiIds ApiFresh SaveSpec SaveFrame SaveDoc SaveWhole SaveLockSpec.
Open Scope Z_scope.
Open Scope list_scope.

(** ** Streams *)
Lemma strip_left : forall x, exists a y, x = a ++ y /\ crlf_only a /\ (y = [] \/ exists c t, y = c :: t /\ c <> 13 /\ c <> 10).
Proof.
  induction x as [|c x (a & y & E & Ha & Hy)]; [exists [], []; split; [reflexivity|split; [constructor|auto]]|].
  destruct (is_crlf c) eqn:Ec; unfold is_crlf in Ec.
  - exists (c :: a), y. split; [cbn; congruence|]. split; [constructor; [lia|exact Ha]|exact Hy].
  - exists [], (c :: x). split; [reflexivity|]. split; [constructor|]. right. exists c, x. split; [reflexivity|lia].
Qed.
Lemma strip : forall x, exists eol raw eol', x = eol ++ raw ++ eol' /\ crlf_only eol /\ crlf_only eol' /\ bare raw.
Proof.
  intros x. destruct (strip_left x) as (a & y & -> & Ha & Hy). destruct (strip_left (rev y)) as (b' & z & Ez & Hb & Hz).
  assert (Ey : y = rev z ++ rev b') by (rewrite <- rev_app_distr, <- Ez, rev_involutive; reflexivity).
  exists a, (rev z), (rev b'). split; [rewrite Ey; reflexivity|]. split; [exact Ha|]. split.
  { unfold crlf_only in *. rewrite Forall_forall in *. intros c Hc. apply Hb. apply in_rev. exact Hc. }
  destruct Hz as [->|(c & t & -> & Hc)]; [left; reflexivity|]. right. split.
  - destruct Hy as [->|(d & u & -> & Hd)]; [destruct (rev (c :: t)) eqn:E; [apply (f_equal (@List.length Z)) in E; rewrite rev_length in E; discriminate|discriminate]|].
    destruct (rev (c :: t)) as [|e v] eqn:E; [apply (f_equal (@List.length Z)) in E; rewrite rev_length in E; discriminate|].
    cbn [app] in Ey. injection Ey as -> _. exists e, v. auto.
  - cbn [rev]. exists (rev t), c. auto.
Qed.
Lemma encrypt_id : forall pr o o', encrypt pr o = Ok o' -> oid o' = oid o.
Proof.
  intros pr o o' H. unfold encrypt in H. destruct (index _ _); [|congruence]. destruct (slice _ _ _); cbn [bind] in H; try discriminate.
  destruct (rc4 _ _); cbn [bind] in H; try discriminate. injection H as <-. reflexivity.
Qed.
Lemma encrypt_sealed : forall pr o o', 0 <= oid o -> encrypt pr o = Ok o' -> sealed (encryptionKey pr) o (odata o').
Proof.
  intros pr o o' Hi H. split.
  - intros Hn. rewrite (no_stream_kept pr o Hn) in H. congruence.
  - intros head x tail E BS Last. destruct (strip x) as (eol & raw & eol' & -> & H1 & H2 & HB). exists eol, raw, eol'.
    destruct (stream_decrypts pr o head eol raw eol' tail Hi) as (c & Ec & Ed & El); auto.
    { rewrite E, <- !app_assoc. reflexivity. }
    rewrite Ec in H. exists c. injection H as <-. cbn [odata]. auto 8.
Qed.
Lemma encrypt_no_error : forall pr o e, encrypt pr o <> Err e.
Proof.
  intros pr o e H. unfold encrypt in H. destruct (index _ _) as [n|]; [|discriminate].
  destruct (slice _ _ _) as [x| | |] eqn:E; cbn [bind] in H; [|revert E; unfold slice; destruct (_ && _); discriminate| |]; try discriminate.
  unfold objectkey in H. match type of H with context [rc4 ?k ?d] => destruct (rc4_ok 10 (encryptionKey pr ++ firstn 3 (le_bytes 4 (oid o mod 2 ^ 32)) ++ [0; 0]) d) as (c & Ec); [lia|] end.
  rewrite Ec in H. discriminate.
Qed.
Lemma encrypt_all_each : forall pr os os', encrypt_all pr os = Ok os' -> Forall2 (fun o o' => encrypt pr o = Ok o') os os'.
Proof.
  induction os as [|o os IH]; intros os' H; cbn [encrypt_all] in H; [injection H as <-; constructor|].
  destruct (encrypt pr o) as [o1| | |] eqn:E; cbn [bind] in H; [|exfalso; eapply encrypt_no_error; eauto| |]; try discriminate.
  destruct (encrypt_all pr os) as [l| | |] eqn:El; cbn [bind] in H; try discriminate. injection H as <-. constructor; [exact E|auto].
Qed.

(** ** The trailer *)
Lemma trailer_lock : forall os last r e, 0 <= last -> blen (write_file os last r (Some e)) < 10 ^ 10 ->
  let body := pdf_header ++ concat (map obj_text os) in
  text_at (write_file os last r (Some e)) (blen body + blen (xref_head last) + 20 * (last + 1))
    (B"trailer" ++ [10] ++ B"<<" ++ [10] ++ B"/Size " ++ itoa (last + 1) ++ [10] ++ B"/Root " ++ itoa r ++ B" 0 R" ++ [10]
      ++ B"/Encrypt " ++ itoa e ++ B" 0 R" ++ [10] ++ B"/ID [()()]" ++ [10]).
Proof.
  intros os last r e Hl HF body. pose proof (rows_len os last r (Some e) Hl HF) as RL. rewrite F_eq.
  match type of RL with blen ?x = _ => set (rows := x) in * end.
  assert (T : exists t, trailer_text last r (Some e) (blen body) = (B"trailer" ++ [10] ++ B"<<" ++ [10] ++ B"/Size " ++ itoa (last + 1) ++ [10] ++ B"/Root " ++ itoa r ++ B" 0 R" ++ [10]
      ++ B"/Encrypt " ++ itoa e ++ B" 0 R" ++ [10] ++ B"/ID [()()]" ++ [10]) ++ t).
  { unfold trailer_text. eexists. rewrite <- !app_assoc. reflexivity. }
  destruct T as (t & T). fold body. rewrite T. rewrite (app_assoc (xref_head last)), (app_assoc body). apply text_at_app. rewrite !blen_app, RL. lia.
Qed.

(** ** The dictionary *)
Lemma lock_dict : forall pr, pValue pr < 0 -> lock_text (trim_space (enc_dict pr)) (oValue pr) (uValue pr) (pValue pr).
Proof.
  intros pr Hp. set (core := B"<<" ++ [10] ++ B"/Filter /Standard" ++ [10] ++ B"/V 1" ++ [10] ++ B"/R 2" ++ [10] ++ B"/O (" ++ escape (oValue pr) ++ B")" ++ [10]
    ++ B"/U (" ++ escape (uValue pr) ++ B")" ++ [10] ++ B"/P " ++ itoa (pValue pr) ++ [10] ++ B">>").
  assert (E : enc_dict pr = [] ++ core ++ [10]) by (unfold enc_dict, core; rewrite <- !app_assoc; reflexivity).
  assert (T : trimmed core).
  { assert (Ec : exists x, core = 60 :: x ++ [62]).
    { unfold core. exists (B"<" ++ [10] ++ B"/Filter /Standard" ++ [10] ++ B"/V 1" ++ [10] ++ B"/R 2" ++ [10] ++ B"/O (" ++ escape (oValue pr) ++ B")" ++ [10]
        ++ B"/U (" ++ escape (uValue pr) ++ B")" ++ [10] ++ B"/P " ++ itoa (pValue pr) ++ [10] ++ B">"). rewrite <- !app_assoc. reflexivity. }
    destruct Ec as (x & ->). apply trimmed_ascii; first [reflexivity|unfold ascii; lia]. }
  rewrite E, trim_space_pad by (reflexivity || exact T). unfold core.
  exists (escape (oValue pr) ++ 41 :: [10] ++ B"/U (" ++ escape (uValue pr) ++ 41 :: [10] ++ B"/P -" ++ itoa (- pValue pr) ++ [10] ++ B">>").
  exists (escape (uValue pr) ++ 41 :: [10] ++ B"/P -" ++ itoa (- pValue pr) ++ [10] ++ B">>"), (itoa (- pValue pr)).
  split. { assert (Ei : itoa (pValue pr) = 45 :: itoa (- pValue pr)) by (rewrite (itoa_nonneg (- pValue pr)) by lia; unfold itoa; replace (pValue pr <? 0) with true by lia; reflexivity).
    rewrite Ei. rewrite <- ?app_assoc. reflexivity. }
  split; [apply lit_escape|]. split; [apply lit_escape|]. apply numeral_itoa. lia.
Qed.

(** ** The file *)
Lemma locked_is : forall pr os os' last r rnd perm user owner, setProtection rnd perm user owner = Ok pr -> 0 <= perm < 256 -> encrypt_all pr os = Ok os' ->
  NoDup (map oid os) -> 0 <= last -> 0 <= r -> (forall o, In o os -> oid o <= last) ->
  blen (toStream os' last r (Some (enc_dict pr))) < 10 ^ 10 -> locked_file (toStream os' last r (Some (enc_dict pr))) (mkPdf r os) user owner.
Proof.
  intros pr os os' last r rnd perm user owner Sp Hp He N Hl Hr Hi HF. split; [exact N|]. cbn [objs root].
  destruct (passwords_open rnd perm user owner Hp) as (pr' & Sp' & UO & OO & Ek & _ & Pv & _). assert (pr' = pr) by congruence. subst pr'.
  apply encrypt_all_each in He. assert (Ei : map oid os' = map oid os).
  { clear - He. induction He as [|o o' os os' H He IH]; [reflexivity|]. cbn [map]. rewrite IH, (encrypt_id _ _ _ H). reflexivity. }
  rewrite toStream_write in *. cbn [saved saved_last saved_enc] in *. set (all := os' ++ [mkObj (last + 1) (enc_dict pr)]) in *.
  exists (blen (pdf_header ++ concat (map obj_text all))), (last + 1 + 1). eexists. split; [apply startxref_thm|]. split; [apply section_thm; lia || auto|].
  destruct (inuse_thm all (last + 1) r (Some (last + 1)) ltac:(lia) HF os' (mkObj (last + 1) (enc_dict pr)) [] eq_refl) as (off & Ro & Oa); [cbn [oid]; lia|constructor|].
  exists (last + 1), off, (oValue pr), (uValue pr), (pValue pr), (trim_space (enc_dict pr)), (itoa (last + 1 + 1)), (itoa r), (itoa (last + 1)). cbn [oid odata] in *.
  split; [lia|]. split. { intros H. apply in_map_iff in H. destruct H as (o & E & H). apply Hi in H. lia. }
  split; [exact Ro|]. split; [exact Oa|]. split. { apply lock_dict. rewrite Pv. pose proof (prot_range perm Hp). lia. }
  split; [apply numeral_itoa; lia|]. split; [apply numeral_itoa; lia|]. split; [apply numeral_itoa; lia|].
  split; [apply (trailer_lock all (last + 1) r (last + 1)); [lia|exact HF]|]. split; [exact UO|]. split; [exact OO|].
  intros o Ho H1. pose proof (Hi o Ho) as H2. split; [lia|]. apply in_split in Ho. destruct Ho as (a & b & E).
  assert (exists a' o' b', os' = a' ++ o' :: b' /\ encrypt pr o = Ok o' /\ map oid b' = map oid b) as (a' & o' & b' & E' & En & Eb).
  { clear - He E. revert a b E. induction He as [|x x' os os' H He IH]; intros [|y a] b E; try discriminate; cbn [app] in E; injection E as -> E.
    - exists [], x', os'. split; [reflexivity|]. split; [exact H|]. subst b. clear - He. induction He as [|o o' os os' H He IH]; [reflexivity|]. cbn [map]. rewrite IH, (encrypt_id _ _ _ H). reflexivity.
    - destruct (IH _ _ E) as (a' & o' & b' & -> & En & Eb). exists (x' :: a'), o', b'. auto. }
  pose proof (encrypt_id _ _ _ En) as Io.
  destruct (inuse_thm all (last + 1) r (Some (last + 1)) ltac:(lia) HF a' o' (b' ++ [mkObj (last + 1) (enc_dict pr)])) as (off' & Ro' & Oa').
  { unfold all. rewrite E', <- app_assoc. reflexivity. }
  { rewrite Io. lia. }
  { apply Forall_app. split; [|constructor; [cbn [oid]; rewrite Io; lia|constructor]]. apply Forall_forall. intros q Hq Eq.
    assert (X : In (oid o) (map oid b)) by (rewrite <- Eb, <- Io, <- Eq; apply in_map; exact Hq).
    rewrite E, map_app in N. cbn [map] in N. apply NoDup_remove_2 in N. apply N. apply in_or_app. right. exact X. }
  exists off', (odata o'). rewrite Io in Ro', Oa'. split; [exact Ro'|]. split; [exact Oa'|]. rewrite <- Ek. apply encrypt_sealed; [lia|exact En].
Qed.

(** ** Reachable states *)
Lemma reached_names : forall w fuel cs s log, history w fuel cs new_pdft = Ok (s, log) -> NoDup (map snd (names_of s)).
Proof. intros w fuel cs s log H. apply (history_names_ok _ _ _ _ _ _ H). split; constructor. Qed.

Theorem save_locked : forall w fuel ch s s' F rid ts fi xi srcs pr rnd perm user owner,
  saveTo w fuel ch s = Ok (s', Ok F) -> fair (ch_ord ch) -> s_prot s = Some pr -> setProtection rnd perm user owner = Ok pr -> 0 <= perm < 256 -> NoDup (map snd (names_of s)) ->
  ready_document (d_pdf (s_doc s)) rid ts fi xi ->
  Forall2 (source (w_inflate w) (objs (d_pdf (s_doc s)))) (flat_map leaves ts) srcs ->
  (forall c, In c (content_ids srcs) -> ~ In c (root (d_pdf (s_doc s)) :: rid :: flat_map tree_ids ts) /\ ~ page_object (flat_map leaves ts) fi c) ->
  (depth (Node rid ts) <= fuel)%nat -> 0 <= root (d_pdf (s_doc s)) -> blen F < 10 ^ 10 ->
  exists p' ins, locked_file F p' user owner /\ saved_document w s s' rid ts fi xi srcs p' ins.
Proof.
  intros w fuel ch s s' F rid ts fi xi srcs pr rnd perm user owner H Fr Pr Sp Hp Nm OR Sr Ap Dp Rt Sm.
  destruct (save_core _ _ _ _ _ _ _ _ _ _ _ H Fr Nm OR Sr Ap Dp Sm) as (p' & ins & os & last & enc & HL & EF & Nd & Lp & Le & SD).
  exists p', ins. split; [|exact SD]. rewrite Pr in HL. destruct HL as (HL & ->). pose proof (sd_root _ _ _ _ _ _ _ _ _ _ SD) as Er.
  rewrite EF in *. destruct p' as [p1 po]. cbn [root objs] in *. subst p1. eapply locked_is; eauto.
Qed.

Theorem saved_after_calls : forall w fuel ch cs log s s' F rid ts fi xi srcs,
  history w fuel cs new_pdft = Ok (s, log) -> saveTo w fuel ch s = Ok (s', Ok F) -> fair (ch_ord ch) -> s_prot s = None ->
  ready_document (d_pdf (s_doc s)) rid ts fi xi ->
  Forall2 (source (w_inflate w) (objs (d_pdf (s_doc s)))) (flat_map leaves ts) srcs ->
  (forall c, In c (content_ids srcs) -> ~ In c (root (d_pdf (s_doc s)) :: rid :: flat_map tree_ids ts) /\ ~ page_object (flat_map leaves ts) fi c) ->
  (depth (Node rid ts) <= fuel)%nat -> 0 <= root (d_pdf (s_doc s)) -> blen F < 10 ^ 10 ->
  exists p' ins, file_of F p' /\ saved_document w s s' rid ts fi xi srcs p' ins.
Proof. intros w fuel ch cs log s s' F rid ts fi xi srcs Hh Hs Fr Pr OR Sr Ap Dp Rt Sm. eapply save_whole; eauto. eapply reached_names; eauto. Qed.
Theorem locked_after_calls : forall w fuel ch cs log s s' F rid ts fi xi srcs pr rnd perm user owner,
  history w fuel cs new_pdft = Ok (s, log) -> saveTo w fuel ch s = Ok (s', Ok F) -> fair (ch_ord ch) ->
  s_prot s = Some pr -> setProtection rnd perm user owner = Ok pr -> 0 <= perm < 256 ->
  ready_document (d_pdf (s_doc s)) rid ts fi xi ->
  Forall2 (source (w_inflate w) (objs (d_pdf (s_doc s)))) (flat_map leaves ts) srcs ->
  (forall c, In c (content_ids srcs) -> ~ In c (root (d_pdf (s_doc s)) :: rid :: flat_map tree_ids ts) /\ ~ page_object (flat_map leaves ts) fi c) ->
  (depth (Node rid ts) <= fuel)%nat -> 0 <= root (d_pdf (s_doc s)) -> blen F < 10 ^ 10 ->
  exists p' ins, locked_file F p' user owner /\ saved_document w s s' rid ts fi xi srcs p' ins.
Proof. intros w fuel ch cs log s s' F rid ts fi xi srcs pr rnd perm user owner Hh Hs Fr Pr Sp Hp OR Sr Ap Dp Rt Sm. eapply save_locked; eauto. eapply reached_names; eauto. Qed.
