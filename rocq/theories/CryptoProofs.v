(** Proofs about protection. *)
From Coq Require Import String List ZArith Lia Bool.
From Verif Require Import Base BaseProofs Output Props PropsSpec PdfData PagesSpec Crawl Inject PropsWrite PropsRead PropsNorm PropsRefs PagesProofs ContentSpec ContentProofs Md5Rc4 Crypto CryptoSpec.
Open Scope Z_scope.
Open Scope list_scope.

Lemma le_bytes_len : forall n x, List.length (le_bytes n x) = n.
Proof. induction n; intros; cbn [le_bytes List.length]; auto. Qed.

Lemma md5_len : forall s, List.length (md5 s) = 16%nat.
Proof.
  intros s. unfold md5. destruct (md5_blocks _ _ _) as [[[a b] c] d]. rewrite !app_length, !le_bytes_len. reflexivity.
Qed.

Lemma key_ok : forall n s, (1 <= n <= 16)%nat -> (1 <=? blen (firstn n (md5 s))) && (blen (firstn n (md5 s)) <=? 256) = true.
Proof. intros. unfold blen. rewrite firstn_length, md5_len. lia. Qed.

Lemma xor_twice : forall src i j s, xor_stream (xor_stream src i j s) i j s = src.
Proof.
  induction src as [|c src IH]; intros i j s; cbn [xor_stream]; [reflexivity|]. rewrite IH. f_equal.
  rewrite Z.lxor_assoc, Z.lxor_nilpotent, Z.lxor_0_r. reflexivity.
Qed.

Lemma xor_len : forall src i j s, List.length (xor_stream src i j s) = List.length src.
Proof. induction src; intros; cbn [xor_stream List.length]; auto. Qed.

Lemma rc4_twice : forall key s t, rc4 key s = Ok t -> rc4 key t = Ok s.
Proof.
  intros key s t H. unfold rc4 in *. destruct (_ && _); [|discriminate]. inversion H. rewrite xor_twice. reflexivity.
Qed.

Lemma rc4_len : forall key s t, rc4 key s = Ok t -> List.length t = List.length s.
Proof. intros key s t H. unfold rc4 in *. destruct (_ && _); [|discriminate]. inversion H. apply xor_len. Qed.

Lemma rc4_ok : forall n s x, (1 <= n <= 16)%nat -> exists t, rc4 (firstn n (md5 s)) x = Ok t.
Proof. intros. unfold rc4. rewrite key_ok by auto. eauto. Qed.

(** ** Passwords *)
Lemma padding_len : List.length protectionPadding = 32%nat. Proof. reflexivity. Qed.
Lemma padding_eq : protectionPadding = pdf_padding. Proof. reflexivity. Qed.

Lemma padded_len : forall pw, List.length (padded pw) = 32%nat.
Proof. intros. unfold padded. rewrite firstn_length, app_length. change (List.length pdf_padding) with 32%nat. lia. Qed.

Lemma padded_twice : forall pw, padded (padded pw) = padded pw.
Proof.
  intros. unfold padded at 1. rewrite firstn_app, padded_len, Nat.sub_diag, firstn_O, app_nil_r.
  apply firstn_all2. rewrite padded_len. lia.
Qed.

Lemma prot_range : forall perm, 0 <= perm < 256 -> 192 <= Z.lor 192 perm < 256.
Proof.
  intros perm H. split.
  - assert (Z.ldiff 192 (Z.lor 192 perm) = 0).
    { apply Z.bits_inj'. intros n Hn. rewrite Z.ldiff_spec, Z.lor_spec, Z.bits_0. destruct (Z.testbit 192 n); reflexivity. }
    apply Z.ldiff_le; [|auto]. apply Z.lor_nonneg. lia.
  - destruct (Z.eq_dec (Z.lor 192 perm) 0) as [E|E]; [rewrite E; lia|].
    assert (N : 0 <= Z.lor 192 perm) by (apply Z.lor_nonneg; lia).
    assert (Z.log2 (Z.lor 192 perm) < 8).
    { rewrite Z.log2_lor by lia. apply Z.max_lub_lt; [reflexivity|]. destruct (Z.eq_dec perm 0) as [->|]; [reflexivity|]. apply Z.log2_lt_pow2; lia. }
    apply (Z.log2_lt_pow2 (Z.lor 192 perm) 8); lia.
Qed.

Lemma lxor_255 : forall x, 0 <= x < 256 -> Z.lxor x 255 = 255 - x.
Proof.
  intros x H. assert (E : Z.lxor x 255 = Z.ldiff 255 x).
  { apply Z.bits_inj'. intros n Hn. rewrite Z.lxor_spec, Z.ldiff_spec. change 255 with (Z.ones 8).
    destruct (Z.lt_ge_cases n 8).
    - rewrite Z.ones_spec_low by lia. destruct (Z.testbit x n); reflexivity.
    - rewrite Z.ones_spec_high by lia. destruct (Z.eq_dec x 0) as [->|]; [rewrite Z.bits_0; reflexivity|].
      rewrite (Z.bits_above_log2 x n); [reflexivity|lia|]. assert (Z.log2 x < 8) by (apply Z.log2_lt_pow2; lia). lia. }
  rewrite E. rewrite <- Z.sub_nocarry_ldiff; [reflexivity|].
  apply Z.bits_inj'. intros n Hn. rewrite Z.ldiff_spec, Z.bits_0. change 255 with (Z.ones 8).
  destruct (Z.lt_ge_cases n 8).
  - rewrite Z.ones_spec_low by lia. apply andb_false_r.
  - destruct (Z.eq_dec x 0) as [->|]; [rewrite Z.bits_0; reflexivity|].
    rewrite (Z.bits_above_log2 x n); [reflexivity|lia|]. assert (Z.log2 x < 8) by (apply Z.log2_lt_pow2; lia). lia.
Qed.

Lemma p_value : forall perm, 0 <= perm < 256 ->
  - (Z.lxor (Z.lor 192 perm) 255 + 1) = Z.lor 192 perm - 256 /\
  p_bytes (Z.lor 192 perm - 256) = [Z.lor 192 perm mod 256; 255; 255; 255].
Proof.
  intros perm H. pose proof (prot_range perm H) as R. set (x := Z.lor 192 perm) in *. clearbody x.
  split; [rewrite lxor_255 by lia; lia|]. unfold p_bytes.
  replace ((x - 256) mod 2 ^ 32) with (x + 256 * 16777215).
  2:{ apply (Z.mod_unique _ _ (-1)); lia. }
  cbn [le_bytes].
  replace ((x + 256 * 16777215) mod 256) with (x mod 256) by (rewrite Z.mul_comm, Z_mod_plus_full; reflexivity).
  replace ((x + 256 * 16777215) / 256) with 16777215 by (rewrite Z.mul_comm, Z_div_plus_full by lia; rewrite Z.div_small by lia; reflexivity).
  reflexivity.
Qed.

Theorem passwords_open : forall rnd perm user owner, 0 <= perm < 256 ->
  exists pr, setProtection rnd perm user owner = Ok pr /\
    user_opens user (oValue pr) (uValue pr) (pValue pr) [] /\
    (owner <> [] -> owner_opens owner (oValue pr) (uValue pr) (pValue pr) []) /\
    encryptionKey pr = file_key user (oValue pr) (pValue pr) [] /\
    (exists pw, rc4 (firstn 5 (md5 (padded (match owner with [] => rnd | _ => owner end)))) (oValue pr) = Ok pw /\ pw = padded user) /\
    pValue pr = Z.lor 192 perm - 256 /\
    List.length (oValue pr) = 32%nat /\ List.length (uValue pr) = 32%nat.
Proof.
  intros rnd perm user owner H. unfold setProtection, generateEncryptionKey.
  destruct (p_value perm H) as (P1 & P2). rewrite P1. rewrite padding_eq.
  set (ow := match owner with [] => rnd | _ => owner end).
  fold (padded user). fold (padded ow).
  unfold createOValue. destruct (rc4_ok 5 (padded ow) (padded user)) as (o & Eo); [lia|]. rewrite Eo. cbn [bind].
  unfold createUValue. rewrite <- P2.
  assert (K : firstn 5 (md5 (padded user ++ o ++ p_bytes (Z.lor 192 perm - 256))) = file_key user o (Z.lor 192 perm - 256) []).
  { unfold file_key. rewrite app_nil_r. reflexivity. }
  rewrite K. unfold file_key at 1. rewrite padding_eq.
  destruct (rc4_ok 5 (padded user ++ o ++ p_bytes (Z.lor 192 perm - 256) ++ []) pdf_padding) as (u & Eu); [lia|].
  rewrite Eu. cbn [bind fst snd]. eexists. split; [reflexivity|]. cbn [oValue uValue pValue encryptionKey].
  assert (UO : user_opens user o u (Z.lor 192 perm - 256) []) by exact Eu.
  split; [exact UO|]. split.
  - intros Hne. assert (ow = owner) by (unfold ow; destruct owner; congruence). rewrite H0 in Eo.
    exists (padded user). split; [apply rc4_twice; auto|]. unfold user_opens, file_key. rewrite padded_twice. exact Eu.
  - split; [reflexivity|]. split; [exists (padded user); split; [apply rc4_twice; auto|reflexivity]|]. split; [reflexivity|].
    split; [apply rc4_len in Eo; rewrite Eo; apply padded_len|apply rc4_len in Eu; exact Eu].
Qed.

(** The bits of P. *)
Lemma low_bits : forall x i, 0 <= x < 256 -> 0 <= i < 32 ->
  Z.testbit ((x - 256) mod 2 ^ 32) i = (Z.testbit x i || (8 <=? i)).
Proof.
  intros x i H Hi. rewrite Z.mod_pow2_bits_low by lia. destruct (Z.leb_spec 8 i).
  - rewrite orb_true_r, Z.testbit_odd, Z.shiftr_div_pow2 by lia.
    assert (P : 256 <= 2 ^ i) by (change 256 with (2 ^ 8); apply Z.pow_le_mono_r; lia).
    replace ((x - 256) / 2 ^ i) with (-1); [reflexivity|]. apply (Z.div_unique _ _ _ (x - 256 + 2 ^ i)); lia.
  - rewrite orb_false_r. rewrite <- (Z.mod_pow2_bits_low (x - 256) 8) by lia. f_equal.
    symmetry. apply (Z.mod_unique _ _ (-1)); lia.
Qed.

Theorem permission_bits : forall perm i, 0 <= perm < 256 -> 0 <= i < 32 ->
  Z.testbit ((Z.lor 192 perm - 256) mod 2 ^ 32) i = (Z.testbit perm i || (6 <=? i)).
Proof.
  intros perm i H Hi. pose proof (prot_range perm H) as R. rewrite low_bits, Z.lor_spec by lia.
  destruct (Z.leb_spec 8 i); [rewrite !orb_true_r; replace (6 <=? i) with true by lia; rewrite orb_true_r; reflexivity|].
  rewrite orb_false_r, orb_comm. f_equal.
  assert (C : i = 0 \/ i = 1 \/ i = 2 \/ i = 3 \/ i = 4 \/ i = 5 \/ i = 6 \/ i = 7) by lia.
  repeat (destruct C as [->|C]; [reflexivity|]). subst. reflexivity.
Qed.

(** ** Literal strings *)
Definition esc1 (c : Z) : bytes :=
  if c =? 92 then [92; 92] else if c =? 40 then [92; 40] else if c =? 41 then [92; 41] else if c =? 13 then [92; 114] else [c].

Lemma escape_cons : forall c b, escape (c :: b) = esc1 c ++ escape b.
Proof.
  intros c b. unfold escape, replace1. cbn [flat_map].
  unfold esc1. destruct (Z.eqb_spec c 92) as [->|N1]; [cbn [app flat_map Z.eqb Pos.eqb]; reflexivity|].
  cbn [app flat_map]. destruct (Z.eqb_spec c 40) as [->|N2]; [cbn [app flat_map Z.eqb Pos.eqb]; reflexivity|].
  cbn [app flat_map]. destruct (Z.eqb_spec c 41) as [->|N3]; [cbn [app flat_map Z.eqb Pos.eqb]; reflexivity|].
  cbn [app flat_map]. destruct (Z.eqb_spec c 13) as [->|N4]; [cbn [app flat_map Z.eqb Pos.eqb]; reflexivity|].
  reflexivity.
Qed.

Theorem lit_escape : forall b rest, lit 0 (escape b ++ 41 :: rest) = Some (b, rest).
Proof.
  induction b as [|c b IH]; intros rest; [reflexivity|]. rewrite escape_cons, <- app_assoc. unfold esc1.
  destruct (Z.eqb_spec c 92) as [->|N1]; [cbn [app lit Z.eqb Pos.eqb octal Z.leb Z.compare Pos.compare Pos.compare_cont andb]; rewrite IH; reflexivity|].
  destruct (Z.eqb_spec c 40) as [->|N2]; [cbn [app lit Z.eqb Pos.eqb octal Z.leb Z.compare Pos.compare Pos.compare_cont andb]; rewrite IH; reflexivity|].
  destruct (Z.eqb_spec c 41) as [->|N3]; [cbn [app lit Z.eqb Pos.eqb octal Z.leb Z.compare Pos.compare Pos.compare_cont andb]; rewrite IH; reflexivity|].
  destruct (Z.eqb_spec c 13) as [->|N4]; [cbn [app lit Z.eqb Pos.eqb octal Z.leb Z.compare Pos.compare Pos.compare_cont andb]; rewrite IH; reflexivity|].
  cbn [app lit]. replace (c =? 41) with false by lia. replace (c =? 40) with false by lia. replace (c =? 13) with false by lia.
  replace (c =? 92) with false by lia. rewrite IH. reflexivity.
Qed.

Theorem dict_strings : forall pr, exists pre s1 s2 s3, enc_dict pr = pre ++ B"/O (" ++ s1 /\
  lit 0 s1 = Some (oValue pr, [10] ++ B"/U (" ++ s2) /\
  lit 0 s2 = Some (uValue pr, s3) /\ s3 = [10] ++ B"/P " ++ itoa (pValue pr) ++ [10] ++ B">>" ++ [10].
Proof.
  intros pr. unfold enc_dict. eexists (B"<<" ++ [10] ++ B"/Filter /Standard" ++ [10] ++ B"/V 1" ++ [10] ++ B"/R 2" ++ [10]), _, _, _.
  split; [rewrite <- !app_assoc; reflexivity|]. split; [apply lit_escape|]. split; [apply lit_escape|reflexivity].
Qed.

(** ** Streams *)
Lemma objectkey_spec : forall pr n, 0 <= n -> objectkey pr n = object_key (encryptionKey pr) n 0.
Proof.
  intros pr n H. unfold objectkey, object_key. do 3 f_equal.
  cbn [le_bytes firstn app]. change (0 / 256) with 0. change (0 mod 256) with 0.
  rewrite !Z.div_div by lia. change (256 * 256) with 65536.
  assert (E : forall k, 0 <= k <= 2 -> (n mod 2 ^ 32) / 256 ^ k mod 256 = n / 256 ^ k mod 256).
  { intros k Hk. assert (P : 0 < 256 ^ k) by (apply Z.pow_pos_nonneg; lia).
    assert (Q : 2 ^ 32 = 256 ^ k * 256 ^ (4 - k)) by (rewrite <- Z.pow_add_r by lia; replace (k + (4 - k)) with 4 by lia; reflexivity).
    rewrite (Z.div_mod n (2 ^ 32)) at 2 by lia. rewrite Q at 2.
    rewrite <- Z.mul_assoc, (Z.mul_comm (256 ^ k)), Z.div_add_l by lia.
    replace (256 ^ (4 - k) * (n / 2 ^ 32)) with (256 ^ (3 - k) * (n / 2 ^ 32) * 256).
    2:{ replace (4 - k) with (1 + (3 - k)) by lia. rewrite Z.pow_add_r by lia. change (256 ^ 1) with 256. ring. }
    rewrite (Z.add_comm (_ * 256)), Z_mod_plus_full. reflexivity. }
  pose proof (E 0 ltac:(lia)) as E0. pose proof (E 1 ltac:(lia)) as E1. pose proof (E 2 ltac:(lia)) as E2.
  change (256 ^ 0) with 1 in E0. change (256 ^ 1) with 256 in E1. change (256 ^ 2) with 65536 in E2.
  rewrite !Z.div_1_r in E0. rewrite E0, E1, E2. reflexivity.
Qed.

Lemma trim_left_all : forall cut a s, forallb cut a = true -> trim_left_set cut (a ++ s) = trim_left_set cut s.
Proof.
  intros cut. induction a as [|x a IH]; intros s H; [reflexivity|]. cbn [forallb] in H. apply andb_true_iff in H. destruct H.
  cbn [app trim_left_set]. rewrite H. auto.
Qed.

Lemma trim_set_frame : forall cut a s b, forallb cut a = true -> forallb cut b = true ->
  (s = [] \/ (exists x t, s = x :: t /\ cut x = false) /\ (exists t x, s = t ++ [x] /\ cut x = false)) ->
  trim_set cut (a ++ s ++ b) = s.
Proof.
  intros cut a s b Ha Hb H. unfold trim_set. rewrite trim_left_all by auto.
  assert (Hb' : forallb cut (rev b) = true).
  { rewrite forallb_forall in *. intros x Hx. apply Hb. apply in_rev. auto. }
  destruct H as [->|((x & t & E & Hx) & (t' & x' & E' & Hx'))].
  - cbn [app]. assert (trim_left_set cut b = []) as ->.
    { rewrite <- (app_nil_r b), trim_left_all by auto. reflexivity. }
    reflexivity.
  - assert (trim_left_set cut (s ++ b) = s ++ b) as ->.
    { rewrite E. cbn [app trim_left_set]. rewrite Hx. reflexivity. }
    rewrite rev_app_distr, trim_left_all by auto. rewrite E', rev_app_distr. cbn [rev app trim_left_set]. rewrite Hx'.
    cbn [rev]. rewrite rev_involutive. reflexivity.
Qed.

Lemma bare_trim : forall s, bare s -> forall cut, (forall x, cut x = true -> x = 13 \/ x = 10) ->
  s = [] \/ (exists x t, s = x :: t /\ cut x = false) /\ (exists t x, s = t ++ [x] /\ cut x = false).
Proof.
  intros s H cut Hc. destruct H as [H|((x & t & E & N1 & N2) & (t' & x' & E' & M1 & M2))]; [auto|right]. split.
  - exists x, t. split; [auto|]. destruct (cut x) eqn:C; auto. apply Hc in C. lia.
  - exists t', x'. split; [auto|]. destruct (cut x') eqn:C; auto. apply Hc in C. lia.
Qed.

Lemma body_trim : forall eol raw eol', crlf_only eol -> crlf_only eol' -> bare raw ->
  trim_set (fun c => c =? 10) (trim_set is_crlf (eol ++ raw ++ eol')) = raw.
Proof.
  intros eol raw eol' H1 H2 HB.
  assert (C : forall a, crlf_only a -> forallb is_crlf a = true).
  { intros a Ha. apply forallb_forall. intros x Hx. unfold crlf_only in Ha. rewrite Forall_forall in Ha. apply Ha in Hx. unfold is_crlf. lia. }
  rewrite trim_set_frame; auto.
  - rewrite <- (app_nil_r raw) at 1. change (raw ++ []) with ([] ++ raw ++ []). apply trim_set_frame; auto.
    apply (bare_trim raw HB). intros; lia.
  - apply (bare_trim raw HB). unfold is_crlf. intros; lia.
Qed.

Lemma stream_index : forall d head rest, d = head ++ B"stream" ++ rest -> before_stream d head -> index (B"stream") d = Some (List.length head).
Proof.
  intros d head rest E BS. destruct BS as [(-> & X)|(rest' & E2 & Min)].
  - exfalso. eapply X. rewrite E at 1. reflexivity.
  - apply index_intro.
    + exists head, rest'. split; [exact E2|reflexivity].
    + intros m Hm (a & b & Ea & La). apply Min in Ea. lia.
Qed.

(** [body] is what lies between the first "stream" and the last "endstream". *)
Lemma encrypt_eq : forall pr o head body tail, odata o = head ++ B"stream" ++ body ++ B"endstream" ++ tail ->
  before_stream (odata o) head ->
  (forall a b, odata o = a ++ B"endstream" ++ b -> (List.length a <= List.length head + 6 + List.length body)%nat) ->
  exists c, rc4 (objectkey pr (oid o)) (trim_set (fun c => c =? 10) (trim_set is_crlf body)) = Ok c /\
    encrypt pr o = Ok (mkObj (oid o) (head ++ B"stream" ++ [10] ++ c ++ [10] ++ B"endstream")).
Proof.
  intros pr o head body tail E BS Last. unfold encrypt. rewrite (stream_index _ _ _ E BS).
  assert (L : last_index (B"endstream") (odata o) = Some (List.length (head ++ B"stream" ++ body))).
  { apply last_index_intro.
    - exists (head ++ B"stream" ++ body), tail. split; [rewrite E, <- !app_assoc; reflexivity|reflexivity].
    - intros m Hm (a & b & Ea & La). apply Last in Ea. rewrite !app_length in Hm. cbn [List.length bytes_of_string] in Hm. lia. }
  rewrite L.
  assert (S : slice (odata o) (Z.of_nat (List.length head) + 6) (Z.of_nat (List.length (head ++ B"stream" ++ body))) = Ok body).
  { rewrite E. replace (head ++ B"stream" ++ body ++ B"endstream" ++ tail) with ((head ++ B"stream") ++ body ++ (B"endstream" ++ tail))
      by (rewrite <- !app_assoc; reflexivity).
    apply slice_app; unfold blen; rewrite !app_length; cbn [List.length bytes_of_string]; lia. }
  rewrite S. cbn [bind]. unfold objectkey at 1.
  destruct (rc4_ok 10 (encryptionKey pr ++ firstn 3 (le_bytes 4 (oid o mod 2 ^ 32)) ++ [0; 0])
    (trim_set (fun c => c =? 10) (trim_set is_crlf body))) as (c & Ec); [lia|].
  exists c. split; [exact Ec|]. fold (objectkey pr (oid o)) in *. rewrite Ec. cbn [bind].
  rewrite E, firstn_app, firstn_all, Nat.sub_diag, firstn_O, app_nil_r. reflexivity.
Qed.

Theorem stream_decrypts : forall pr o head eol raw eol' tail, 0 <= oid o ->
  odata o = head ++ B"stream" ++ eol ++ raw ++ eol' ++ B"endstream" ++ tail ->
  before_stream (odata o) head -> crlf_only eol -> crlf_only eol' -> bare raw ->
  (forall a b, odata o = a ++ B"endstream" ++ b -> (List.length a <= List.length (head ++ B"stream" ++ eol ++ raw ++ eol'))%nat) ->
  exists c, encrypt pr o = Ok (mkObj (oid o) (head ++ B"stream" ++ [10] ++ c ++ [10] ++ B"endstream")) /\
    rc4 (object_key (encryptionKey pr) (oid o) 0) c = Ok raw /\ List.length c = List.length raw.
Proof.
  intros pr o head eol raw eol' tail H E BS H1 H2 HB Last.
  destruct (encrypt_eq pr o head (eol ++ raw ++ eol') tail) as (c & Ec & En).
  - rewrite E, <- !app_assoc. reflexivity.
  - auto.
  - intros a b Hab. apply Last in Hab. rewrite !app_length in *. cbn [List.length bytes_of_string] in Hab. lia.
  - rewrite body_trim in Ec by auto. exists c. split; [exact En|]. rewrite objectkey_spec in Ec by auto.
    split; [apply rc4_twice; auto|eapply rc4_len; eauto].
Qed.

Theorem no_stream_kept : forall pr o, (forall a b, odata o <> a ++ B"stream" ++ b) -> encrypt pr o = Ok o.
Proof.
  intros pr o H. unfold encrypt. destruct (index (B"stream") (odata o)) as [n|] eqn:I; [|reflexivity].
  apply index_some in I. destruct I as ((a & b & E & _) & _). exfalso. eapply H; eauto.
Qed.

(** A content stream that ends with a newline, as those the library writes do. *)
Lemma trim_left_len : forall cut s, (List.length (trim_left_set cut s) <= List.length s)%nat.
Proof. intros cut. induction s as [|c s IH]; cbn [trim_left_set]; auto. destruct (cut c); cbn [List.length]; lia. Qed.

Lemma trim_set_len : forall cut s, (List.length (trim_set cut s) <= List.length s)%nat.
Proof. intros. unfold trim_set. rewrite rev_length. etransitivity; [apply trim_left_len|]. rewrite rev_length. apply trim_left_len. Qed.

Lemma trim_set_last : forall cut s x, cut x = true -> (List.length (trim_set cut (s ++ [x])) <= List.length s)%nat.
Proof.
  intros cut s x H. unfold trim_set. rewrite rev_length.
  assert (C : exists t, trim_left_set cut (s ++ [x]) = t ++ [x] /\ (List.length t <= List.length s)%nat \/ trim_left_set cut (s ++ [x]) = []).
  { induction s as [|c s IH]; cbn [app trim_left_set].
    - rewrite H. exists []. auto.
    - destruct (cut c).
      + destruct IH as (t & [(E & L)|E]); exists t; [left|right]; [split; [auto|cbn; lia]|auto].
      + exists (c :: s). left. split; [reflexivity|auto]. }
  destruct C as (t & [(-> & L)| ->]); [|cbn; lia]. rewrite rev_app_distr. cbn [rev app trim_left_set]. rewrite H.
  etransitivity; [apply trim_left_len|]. rewrite rev_length. auto.
Qed.

Theorem newline_lost : forall pr id s, exists c head o',
  encrypt pr (mkObj id (content_object (s ++ [10]))) = Ok o' /\
  odata o' = head ++ B"stream" ++ [10] ++ c ++ [10] ++ B"endstream" /\
  (forall x, In x head -> x <> 115) /\
  readProperties (odata o') = Ok [mkProp (B"Length") (itoa (blen (s ++ [10])))] /\ blen c < blen (s ++ [10]).
Proof.
  intros pr id s.
  set (head := B"<<" ++ ([10] ++ B"/Length " ++ itoa (blen (s ++ [10])) ++ [10]) ++ B">>" ++ [10]).
  assert (E : content_object (s ++ [10]) = head ++ B"stream" ++ [10] ++ (s ++ [10]) ++ B"endstream").
  { unfold content_object, head. rewrite <- !app_assoc. reflexivity. }
  assert (Hs : Forall (fun c => c <> 115) head).
  { unfold head. rewrite !Forall_app. repeat split; try chars. eapply Forall_impl; [|apply itoa_chars]. unfold num_char. cbn beta. intros. lia. }
  assert (BS : before_stream (content_object (s ++ [10])) head).
  { right. exists ([10] ++ (s ++ [10]) ++ B"endstream"). split; [exact E|]. intros a b H.
    destruct (Nat.le_gt_cases (List.length head) (List.length a)) as [L|L]; auto. exfalso. rewrite E in H.
    apply (no_occ_start 115 (B"tream") head (B"stream" ++ [10] ++ (s ++ [10]) ++ B"endstream") (List.length a) Hs L).
    exists a, b. split; [exact H|reflexivity]. }
  destruct (encrypt_eq pr (mkObj id (content_object (s ++ [10]))) head ([10] ++ s ++ [10]) []) as (c & Ec & En).
  - cbn [odata]. rewrite E, app_nil_r, <- !app_assoc. reflexivity.
  - exact BS.
  - intros a b H. cbn [odata] in H. rewrite E in H. apply (f_equal (@List.length Z)) in H.
    rewrite !app_length in H. cbn [List.length bytes_of_string] in H. rewrite !app_length. cbn [List.length]. lia.
  - exists c, head. eexists. split; [exact En|]. cbn [odata]. split; [reflexivity|]. split; [rewrite <- Forall_forall; exact Hs|]. split.
    + pose proof (read_length (blen (s ++ [10])) (B"stream" ++ [10] ++ c ++ [10] ++ B"endstream")) as R.
      unfold head. rewrite <- !app_assoc in *. apply R. eauto.
    + apply rc4_len in Ec. unfold blen. rewrite app_length. cbn [List.length].
      assert (List.length c <= List.length s)%nat; [|lia]. rewrite Ec.
      etransitivity; [apply trim_set_len|].
      assert (T : trim_set is_crlf ([10] ++ s ++ [10]) = trim_set is_crlf (s ++ [10])).
      { unfold trim_set. rewrite trim_left_all by reflexivity. reflexivity. }
      rewrite T. apply trim_set_last. reflexivity.
Qed.
