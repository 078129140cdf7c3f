(** C34, C35, C36, C50: protection. *)
From Coq Require Import String List ZArith Lia Bool.
From Verif Require Import Base BaseProofs Output Props PropsSpec PdfData PagesSpec Crawl Inject ContentSpec ContentProofs Md5Rc4 Crypto CryptoSpec CryptoProofs.
Open Scope Z_scope.
Open Scope list_scope.

(** The two algorithms from outside the repository, on published test vectors. *)
Example md5_empty : md5 [] = [212; 29; 140; 217; 143; 0; 178; 4; 233; 128; 9; 152; 236; 248; 66; 126].
Proof. vm_compute. reflexivity. Qed.
Example md5_abc : md5 (B"abc") = [144; 1; 80; 152; 60; 210; 79; 176; 214; 150; 63; 125; 40; 225; 127; 114].
Proof. vm_compute. reflexivity. Qed.
Example rc4_key : rc4 (B"Key") (B"Plaintext") = Ok [187; 243; 22; 232; 217; 64; 175; 10; 211].
Proof. vm_compute. reflexivity. Qed.
Example rc4_wiki : rc4 (B"Wiki") (B"pedia") = Ok [16; 33; 191; 4; 32].
Proof. vm_compute. reflexivity. Qed.

(** A protection made by the library, for the samples. *)
Definition sample_pr : protection :=
  match setProtection [] 4 (B"user") (B"owner") with Ok pr => pr | _ => mkProt [] [] 0 [] end.

(** ** C34 *)

(** The full claim: every object holding a stream keeps the stream's bytes up
    to encryption, and so the length.  It fails for streams that begin or end
    with CR or LF; this is the claim for all others: [head] is what precedes the
    first "stream", [raw] the stream's bytes between two line ends, and nothing
    after the last "endstream" is kept. *)
Theorem C34_decrypts_partial : forall pr o head eol raw eol' tail, 0 <= oid o ->
  odata o = head ++ B"stream" ++ eol ++ raw ++ eol' ++ B"endstream" ++ tail ->
  before_stream (odata o) head -> crlf_only eol -> crlf_only eol' -> bare raw ->
  (forall a b, odata o = a ++ B"endstream" ++ b -> (List.length a <= List.length (head ++ B"stream" ++ eol ++ raw ++ eol'))%nat) ->
  exists c, encrypt pr o = Ok (mkObj (oid o) (head ++ B"stream" ++ [10] ++ c ++ [10] ++ B"endstream")) /\
    rc4 (object_key (encryptionKey pr) (oid o) 0) c = Ok raw /\ List.length c = List.length raw.
Proof. exact stream_decrypts. Qed.

(** An object without a stream is not touched. *)
Theorem C34_others_kept : forall pr o, (forall a b, odata o <> a ++ B"stream" ++ b) -> encrypt pr o = Ok o.
Proof. exact no_stream_kept. Qed.

(** The content streams the library itself writes end with a newline: the
    encrypted stream is then shorter than the declared length, for every
    protection and content. *)
Theorem C34_trailing_newline_refuted : forall pr id s, exists c head o',
  encrypt pr (mkObj id (content_object (s ++ [10]))) = Ok o' /\
  odata o' = head ++ B"stream" ++ [10] ++ c ++ [10] ++ B"endstream" /\
  (forall x, In x head -> x <> 115) /\
  readProperties (odata o') = Ok [mkProp (B"Length") (itoa (blen (s ++ [10])))] /\ blen c < blen (s ++ [10]).
Proof. exact newline_lost. Qed.

(** The word "stream" in a string is enough for a panic. *)
Theorem C34_word_stream_refuted : exists o, index (B"endstream") (odata o) = None /\ forall pr, encrypt pr o = Panic.
Proof. exists (mkObj 5 (B"<< /Title (Main stream) >>")). split; [vm_compute; reflexivity|]. intros. reflexivity. Qed.

Example C34_case : exists c,
  encrypt sample_pr (mkObj 7 (B"<< /Length 3 >>stream" ++ [13; 10] ++ B"abc" ++ [10] ++ B"endstream"))
  = Ok (mkObj 7 (B"<< /Length 3 >>stream" ++ [10] ++ c ++ [10] ++ B"endstream"))
  /\ c = [195; 115; 157] /\ rc4 (object_key (encryptionKey sample_pr) 7 0) c = Ok (B"abc").
Proof. exists [195; 115; 157]. vm_compute. repeat split. Qed.

(** ** C35 *)

(** Permissions that fit in eight bits: the two passwords open the file by the
    reader's algorithms (no file identifier: the trailer has none), and without
    an owner password the random one does. *)
Theorem C35_passwords_partial : forall rnd perm user owner, 0 <= perm < 256 ->
  exists pr, setProtection rnd perm user owner = Ok pr /\
    user_opens user (oValue pr) (uValue pr) (pValue pr) [] /\
    (owner <> [] -> owner_opens owner (oValue pr) (uValue pr) (pValue pr) []) /\
    encryptionKey pr = file_key user (oValue pr) (pValue pr) [] /\
    (exists pw, rc4 (firstn 5 (md5 (padded (match owner with [] => rnd | _ => owner end)))) (oValue pr) = Ok pw /\ pw = padded user) /\
    pValue pr = Z.lor 192 perm - 256 /\
    List.length (oValue pr) = 32%nat /\ List.length (uValue pr) = 32%nat.
Proof. exact passwords_open. Qed.

(** Bit by bit: the asked permissions, and the bits a reader wants set. *)
Theorem C35_permission_bits : forall perm i, 0 <= perm < 256 -> 0 <= i < 32 ->
  Z.testbit ((Z.lor 192 perm - 256) mod 2 ^ 32) i = (Z.testbit perm i || (6 <=? i)).
Proof. exact permission_bits. Qed.

(** Permissions beyond eight bits: the user password does not open the file. *)
Theorem C35_large_permission_refuted : exists perm pr, 256 <= perm /\ setProtection [] perm (B"user") (B"owner") = Ok pr /\
  ~ user_opens (B"user") (oValue pr) (uValue pr) (pValue pr) [].
Proof.
  exists 260. eexists. split; [lia|]. split; [vm_compute; reflexivity|]. unfold user_opens. vm_compute. discriminate.
Qed.

Example C35_case : exists pr, setProtection [] 4 (B"user") (B"owner") = Ok pr /\ pValue pr = -60 /\
  user_opens (B"user") (oValue pr) (uValue pr) (pValue pr) [] /\ owner_opens (B"owner") (oValue pr) (uValue pr) (pValue pr) [] /\
  ~ user_opens (B"User") (oValue pr) (uValue pr) (pValue pr) [].
Proof.
  exists sample_pr. split; [vm_compute; reflexivity|]. split; [vm_compute; reflexivity|]. split; [vm_compute; reflexivity|].
  split; [|unfold user_opens; vm_compute; discriminate].
  exists (padded (B"user")). split; vm_compute; reflexivity.
Qed.

(** ** C36 *)

(** Any bytes survive being written as a literal string. *)
Theorem C36_literal : forall b rest, lit 0 (escape b ++ 41 :: rest) = Some (b, rest).
Proof. exact lit_escape. Qed.

(** In the dictionary that is written. *)
Theorem C36_dictionary : forall pr, exists pre s1 s2 s3, enc_dict pr = pre ++ B"/O (" ++ s1 /\
  lit 0 s1 = Some (oValue pr, [10] ++ B"/U (" ++ s2) /\
  lit 0 s2 = Some (uValue pr, s3) /\ s3 = [10] ++ B"/P " ++ itoa (pValue pr) ++ [10] ++ B">>" ++ [10].
Proof. exact dict_strings. Qed.

Example C36_case : lit 0 (escape [92; 40; 41; 13; 10; 110; 0; 255; 92] ++ B")x") = Some ([92; 40; 41; 13; 10; 110; 0; 255; 92], B"x").
Proof. vm_compute. reflexivity. Qed.

(** ** C50: strings outside streams are left as they are, so that a reader, who
    decrypts them, sees other bytes. *)
Theorem C50_strings_refuted : exists o pr s, setProtection [] 4 (B"user") (B"owner") = Ok pr /\
  odata o = B"<< /Title (" ++ s ++ B") >>" /\ encrypt pr o = Ok o /\
  rc4 (object_key (encryptionKey pr) (oid o) 0) s <> Ok s.
Proof.
  exists (mkObj 5 (B"<< /Title (abc) >>")), sample_pr, (B"abc"). split; [vm_compute; reflexivity|].
  split; [reflexivity|]. split; [reflexivity|]. vm_compute. discriminate.
Qed.

Print Assumptions C34_decrypts_partial.
Print Assumptions C34_others_kept.
Print Assumptions C34_trailing_newline_refuted.
Print Assumptions C34_word_stream_refuted.
Print Assumptions C35_passwords_partial.
Print Assumptions C35_permission_bits.
Print Assumptions C35_large_permission_refuted.
Print Assumptions C36_literal.
Print Assumptions C36_dictionary.
Print Assumptions C50_strings_refuted.
