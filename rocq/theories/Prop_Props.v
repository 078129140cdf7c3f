(** C06, C17 (dictionary part), C47. *)
From Coq Require Import String List ZArith Lia Bool.
From Verif Require Import Base Props PropsSpec PropsFlat PropsFinal.
Open Scope Z_scope.
Open Scope list_scope.

(** C06.  Full statement: for every byte string, reading the entries, writing
    them back and reading again gives the same entries.  It is false (see the
    two witnesses); proved for every object whose dictionary is ASCII and has no
    angle bracket standing alone between white space. *)
Theorem C06_rewrite_keeps_entries_partial : forall raw head ps,
  before_stream raw head -> is_ascii head -> no_lone_angle head ->
  readProperties raw = Ok ps -> readProperties (setProperties ps) = Ok ps.
Proof. exact rewrite_keeps. Qed.
Print Assumptions C06_rewrite_keeps_entries_partial.

Theorem C06_lookup_after_rewrite_partial : forall raw head ps k,
  before_stream raw head -> is_ascii head -> no_lone_angle head ->
  readProperties raw = Ok ps -> readProperty (setProperties ps) k = readProperty raw k.
Proof. exact rewrite_lookup. Qed.
Print Assumptions C06_lookup_after_rewrite_partial.

Example C06_sample :
  let raw := B"<< /Type /Page /MediaBox [ 0 0  612 792 ] /Resources << /Font << /F1 3 0 R >> >> /Length 3 >> stream abc endstream" in
  before_stream raw (firstn 94 raw) /\ is_ascii (firstn 94 raw) /\
  readProperties raw = Ok [mkProp (B"Type") []; mkProp (B"Page") [];
    mkProp (B"MediaBox") (B"[ 0 0 612 792]"); mkProp (B"Resources") (B"<</Font<</F1 3 0 R>>>>");
    mkProp (B"Length") (B"3")].
Proof.
  split; [|split; [|reflexivity]].
  - apply before_stream_index. reflexivity.
  - apply Forall_forall. intros c Hc. vm_compute in Hc. repeat destruct Hc as [<-|Hc]; lia.
Qed.

(** A byte above 127 is written back as two bytes. *)
Theorem C06_non_ascii_refuted : exists raw ps ps',
  readProperties raw = Ok ps /\ readProperties (setProperties ps) = Ok ps' /\ ps' <> ps.
Proof.
  exists (B"<</T (" ++ [233] ++ B")>>"), [mkProp (B"T") (40 :: [195; 169] ++ B")")],
    [mkProp (B"T") (40 :: [195; 131; 194; 169] ++ B")")].
  repeat split; try reflexivity. discriminate.
Qed.
Print Assumptions C06_non_ascii_refuted.

(** A lone angle bracket is glued to the next one. *)
Theorem C06_lone_angle_refuted : exists raw ps ps',
  is_ascii raw /\ readProperties raw = Ok ps /\ readProperties (setProperties ps) = Ok ps' /\ ps' <> ps.
Proof.
  exists (B"<</A > >>/B 1>>"), [mkProp (B"A") (B">>>/B 1")],
     [mkProp (B"A>>>") []; mkProp (B"B") (B"1")].
  repeat split; try reflexivity; try discriminate.
  apply Forall_forall. intros c Hc. vm_compute in Hc. repeat destruct Hc as [<-|Hc]; try lia.
Qed.
Print Assumptions C06_lone_angle_refuted.

(** White space inside a string value is changed by reading. *)
Theorem C06_string_space_refuted : exists raw,
  is_ascii raw /\ readProperties raw = Ok [mkProp (B"T") (B"(a b)")] /\ raw = B"<</T (a  b)>>".
Proof.
  exists (B"<</T (a  b)>>"). repeat split; try reflexivity.
  apply Forall_forall. intros c Hc. vm_compute in Hc. repeat destruct Hc as [<-|Hc]; try lia.
Qed.
Print Assumptions C06_string_space_refuted.

(** C17, dictionary reader: entries or an error on every byte string. *)
Theorem C17_dictionary_reader_total : forall raw,
  (exists ps, readProperties raw = Ok ps) \/ readProperties raw = Err EOther.
Proof. exact readProperties_total. Qed.
Print Assumptions C17_dictionary_reader_total.

Example C17_sample : readProperties (B"<< /A [ << >") = Err EOther /\
  exists ps, readProperties (B"<< /A [ (( >>") = Ok ps.
Proof. split; [reflexivity|eexists; reflexivity]. Qed.

(** C47 *)
Theorem C47_decimal : forall n, is_int n -> atoi (itoa n) = Ok n.
Proof. exact decimal_roundtrip. Qed.
Print Assumptions C47_decimal.

Theorem C47_no_surprises : forall n, 0 <= n ->
  Forall (fun c => 48 <= c <= 57) (itoa n) /\ (forall t, itoa n = 48 :: t -> n = 0 /\ t = []).
Proof. exact no_leading_zero. Qed.
Print Assumptions C47_no_surprises.

Theorem C47_padded : forall n w, 0 <= n < 2 ^ 63 -> (0 < w)%nat -> atoi (pad0 w (utoa n)) = Ok n.
Proof. exact padded_roundtrip. Qed.
Print Assumptions C47_padded.

Theorem C47_reference : forall id, is_int id -> readObjID (refText id) = Ok id.
Proof. exact ref_roundtrip. Qed.
Print Assumptions C47_reference.

Theorem C47_references : forall ids, ids <> [] -> Forall is_int ids -> readObjIDs (refArrText ids) = Ok ids.
Proof. exact refs_roundtrip. Qed.
Print Assumptions C47_references.

Example C47_sample : atoi (itoa 1234567890123) = Ok 1234567890123 /\ refArrText [5; 16] = B"[5 0 R 16 0 R ]"
  /\ readObjIDs (B"[5 0 R 16 0 R ]") = Ok [5; 16] /\ readObjIDs (refArrText []) = Err EOther.
Proof. repeat split; reflexivity. Qed.
