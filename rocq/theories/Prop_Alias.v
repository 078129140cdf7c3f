(** C83: passwords handed over as slices. *)
From Coq Require Import String List ZArith Lia Bool.
From Verif Require Import Base Crypto CryptoSpec Alias AliasSpec AliasProofs.
Open Scope Z_scope.
Open Scope list_scope.

(** The full claim: for all slices, the protection is the one of the bytes the
    slices hold, and no byte of the caller changes.  Missing here: slices where
    the 32 bytes behind one are read through the other; the claim fails there. *)
Theorem C83_values_partial : forall g1 g2 m rnd perm user owner, valid m user -> valid m owner ->
  ~ spoils user owner (s_len owner) -> ~ spoils owner user 32 ->
  snd (protect_mem g1 g2 m rnd perm user owner) = setProtection rnd perm (view m user) (view m owner).
Proof. exact protect_apart. Qed.

(** The same slice for both passwords is no problem. *)
Theorem C83_same : forall g1 g2 m rnd perm pw, valid m pw ->
  snd (protect_mem g1 g2 m rnd perm pw pw) = setProtection rnd perm (view m pw) (view m pw).
Proof. exact protect_same. Qed.

(** The user password right behind the owner password, with room for the padding:
    whatever the passwords are, the file opens without any. *)
Theorem C83_open_to_all_refuted : forall g1 g2 m rnd perm user owner, 0 <= perm < 256 -> valid m user -> valid m owner ->
  behind owner user -> roomy owner -> roomy user -> s_len owner <> 0%nat ->
  exists pr, snd (protect_mem g1 g2 m rnd perm user owner) = Ok pr /\
    user_opens [] (oValue pr) (uValue pr) (pValue pr) [] /\ owner_opens (view m owner) (oValue pr) (uValue pr) (pValue pr) [].
Proof. exact protect_behind. Qed.

Example C83_open_case : valid [buf] (sl 4 5) /\ valid [buf] (sl 0 4) /\ behind (sl 0 4) (sl 4 5) /\ roomy (sl 0 4) /\ roomy (sl 4 5) /\
  view [buf] (sl 4 5) = B"owner" /\
  exists pr, snd (protect_mem 0 0 [buf] [] 4 (sl 4 5) (sl 0 4)) = Ok pr /\ user_opens [] (oValue pr) (uValue pr) (pValue pr) [] /\
    ~ user_opens (B"owner") (oValue pr) (uValue pr) (pValue pr) [].
Proof.
  split; [apply sl_valid; lia|]. split; [apply sl_valid; lia|]. split; [split; reflexivity|]. split; [unfold roomy; cbn; lia|]. split; [unfold roomy; cbn; lia|].
  split; [reflexivity|]. eexists. split; [vm_compute; reflexivity|]. split; [vm_compute; reflexivity|]. unfold user_opens. vm_compute. discriminate.
Qed.

(** The other way round neither password opens the file. *)
Theorem C83_locked_out_refuted : exists m user owner pr, valid m user /\ valid m owner /\ behind user owner /\
  view m user = B"user" /\ view m owner = B"owner" /\ snd (protect_mem 0 0 m [] 4 user owner) = Ok pr /\
  ~ user_opens (B"user") (oValue pr) (uValue pr) (pValue pr) [] /\ ~ owner_opens (B"owner") (oValue pr) (uValue pr) (pValue pr) [].
Proof.
  exists [buf], (sl 0 4), (sl 4 5). eexists. split; [apply sl_valid; lia|]. split; [apply sl_valid; lia|]. split; [split; reflexivity|].
  split; [reflexivity|]. split; [reflexivity|]. split; [vm_compute; reflexivity|]. split; [unfold user_opens; vm_compute; discriminate|].
  intros (pw & E & H). revert H. vm_compute in E. injection E as <-. unfold user_opens. vm_compute. discriminate.
Qed.

(** The bytes that may change are the 32 behind a password, and only if they belong
    to its capacity. *)
Theorem C83_memory_partial : forall g1 g2 m rnd perm user owner k i, valid m user -> valid m owner -> (k < List.length m)%nat ->
  ~ spare user k i -> ~ spare owner k i -> cell (fst (protect_mem g1 g2 m rnd perm user owner)) k i = cell m k i.
Proof. exact protect_cells. Qed.

(** They do change: a password at the start of a longer text. *)
Theorem C83_memory_refuted : exists m user owner k i, valid m user /\ valid m owner /\
  cell m k i <> cell (fst (protect_mem 0 0 m [] 4 user owner)) k i.
Proof.
  exists [buf; B"secret"], (sl 0 4), (mkSlice 1 0 6 6), 0%nat, 4%nat. split; [exact (valid_more [buf] _ _ (sl_valid 0 4 ltac:(lia)))|].
  split; [unfold valid; cbn; lia|]. vm_compute. discriminate.
Qed.

Example C83_case : exists m user owner, valid m user /\ valid m owner /\ roomy user /\ ~ roomy owner /\
  ~ spoils user owner (s_len owner) /\ ~ spoils owner user 32 /\
  snd (protect_mem 3 7 m [] 4 user owner) = setProtection [] 4 (B"user") (B"secret") /\
  fst (protect_mem 3 7 m [] 4 user owner) <> m.
Proof.
  exists [buf; B"secret"], (sl 0 4), (mkSlice 1 0 6 6). split; [exact (valid_more [buf] _ _ (sl_valid 0 4 ltac:(lia)))|].
  split; [unfold valid; cbn; lia|]. split; [unfold roomy; cbn; lia|]. split; [unfold roomy; cbn; lia|].
  split; [intros (i & (H & _) & _); discriminate|]. split; [intros (i & (H & _) & _); discriminate|].
  split; [vm_compute; reflexivity| vm_compute; discriminate].
Qed.

Print Assumptions C83_values_partial.
Print Assumptions C83_same.
Print Assumptions C83_open_to_all_refuted.
Print Assumptions C83_locked_out_refuted.
Print Assumptions C83_memory_partial.
Print Assumptions C83_memory_refuted.
