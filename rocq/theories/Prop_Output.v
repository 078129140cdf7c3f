(** C01, C02, C03: the cross-reference table of a saved file. *)
From Coq Require Import String List ZArith Lia Bool.
From Verif Require Import Base Output OutputSpec OutputProofs.
Open Scope Z_scope.
Open Scope list_scope.

(** C01 *)
Theorem C01_xref_offsets : forall objs lastID root enObj,
  let F := toStream objs lastID root enObj in
  0 <= lastID -> blen F < 10 ^ 10 ->
  exists xoff N base,
    startxref_is F xoff /\ xref_section F xoff N base /\
    forall pre o post, saved objs lastID enObj = pre ++ o :: post ->
      1 <= oid o < N -> Forall (fun o' => oid o' <> oid o) post ->
      exists off, row_at F base (oid o) off 0 110 /\ object_at F off (oid o) (trim_space (odata o)).
Proof. exact xref_offsets. Qed.
Print Assumptions C01_xref_offsets.

(** C02 *)
Theorem C02_xref_shape : forall objs lastID root enObj,
  let F := toStream objs lastID root enObj in
  0 <= lastID -> blen F < 10 ^ 10 -> 0 <= root ->
  (forall o, In o objs -> oid o <= lastID) ->
  exists xoff N base,
    startxref_is F xoff /\ xref_section F xoff N base /\
    (forall o, In o (saved objs lastID enObj) -> oid o < N) /\
    (forall j, 0 <= j < N -> exists n g, row_at F base j n g 110 \/ row_at F base j n g 102) /\
    (exists dn dr, numeral dn N /\ numeral dr root /\
       text_at F (base + 20 * N) (B"trailer" ++ [10] ++ B"<<" ++ [10] ++ B"/Size " ++ dn ++ [10]
                                  ++ B"/Root " ++ dr ++ B" 0 R" ++ [10])).
Proof. exact xref_shape. Qed.
Print Assumptions C02_xref_shape.

(** C03 *)
Theorem C03_free_chain : forall objs lastID root enObj,
  let F := toStream objs lastID root enObj in
  0 <= lastID -> blen F < 10 ^ 10 ->
  exists xoff N base l,
    startxref_is F xoff /\ xref_section F xoff N base /\
    free_chain F base 0 l /\ increasing 0 l /\
    (forall j, In j l <-> 1 <= j < N /\ ~ In j (map oid (saved objs lastID enObj))).
Proof. exact xref_free. Qed.
Print Assumptions C03_free_chain.

(** A document with a gap (numbers 2, 4 and 5 unused) and two versions of
    object 3: hypotheses hold and the written table is the expected one. *)
Definition sample_objs : list obj :=
  [mkObj 1 (B"<</Type/Catalog>>"); mkObj 3 (B" old "); mkObj 6 (B"x"); mkObj 3 (B"new")].

Example C01_sample_hyps :
  (0 <=? 6) && (blen (toStream sample_objs 6 1 None) <? 10 ^ 10)
  && forallb (fun o => oid o <=? 6) sample_objs = true.
Proof. vm_compute. reflexivity. Qed.

Example C01_sample_table :
  contains (B"0000000000 65535 f " ++ [10]) (toStream sample_objs 6 1 None) = true /\
  contains (B"0 7" ++ [13; 10]
    ++ B"0000000002 65535 f " ++ [10] ++ B"0000000010 00000 n " ++ [10]
    ++ B"0000000004 65535 f " ++ [10] ++ B"0000000082 00000 n " ++ [10]
    ++ B"0000000005 65535 f " ++ [10] ++ B"0000000000 65535 f " ++ [10]
    ++ B"0000000064 00000 n " ++ [10] ++ B"trailer") (toStream sample_objs 6 1 None) = true.
Proof. vm_compute. split; reflexivity. Qed.

Example C01_sample_protected :
  blen (toStream sample_objs 6 1 (Some (B"<</Filter /Standard>>"))) <? 10 ^ 10 = true.
Proof. vm_compute. reflexivity. Qed.
