(** C66, continued: Close, and reading after the end.  The proofs are in GoPdfClose.v. *)
From Coq Require Import String List ZArith Bool.
From Coq.Floats Require Import SpecFloat.
From Verif Require Import Base Output Float64 TestFont GoPdf GoPdfSpec GoPdfRead GoPdfCases GoPdfClose.
Open Scope Z_scope.
Open Scope list_scope.

(** In every state, however much of a file was read before: after Close, Read gives
    the pieces of the file that GetBytesPdf would give in this state, from its
    beginning. *)
Theorem C66_close : forall w g g' F n ns, g_bytes w g = Ok (g', F) -> exists g1 l, reads_of w (n :: ns) (g_close g) = Ok (g1, l) /\ all_bytes l = firstn (fold_right Nat.add O (n :: ns)) F /\
  forall i, (0 < nth i (n :: ns) O)%nat -> (i < List.length (n :: ns))%nat -> (nth_error l i = Some None <-> (List.length F <= fold_right Nat.add O (firstn i (n :: ns)))%nat).
Proof. exact close_read. Qed.
Print Assumptions C66_close.
(** Without Close, once Read has reported the end every later Read does so too,
    whatever is drawn in between. *)
Theorem C66_end : forall w n g g1 t g2 m, g_read w n g = Ok (g1, None) -> runs w g1 t g2 -> g_read w (S m) g2 = Ok (g2, None).
Proof. exact end_stays. Qed.
Print Assumptions C66_end.
Example C66_close_case : sizes (reads_of gw_id [100; 800; 1]%nat (r_state (run gw_id [] page_cfg [std_page]))) = [Some 100; Some 408; None] /\
  sizes (reads_of gw_id [1]%nat (page_after all_read)) = [None] /\ sizes (reads_of gw_id [100; 800; 1]%nat (g_close (page_after half_read))) = [Some 100; Some 797; None].
Proof. exact close_case. Qed.
