(** C93, continued: what any failing call leaves in any state.  The proofs are in
    GoPdfFailAny.v. *)
From Coq Require Import String List ZArith Bool.
From Coq.Floats Require Import SpecFloat.
From Verif Require Import Base Output Float64 GoPdf GoPdfSpec GoPdfCases GoPdfCallCases GoPdfWriteCases GoPdfFail GoPdfFailAny.
Open Scope Z_scope.
Open Scope list_scope.

(** In every state, without a condition on the calls before: after a call that comes
    back with an error the position, the settings and all objects are as they were, but
    for the characters to embed and a text at the end of the drawing of the page. *)
Theorem C93_any : forall w g c g' e, gstep w g c = Ok (g', Some e) -> but_text g g'.
Proof. exact any_fail. Qed.
Print Assumptions C93_any.
Example C93_any_case : match gstep gw_id (r_state (after half_prog)) (Text [169]) with
  | Ok (g', Some _) => (pages_text g', List.length (g_objs g'), g_content g')
  | _ => ([], O, 0) end = ([[195; 169]], List.length (g_objs (r_state (after half_prog))), g_content (r_state (after half_prog))) /\ 0 <= g_content (r_state (after half_prog)).
Proof. exact any_case. Qed.
