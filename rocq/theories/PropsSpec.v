(** Specification vocabulary for dictionaries (C06, C17, C47). *)
From Coq Require Import String List ZArith Lia Bool.
From Verif Require Import Base.
Open Scope Z_scope.
Open Scope list_scope.

(** [head] is the part of an object before its stream (all of it if there is none). *)
Definition before_stream (raw head : bytes) : Prop :=
  (raw = head /\ forall a b, raw <> a ++ B"stream" ++ b) \/
  (exists rest, raw = head ++ B"stream" ++ rest /\
     forall a b, raw = a ++ B"stream" ++ b -> (List.length head <= List.length a)%nat).

Definition is_ascii (s : bytes) : Prop := Forall (fun c => 0 <= c < 128) s.

Definition white (c : Z) : Prop := c = 13 \/ c = 10 \/ c = 9 \/ c = 32.

(** No '<' or '>' stands alone between two white-space characters. *)
Definition no_lone_angle (s : bytes) : Prop :=
  forall a w1 x w2 b, s = a ++ w1 :: x :: w2 :: b -> white w1 -> white w2 -> x <> 60 /\ x <> 62.

(** A decimal number the platform's int can hold. *)
Definition is_int (n : Z) : Prop := - 2 ^ 63 <= n < 2 ^ 63.
