(** When extending one slice in place changes bytes that are read through
    another, in terms of positions. *)
From Coq Require Import List ZArith Lia.
From Verif Require Import Base Alias.
Open Scope list_scope.

(** There is room for the 32 padding bytes behind the slice. *)
Definition roomy (s : gslice) : Prop := (s_len s + 32 <= s_cap s)%nat.
(** Position [i] of array [k] is one of the 32 bytes behind the slice, and they
    belong to its capacity. *)
Definition spare (s : gslice) (k i : nat) : Prop :=
  k = s_arr s /\ roomy s /\ (s_off s + s_len s <= i < s_off s + s_len s + 32)%nat.
(** The 32 bytes behind [s] share a position with the first [n] of [t]. *)
Definition spoils (s t : gslice) (n : nat) : Prop :=
  exists i, spare s (s_arr t) i /\ (s_off t <= i < s_off t + n)%nat.
(** [t] begins where [s] ends, in the same array. *)
Definition behind (s t : gslice) : Prop := s_arr t = s_arr s /\ s_off t = (s_off s + s_len s)%nat.
(** A byte of memory. *)
Definition cell (m : memory) (k i : nat) : option Z :=
  match nth_error m k with Some a => nth_error a i | None => None end.
