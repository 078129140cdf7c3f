(** Passwords as slices of the caller's memory: what append does to them in
    minigopdf/pdf_protection.go.  Crypto.v takes passwords as values; here they
    are slices of arrays, and an array may hold more than one of them. *)
From Coq Require Import String List ZArith Lia Bool.
From Verif Require Import Base Output Md5Rc4 Crypto.
Open Scope Z_scope.
Open Scope list_scope.

(** Arrays, by their index.  A slice is an array, an offset, a length and a
    capacity; nil is a slice of capacity 0 of some array. *)
Definition memory := list bytes.
Record gslice := mkSlice { s_arr : nat; s_off : nat; s_len : nat; s_cap : nat }.
Definition array (m : memory) (s : gslice) : bytes := nth (s_arr s) m [].
(** the bytes s[i:j] of a slice for i = 0, j <= cap *)
Definition view_to (m : memory) (s : gslice) (n : nat) : bytes := firstn n (skipn (s_off s) (array m s)).
Definition view (m : memory) (s : gslice) : bytes := view_to m s (s_len s).
Definition valid (m : memory) (s : gslice) : Prop :=
  (s_arr s < List.length m)%nat /\ (s_len s <= s_cap s)%nat /\ (s_off s + s_cap s <= List.length (array m s))%nat.

(** copy of [b] to position [p] of an array *)
Definition write_at (a : bytes) (p : nat) (b : bytes) : bytes := firstn p a ++ b ++ skipn (p + List.length b) a.

(** append(s, b...): in place if the capacity allows it, otherwise in a new array
    with [grow] bytes of spare capacity (the language leaves the number open). *)
Definition append (grow : nat) (m : memory) (s : gslice) (b : bytes) : memory * gslice :=
  let n := (s_len s + List.length b)%nat in
  if (n <=? s_cap s)%nat
  then (set_nth (s_arr s) (fun a => write_at a (s_off s + s_len s) b) m, mkSlice (s_arr s) (s_off s) n (s_cap s))
  else (m ++ [view m s ++ b ++ repeat 0 grow], mkSlice (List.length m) 0 n (n + grow)).

(** pdf_protection.go:51-74 generateEncryptionKey: both passwords are extended,
    then userPass[0:32] and ownerPass[0:32] are read. *)
Definition generate_mem (g1 g2 : nat) (m : memory) (user owner : gslice) (prot : Z) : memory * res protection :=
  let '(m1, u) := append g1 m user protectionPadding in
  let '(m2, o) := append g2 m1 owner protectionPadding in
  let user32 := view_to m2 u 32 in
  let owner32 := view_to m2 o 32 in
  (m2, do ov <- createOValue user32 owner32;
       do uk <- createUValue user32 ov prot;
       Ok (mkProt (fst uk) ov (- (Z.lxor prot 255 + 1)) (snd uk))).

(** pdf_protection.go:43-49 setProtection; randomPass (123-131) makes an array of
    its own, without spare capacity. *)
Definition protect_mem (g1 g2 : nat) (m : memory) (rnd : bytes) (permissions : Z) (user owner : gslice) : memory * res protection :=
  if (s_len owner =? 0)%nat
  then generate_mem g1 g2 (m ++ [rnd]) user (mkSlice (List.length m) 0 (List.length rnd) (List.length rnd)) (Z.lor 192 permissions)
  else generate_mem g1 g2 m user owner (Z.lor 192 permissions).
