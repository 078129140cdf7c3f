(** UTF-8 as Go's range over a string and conversion from rune to string do it. *)
From Coq Require Import String List ZArith Lia Bool.
From Verif Require Import Base.
Open Scope Z_scope.
Open Scope list_scope.

(** The Unicode scalar values and their encoding (Unicode standard, table 3-6);
    part of the specification. *)
Definition scalar (r : Z) : Prop := 0 <= r <= 55295 \/ 57344 <= r <= 1114111.

Definition utf8 (r : Z) : bytes :=
  if r <=? 127 then [r]
  else if r <=? 2047 then [192 + r / 64; 128 + r mod 64]
  else if r <=? 65535 then [224 + r / 4096; 128 + r / 64 mod 64; 128 + r mod 64]
  else [240 + r / 262144; 128 + r / 4096 mod 64; 128 + r / 64 mod 64; 128 + r mod 64].

(** A valid UTF-8 string. *)
Definition valid_utf8 (s : bytes) : Prop := exists rs, Forall scalar rs /\ s = flat_map utf8 rs.

(** string(r) in Go: what is not a scalar value becomes U+FFFD. *)
Definition string_of_rune (r : Z) : bytes :=
  if ((0 <=? r) && (r <=? 55295)) || ((57344 <=? r) && (r <=? 1114111)) then utf8 r else [239; 191; 189].

Definition cont (lo hi c : Z) : bool := (lo <=? c) && (c <=? hi).

(** utf8.DecodeRuneInString: the rune and the number of bytes it takes; a byte
    that does not start a valid sequence is U+FFFD of width one. *)
Definition decode_rune (s : bytes) : Z * nat :=
  match s with
  | [] => (65533, 0%nat)
  | a :: t =>
    if a <? 128 then (a, 1%nat)
    else if (a <? 194) || (244 <? a) then (65533, 1%nat)
    else match t with
         | [] => (65533, 1%nat)
         | b :: t =>
           let lo := if a =? 224 then 160 else if a =? 240 then 144 else 128 in
           let hi := if a =? 237 then 159 else if a =? 244 then 143 else 191 in
           if negb (cont lo hi b) then (65533, 1%nat)
           else if a <? 224 then (64 * (a - 192) + (b - 128), 2%nat)
           else match t with
                | [] => (65533, 1%nat)
                | c :: t =>
                  if negb (cont 128 191 c) then (65533, 1%nat)
                  else if a <? 240 then (4096 * (a - 224) + 64 * (b - 128) + (c - 128), 3%nat)
                  else match t with
                       | [] => (65533, 1%nat)
                       | d :: _ =>
                         if negb (cont 128 191 d) then (65533, 1%nat)
                         else (262144 * (a - 240) + 4096 * (b - 128) + 64 * (c - 128) + (d - 128), 4%nat)
                       end
                end
         end
  end.

(** for _, r := range s *)
Fixpoint runes_from (fuel : nat) (s : bytes) : list Z :=
  match fuel with
  | O => []
  | S f => match s with [] => [] | _ => let (r, n) := decode_rune s in r :: runes_from f (skipn n s) end
  end.
Definition runes (s : bytes) : list Z := runes_from (List.length s) s.

Example runes_case : runes [72; 195; 169; 255; 226; 130; 172; 240; 159; 152; 128; 237; 160; 128]
  = [72; 233; 65533; 8364; 128512; 65533; 65533; 65533].
Proof. vm_compute. reflexivity. Qed.
