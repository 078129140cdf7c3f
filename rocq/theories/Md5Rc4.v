(** MD5 (RFC 1321) and RC4, as in Go's crypto/md5 and crypto/rc4. *)
From Coq Require Import String List ZArith Lia Bool.
From Verif Require Import Base.
Open Scope Z_scope.
Open Scope list_scope.

(** ** MD5 *)
Definition w32 (x : Z) : Z := Z.land x 4294967295.
Definition add32 (x y : Z) : Z := w32 (x + y).
Definition not32 (x : Z) : Z := 4294967295 - x.
Definition rotl32 (x n : Z) : Z := Z.lor (w32 (Z.shiftl x n)) (Z.shiftr x (32 - n)).

Definition md5_k : list Z := [
   3614090360; 3905402710; 606105819; 3250441966; 4118548399; 1200080426;
   2821735955; 4249261313; 1770035416; 2336552879; 4294925233; 2304563134;
   1804603682; 4254626195; 2792965006; 1236535329; 4129170786; 3225465664;
   643717713; 3921069994; 3593408605; 38016083; 3634488961; 3889429448;
   568446438; 3275163606; 4107603335; 1163531501; 2850285829; 4243563512;
   1735328473; 2368359562; 4294588738; 2272392833; 1839030562; 4259657740;
   2763975236; 1272893353; 4139469664; 3200236656; 681279174; 3936430074;
   3572445317; 76029189; 3654602809; 3873151461; 530742520; 3299628645;
   4096336452; 1126891415; 2878612391; 4237533241; 1700485571; 2399980690;
   4293915773; 2240044497; 1873313359; 4264355552; 2734768916; 1309151649;
   4149444226; 3174756917; 718787259; 3951481745].
Definition md5_s : list Z := [
   7; 12; 17; 22; 7; 12; 17; 22; 7; 12; 17; 22; 7; 12; 17; 22;
   5; 9; 14; 20; 5; 9; 14; 20; 5; 9; 14; 20; 5; 9; 14; 20;
   4; 11; 16; 23; 4; 11; 16; 23; 4; 11; 16; 23; 4; 11; 16; 23;
   6; 10; 15; 21; 6; 10; 15; 21; 6; 10; 15; 21; 6; 10; 15; 21].

(** little-endian bytes of x *)
Fixpoint le_bytes (n : nat) (x : Z) : bytes :=
  match n with O => [] | S n' => x mod 256 :: le_bytes n' (x / 256) end.
Definition le_word (l : bytes) : Z := fold_right (fun c v => c + 256 * v) 0 l.

(** function and word number of step i *)
Definition md5_f (i b c d : Z) : Z :=
  if i <? 16 then Z.lor (Z.land b c) (Z.land (not32 b) d)
  else if i <? 32 then Z.lor (Z.land d b) (Z.land (not32 d) c)
  else if i <? 48 then Z.lxor b (Z.lxor c d)
  else Z.lxor c (Z.lor b (not32 d)).
Definition md5_g (i : Z) : Z :=
  if i <? 16 then i
  else if i <? 32 then (5 * i + 1) mod 16
  else if i <? 48 then (3 * i + 5) mod 16
  else (7 * i) mod 16.

Fixpoint md5_steps (i : Z) (ks ss : list Z) (w : list Z) (st : Z * Z * Z * Z) : Z * Z * Z * Z :=
  match ks, ss with
  | k :: ks', s :: ss' =>
    let '(a, b, c, d) := st in
    let f := add32 (add32 (md5_f i b c d) a) (add32 k (nth (Z.to_nat (md5_g i)) w 0)) in
    md5_steps (i + 1) ks' ss' w (d, add32 b (rotl32 f s), b, c)
  | _, _ => st
  end.

Fixpoint words (n : nat) (l : bytes) : list Z :=
  match n with O => [] | S n' => le_word (firstn 4 l) :: words n' (skipn 4 l) end.

Fixpoint md5_blocks (n : nat) (l : bytes) (st : Z * Z * Z * Z) : Z * Z * Z * Z :=
  match n with
  | O => st
  | S n' =>
    let '(a, b, c, d) := st in
    let '(a', b', c', d') := md5_steps 0 md5_k md5_s (words 16 (firstn 64 l)) st in
    md5_blocks n' (skipn 64 l) (add32 a a', add32 b b', add32 c c', add32 d d')
  end.

Definition md5 (msg : bytes) : bytes :=
  let zeros := Z.to_nat ((55 - blen msg) mod 64) in
  let m := msg ++ [128] ++ repeat 0 zeros ++ le_bytes 8 (8 * blen msg) in
  let '(a, b, c, d) := md5_blocks (Nat.div (List.length m) 64) m (1732584193, 4023233417, 2562383102, 271733878) in
  le_bytes 4 a ++ le_bytes 4 b ++ le_bytes 4 c ++ le_bytes 4 d.

(** ** RC4 *)
Fixpoint upd (n : nat) (v : Z) (l : list Z) : list Z :=
  match l, n with
  | [], _ => []
  | _ :: l', O => v :: l'
  | x :: l', S n' => x :: upd n' v l'
  end.
Definition nthz (i : Z) (l : list Z) : Z := nth (Z.to_nat i) l 0.
Definition swap (i j : Z) (s : list Z) : list Z :=
  let x := nthz i s in let y := nthz j s in upd (Z.to_nat j) x (upd (Z.to_nat i) y s).

(** crypto/rc4 NewCipher, key scheduling over i = 0..255 *)
Fixpoint ksa (n : nat) (i j : Z) (key : bytes) (s : list Z) : list Z :=
  match n with
  | O => s
  | S n' =>
    let j' := (j + nthz i s + nthz (i mod blen key) key) mod 256 in
    ksa n' (i + 1) j' key (swap i j' s)
  end.
Definition rc4_init (key : bytes) : list Z := ksa 256 0 0 key (map Z.of_nat (seq 0 256)).

(** crypto/rc4 XORKeyStream *)
Fixpoint xor_stream (src : bytes) (i j : Z) (s : list Z) : bytes :=
  match src with
  | [] => []
  | c :: src' =>
    let i' := (i + 1) mod 256 in
    let j' := (j + nthz i' s) mod 256 in
    let s' := swap i' j' s in
    Z.lxor c (nthz ((nthz i' s' + nthz j' s') mod 256) s') :: xor_stream src' i' j' s'
  end.

(** NewCipher fails unless 1 <= len(key) <= 256. *)
Definition rc4 (key src : bytes) : res bytes :=
  if (1 <=? blen key) && (blen key <=? 256) then Ok (xor_stream src 0 0 (rc4_init key)) else Err EOther.
