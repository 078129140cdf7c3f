(** The PNG format (ISO/IEC 15948), as far as the statements need it. *)
From Coq Require Import String List ZArith Lia Bool.
From Verif Require Import Base.
Open Scope Z_scope.
Open Scope list_scope.

(** Numbers of four bytes, most significant first. *)
Definition be32 (n : Z) : bytes := [n / 16777216 mod 256; n / 65536 mod 256; n / 256 mod 256; n mod 256].

Record chunk := mkChunk { ctype : bytes; cbody : bytes; ccrc : bytes }.
Definition chunk_bytes (c : chunk) : bytes := be32 (blen (cbody c)) ++ ctype c ++ cbody c ++ ccrc c.
Definition chunk_ok (c : chunk) : Prop := List.length (ctype c) = 4%nat /\ List.length (ccrc c) = 4%nat.

Definition signature : bytes := [137; 80; 78; 71; 13; 10; 26; 10].
Definition header (w h depth ct : Z) (crc : bytes) : chunk :=
  mkChunk (B"IHDR") (be32 w ++ be32 h ++ [depth; ct; 0; 0; 0]) crc.
Definition is_type (t : bytes) (c : chunk) : bool := beqb (ctype c) t.

(** A file: signature, header, other chunks, end chunk, anything. *)
Definition png_file (hd : chunk) (cs : list chunk) (rest : bytes) : bytes :=
  signature ++ chunk_bytes hd ++ flat_map chunk_bytes cs ++ be32 0 ++ B"IEND" ++ rest.

(** The compressed image data. *)
Definition image_data (cs : list chunk) : bytes := flat_map cbody (filter (is_type (B"IDAT")) cs).

(** Row filters (9.2): the predictor of a byte from the byte to the left, the one
    above and the one above left. *)
Definition paeth (a b c : Z) : Z :=
  let p := a + b - c in
  let pa := Z.abs (p - a) in let pb := Z.abs (p - b) in let pc := Z.abs (p - c) in
  if (pa <=? pb) && (pa <=? pc) then a else if pb <=? pc then b else c.
Definition predict (ft a b c : Z) : Z :=
  if ft =? 1 then a else if ft =? 2 then b else if ft =? 3 then (a + b) / 2 else if ft =? 4 then paeth a b c else 0.

(** [out] is the row that [line] encodes with filter [ft] below the row [above];
    pixels have [bpp] bytes. *)
Definition left (bpp : nat) (row : bytes) (i : nat) : Z := if (i <? bpp)%nat then 0 else nth (i - bpp) row 0.
Definition unfiltered (bpp : nat) (ft : Z) (above line out : bytes) : Prop :=
  List.length out = List.length line /\
  forall i, (i < List.length line)%nat ->
    nth i out 0 = (nth i line 0 + predict ft (left bpp out i) (nth i above 0) (left bpp above i)) mod 256.

(** The rows that the bytes [z] encode. *)
Inductive image (bpp w : nat) : bytes -> bytes -> list bytes -> Prop :=
| image_end : forall above, image bpp w above [] []
| image_row : forall above ft line z out rows, 0 <= ft <= 4 -> List.length line = (bpp * w)%nat ->
    unfiltered bpp ft above line out -> image bpp w out z rows ->
    image bpp w above (ft :: line ++ z) (out :: rows).

(** The samples of a row of RGBA pixels. *)
Fixpoint rgb (row : bytes) : bytes := match row with r :: g :: b :: a :: l => r :: g :: b :: rgb l | _ => [] end.
Fixpoint alphas (row : bytes) : bytes := match row with r :: g :: b :: a :: l => a :: alphas l | _ => [] end.

(** What the library asks of the chunks: none longer than 32767 bytes, none
    empty, and transparency as long as the standard says. *)
Definition chunk_read (ct : Z) (c : chunk) : Prop :=
  chunk_ok c /\ 0 < blen (cbody c) < 32768 /\ ctype c <> B"IEND" /\
  (ctype c = B"tRNS" -> ct = 0 -> blen (cbody c) = 2) /\ (ctype c = B"tRNS" -> ct = 2 -> blen (cbody c) = 6).

(** The palette. *)
Definition palette (cs : list chunk) : bytes := fold_left (fun p c => if is_type (B"PLTE") c then cbody c else p) cs [].
