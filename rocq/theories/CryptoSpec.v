(** The standard security handler, revision 2, as a reader sees it (ISO 32000-1,
    7.6), and literal strings (7.3.4.2). *)
From Coq Require Import String List ZArith Lia Bool.
From Verif Require Import Base Md5Rc4.
Open Scope Z_scope.
Open Scope list_scope.

(** The 32 padding bytes. *)
Definition pdf_padding : bytes := [
   40; 191; 78; 94; 78; 117; 138; 65; 100; 0; 78; 86; 255; 250; 1; 8;
   46; 46; 0; 182; 208; 104; 62; 128; 47; 12; 169; 254; 100; 83; 105; 122].
Definition padded (pw : bytes) : bytes := firstn 32 (pw ++ pdf_padding).

(** P as an unsigned 32-bit number, low-order byte first. *)
Definition p_bytes (p : Z) : bytes := le_bytes 4 (p mod 2 ^ 32).

(** Algorithm 2: the file key from the user password, O, P and the first file
    identifier. *)
Definition file_key (user o : bytes) (p : Z) (id : bytes) : bytes :=
  firstn 5 (md5 (padded user ++ o ++ p_bytes p ++ id)).

(** Algorithm 6: the user password opens the file if U is the padding string
    encrypted with the key. *)
Definition user_opens (user o u : bytes) (p : Z) (id : bytes) : Prop :=
  rc4 (file_key user o p id) pdf_padding = Ok u.

(** Algorithm 7: the owner password decrypts O to a user password that opens the
    file. *)
Definition owner_opens (owner o u : bytes) (p : Z) (id : bytes) : Prop :=
  exists pw, rc4 (firstn 5 (md5 (padded owner))) o = Ok pw /\ user_opens pw o u p id.

(** Algorithm 1: the key of the object with this number and generation. *)
Definition object_key (key : bytes) (num gen : Z) : bytes :=
  firstn 10 (md5 (key ++ le_bytes 3 num ++ le_bytes 2 gen)).

(** Reading a literal string after its opening parenthesis: the bytes and what
    follows the closing parenthesis. *)
Definition lcons (c : Z) (r : option (bytes * bytes)) : option (bytes * bytes) :=
  match r with Some (s, rest) => Some (c :: s, rest) | None => None end.
Definition octal (c : Z) : bool := (48 <=? c) && (c <=? 55).

Fixpoint lit (d : nat) (s : bytes) {struct s} : option (bytes * bytes) :=
  match s with
  | [] => None
  | c :: s1 =>
    if c =? 41 then match d with O => Some ([], s1) | S d' => lcons 41 (lit d' s1) end
    else if c =? 40 then lcons 40 (lit (S d) s1)
    else if c =? 13 then
      match s1 with
      | x :: s2 => if x =? 10 then lcons 10 (lit d s2) else lcons 10 (lit d s1)
      | [] => None
      end
    else if c =? 92 then
      match s1 with
      | [] => None
      | e :: s2 =>
        if e =? 110 then lcons 10 (lit d s2)
        else if e =? 114 then lcons 13 (lit d s2)
        else if e =? 116 then lcons 9 (lit d s2)
        else if e =? 98 then lcons 8 (lit d s2)
        else if e =? 102 then lcons 12 (lit d s2)
        else if e =? 10 then lit d s2
        else if e =? 13 then
          match s2 with
          | x :: s3 => if x =? 10 then lit d s3 else lit d s2
          | [] => None
          end
        else if octal e then
          match s2 with
          | o2 :: s3 =>
            if octal o2 then
              match s3 with
              | o3 :: s4 =>
                if octal o3 then lcons ((64 * (e - 48) + 8 * (o2 - 48) + (o3 - 48)) mod 256) (lit d s4)
                else lcons (8 * (e - 48) + (o2 - 48)) (lit d s3)
              | [] => None
              end
            else lcons (e - 48) (lit d s2)
          | [] => None
          end
        else lcons e (lit d s2)
      end
    else lcons c (lit d s1)
  end.

Definition crlf_only (s : bytes) : Prop := Forall (fun c => c = 13 \/ c = 10) s.

(** Neither the first nor the last byte is CR or LF. *)
Definition bare (s : bytes) : Prop :=
  s = [] \/ (exists x t, s = x :: t /\ x <> 13 /\ x <> 10) /\ (exists t x, s = t ++ [x] /\ x <> 13 /\ x <> 10).
