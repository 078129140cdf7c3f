(** Protection: minigopdf/pdf_protection.go, minigopdf/encryption_obj.go and
    PDFObjData.encrypt of pdf_obj_data.go. *)
From Coq Require Import String List ZArith Lia Bool.
From Verif Require Import Base Output Md5Rc4.
Open Scope Z_scope.
Open Scope list_scope.

(** pdf_protection.go:23-26 *)
Definition protectionPadding : bytes := [
   40; 191; 78; 94; 78; 117; 138; 65; 100; 0; 78; 86; 255; 250; 1; 8;
   46; 46; 0; 182; 208; 104; 62; 128; 47; 12; 169; 254; 100; 83; 105; 122].

(** pdf_protection.go:28-36 PDFProtection (the field [encrypted] is never used) *)
Record protection := mkProt { uValue : bytes; oValue : bytes; pValue : Z; encryptionKey : bytes }.

(** createOValue, 90-100 *)
Definition createOValue (user32 owner32 : bytes) : res bytes :=
  rc4 (firstn 5 (md5 owner32)) user32.

(** createUValue, 102-121: the U value and the key; byte(protection) keeps the
    low eight bits. *)
Definition createUValue (user32 o : bytes) (prot : Z) : res (bytes * bytes) :=
  let key := firstn 5 (md5 (user32 ++ o ++ [prot mod 256; 255; 255; 255])) in
  do u <- rc4 key protectionPadding;
  Ok (u, key).

(** generateEncryptionKey, 51-74; int is unbounded in the model, the xor is
    two's complement as in Go.  Passwords are values here: append may write into
    the caller's arrays, see Alias.v. *)
Definition generateEncryptionKey (user owner : bytes) (prot : Z) : res protection :=
  let user32 := firstn 32 (user ++ protectionPadding) in
  let owner32 := firstn 32 (owner ++ protectionPadding) in
  do o <- createOValue user32 owner32;
  do uk <- createUValue user32 o prot;
  Ok (mkProt (fst uk) o (- (Z.lxor prot 255 + 1)) (snd uk)).

(** setProtection, 43-49; [rnd] is the result of randomPass(24) *)
Definition setProtection (rnd : bytes) (permissions : Z) (user owner : bytes) : res protection :=
  let owner' := match owner with [] => rnd | _ => owner end in
  generateEncryptionKey user owner' (Z.lor 192 permissions).

(** objectkey, 138-144; uint32(n) in little-endian order, three bytes used *)
Definition objectkey (pr : protection) (n : Z) : bytes :=
  firstn 10 (md5 (encryptionKey pr ++ firstn 3 (le_bytes 4 (n mod 2 ^ 32)) ++ [0; 0])).

(** encryption_obj.go:43-50 escape: four replacements in this order *)
Definition escape (b : bytes) : bytes :=
  replace1 13 [92; 114] (replace1 41 [92; 41] (replace1 40 [92; 40] (replace1 92 [92; 92] b))).

(** encryption_obj.go:30-41 build *)
Definition enc_dict (pr : protection) : bytes :=
  B"<<" ++ [10] ++ B"/Filter /Standard" ++ [10] ++ B"/V 1" ++ [10] ++ B"/R 2" ++ [10]
  ++ B"/O (" ++ escape (oValue pr) ++ B")" ++ [10]
  ++ B"/U (" ++ escape (uValue pr) ++ B")" ++ [10]
  ++ B"/P " ++ itoa (pValue pr) ++ [10] ++ B">>" ++ [10].

(** bytes.Trim with the cut set CR LF, twice (the second only LF) *)
Definition is_crlf (c : Z) : bool := (c =? 13) || (c =? 10).

(** pdf_obj_data.go:67-95 encrypt.  Without "endstream" the end index is -1 and
    the slice panics; it also panics when the last "endstream" starts before
    the first "stream" ends. *)
Definition encrypt (pr : protection) (o : obj) : res obj :=
  let d := odata o in
  match index (B"stream") d with
  | None => Ok o
  | Some start =>
    let e := match last_index (B"endstream") d with Some n => Z.of_nat n | None => -1 end in
    do body <- slice d (Z.of_nat start + 6) e;
    let tmp := trim_set (fun c => c =? 10) (trim_set is_crlf body) in
    do c <- rc4 (objectkey pr (oid o)) tmp;
    Ok (mkObj (oid o) (firstn start d ++ B"stream" ++ [10] ++ c ++ [10] ++ B"endstream"))
  end.
