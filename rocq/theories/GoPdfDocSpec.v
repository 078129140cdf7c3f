(** What a reader does with a file of GoPdf beyond finding objects: open it,
    decode streams, show who wrote it; part of the specification. *)
From Coq Require Import String List ZArith Lia Bool.
From Coq.Floats Require Import SpecFloat.
From Verif Require Import Base Utf8 OutputSpec Md5Rc4 CryptoSpec PdfSyntax Float64 TextSpec GoPdf GoPdfSpec GoPdfDrawSpec.
Open Scope Z_scope.
Open Scope list_scope.

(** ** Opening *)

(** The trailer as a reader takes it: the first dictionary after the keyword. *)
Definition trailer_has (F : bytes) (d : list (bytes * pv)) : Prop :=
  exists N base s r, table F N base /\ 0 <= base /\ 0 <= N /\ skipn (Z.to_nat (base + 20 * N)) F = B"trailer" ++ [10] ++ s /\ reads s (PDict d) r.

(** ISO 32000-1, 7.6.3: the file is opened with the user password; [key] is the
    key of the file, or None when the file is not encrypted. *)
Definition opens (F user : bytes) (key : option bytes) : Prop :=
  exists d, trailer_has F d /\ lookup (B"Root") d = Some (PRef 1 0) /\
  match key with
  | None => lookup (B"Encrypt") d = None
  | Some k => exists n e o u p, lookup (B"Encrypt") d = Some (PRef n 0) /\ lookup (B"ID") d = Some (PArr [PStr []; PStr []]) /\
      object_is F n (PDict e) /\ lookup (B"Filter") e = Some (PName (B"Standard")) /\ lookup (B"V") e = Some (PInt 1) /\ lookup (B"R") e = Some (PInt 2) /\
      lookup (B"O") e = Some (PStr o) /\ lookup (B"U") e = Some (PStr u) /\ lookup (B"P") e = Some (PInt p) /\
      user_opens user o u p [] /\ k = file_key user o p []
  end.
(** The owner password opens the same file. *)
Definition owner_too (F owner : bytes) : Prop :=
  exists d n e o u p, trailer_has F d /\ lookup (B"Encrypt") d = Some (PRef n 0) /\ object_is F n (PDict e) /\
    lookup (B"O") e = Some (PStr o) /\ lookup (B"U") e = Some (PStr u) /\ lookup (B"P") e = Some (PInt p) /\ owner_opens owner o u p [].

(** ** Streams *)

Definition decrypted (key : option bytes) (id : Z) (raw s : bytes) : Prop :=
  match key with None => s = raw | Some k => rc4 (object_key k id 0) raw = Ok s end.
Definition unfiltered (inflate : bytes -> res bytes) (filter : option pv) (raw s : bytes) : Prop :=
  match filter with None => s = raw | Some f => f = PName (B"FlateDecode") /\ inflate raw = Ok s end.
Definition decodes (inflate : bytes -> res bytes) (key : option bytes) (F : bytes) (id : Z) (d : list (bytes * pv)) (s : bytes) : Prop :=
  exists raw mid, stream_is F id d raw /\ decrypted key id raw mid /\ unfiltered inflate (lookup (B"Filter") d) mid s.

(** ** Who wrote it *)

(** ISO 32000-1, 7.9.2.2: text strings in UTF-16 with a byte order mark *)
Definition utf16 (r : Z) : list Z := if r <? 65536 then [r] else [55296 + (r - 65536) / 1024; 56320 + (r - 65536) mod 1024].
Definition text_string (v : pv) (t : bytes) : Prop := exists h, v = PHex h /\ unhex_codes h = Some (65279 :: flat_map utf16 (runes t)).
Definition text_entry (d : list (bytes * pv)) (k t : bytes) : Prop :=
  match t with [] => lookup k d = None | _ => exists v, lookup k d = Some v /\ text_string v t end.
Definition info_is (F : bytes) (i : option ginfo) : Prop :=
  exists d, trailer_has F d /\
  match i with
  | None => lookup (B"Info") d = None
  | Some i => exists di, lookup (B"Info") d = Some (PDict di) /\ text_entry di (B"Title") (i_title i) /\ text_entry di (B"Author") (i_author i) /\
      text_entry di (B"Subject") (i_subject i) /\ text_entry di (B"Creator") (i_creator i) /\ text_entry di (B"Producer") (i_producer i) /\
      lookup (B"CreationDate") di = option_map (fun s => PStr (B"D:" ++ s)) (i_date i)
  end.
(** The last SetInfo. *)
Definition info_of (t : trace) : option ginfo :=
  fold_left (fun i x => match snd (fst x) with Info j => Some j | _ => i end) t None.
Definition in_plane (t : bytes) : Prop := Forall (fun r => 0 <= r < 65536) (runes t).
Definition simple_info (i : ginfo) : Prop :=
  in_plane (i_title i) /\ in_plane (i_author i) /\ in_plane (i_subject i) /\ in_plane (i_creator i) /\ in_plane (i_producer i) /\
  match i_date i with None => True | Some s => Forall (fun c => c <> 13 /\ c <> 40 /\ c <> 41 /\ c <> 92) s end.

Example utf16_case : flat_map utf16 (runes (B"a" ++ [240; 159; 152; 128])) = [97; 55357; 56832].
Proof. vm_compute. reflexivity. Qed.
