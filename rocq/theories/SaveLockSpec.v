(** A saved document with a password (C72).  Specification. *)
From Coq Require Import String List ZArith Lia Bool.
From Verif Require Import Base Output OutputSpec Props PropsSpec PdfData Md5Rc4 CryptoSpec.
Open Scope Z_scope.
Open Scope list_scope.

(** [text] is object [o] with its stream enciphered with the file key [key]: what
    is read between "stream" and "endstream" is the stream of [o] without the line
    ends at its ends.  Objects without a stream are as they were. *)
Definition sealed (key : bytes) (o : obj) (text : bytes) : Prop :=
  ((forall a b, odata o <> a ++ B"stream" ++ b) -> text = odata o) /\
  (forall head x tail, odata o = head ++ B"stream" ++ x ++ B"endstream" ++ tail -> before_stream (odata o) head ->
     (forall a b, odata o = a ++ B"endstream" ++ b -> (List.length a <= List.length (head ++ B"stream" ++ x))%nat) ->
     exists eol raw eol' c, x = eol ++ raw ++ eol' /\ crlf_only eol /\ crlf_only eol' /\ bare raw /\
       text = head ++ B"stream" ++ [10] ++ c ++ [10] ++ B"endstream" /\ List.length c = List.length raw /\ rc4 (object_key key (oid o) 0) c = Ok raw).

(** The encryption dictionary, revision 2. *)
Definition lock_text (text O U : bytes) (P : Z) : Prop :=
  exists s1 s2 d, text = B"<<" ++ [10] ++ B"/Filter /Standard" ++ [10] ++ B"/V 1" ++ [10] ++ B"/R 2" ++ [10] ++ B"/O (" ++ s1 /\
    lit 0 s1 = Some (O, [10] ++ B"/U (" ++ s2) /\ lit 0 s2 = Some (U, [10] ++ B"/P -" ++ d ++ [10] ++ B">>") /\ numeral d (- P).

(** The file [F] has the objects of [p], enciphered, and the password [user] gives
    the key to them. *)
Definition locked_file (F : bytes) (p : pdf) (user owner : bytes) : Prop :=
  NoDup (map oid (objs p)) /\
  exists xoff N base, startxref_is F xoff /\ xref_section F xoff N base /\
  exists e off O U P text dn dr de,
    (* the dictionary has a number of its own, and the trailer refers to it *)
    1 <= e < N /\ ~ In e (map oid (objs p)) /\ row_at F base e off 0 110 /\ object_at F off e text /\ lock_text text O U P /\
    numeral dn N /\ numeral dr (root p) /\ numeral de e /\
    text_at F (base + 20 * N) (B"trailer" ++ [10] ++ B"<<" ++ [10] ++ B"/Size " ++ dn ++ [10] ++ B"/Root " ++ dr ++ B" 0 R" ++ [10]
      ++ B"/Encrypt " ++ de ++ B" 0 R" ++ [10] ++ B"/ID [()()]" ++ [10]) /\
    (* the passwords open it *)
    user_opens user O U P [] /\ (owner <> [] -> owner_opens owner O U P []) /\
    (* and the objects can be read with the key *)
    (forall o, In o (objs p) -> 1 <= oid o -> oid o < N /\
       exists off text, row_at F base (oid o) off 0 110 /\ object_at F off (oid o) (trim_space text) /\ sealed (file_key user O P []) o text).
