(** An embedded font: five objects that refer to each other (ISO 32000-1, 9.7.6
    Type 0 font, 9.7.4 CIDFont, 9.8 font descriptor, 9.9 font program, 9.10.3
    ToUnicode).  Part of the specification. *)
From Coq Require Import String List ZArith.
From Verif Require Import Base Output PdfSyntax.
Open Scope Z_scope.
Open Scope list_scope.

(** The only object with number [id] is a dictionary with entries [d]. *)
Definition the_object (os : list obj) (id : Z) (o : obj) : Prop :=
  exists a b, os = a ++ o :: b /\ oid o = id /\ forall q, In q (a ++ b) -> oid q <> id.
Definition the_dict (os : list obj) (id : Z) (d : list (bytes * pv)) : Prop :=
  exists o rest, the_object os id o /\ reads (odata o) (PDict d) rest.
Definition the_stream (os : list obj) (id : Z) (d : list (bytes * pv)) (body : bytes) : Prop :=
  exists o, the_object os id o /\ stream_object (odata o) d body.

(** Object [id] is a Type 0 font called [base] with widths [ws], ToUnicode map
    [uni] and the deflated font program [prog] of [len] bytes. *)
Definition embedded_font (os : list obj) (id : Z) (base : bytes) (ws : list pv) (uni prog : bytes) (len : Z) : Prop :=
  exists cid u desc file d1 d2 d3 d4 d5,
    the_dict os id d1 /\ lookup (B"Type") d1 = Some (PName (B"Font")) /\ lookup (B"Subtype") d1 = Some (PName (B"Type0")) /\
      lookup (B"Encoding") d1 = Some (PName (B"Identity-H")) /\ lookup (B"BaseFont") d1 = Some (PName base) /\
      lookup (B"DescendantFonts") d1 = Some (PArr [PRef cid 0]) /\ lookup (B"ToUnicode") d1 = Some (PRef u 0) /\
    the_dict os cid d2 /\ lookup (B"Type") d2 = Some (PName (B"Font")) /\ lookup (B"Subtype") d2 = Some (PName (B"CIDFontType2")) /\
      lookup (B"BaseFont") d2 = Some (PName base) /\ lookup (B"W") d2 = Some (PArr ws) /\ lookup (B"FontDescriptor") d2 = Some (PRef desc 0) /\
    the_stream os u d3 uni /\ lookup (B"Filter") d3 = None /\
    the_dict os desc d4 /\ lookup (B"Type") d4 = Some (PName (B"FontDescriptor")) /\ lookup (B"FontName") d4 = Some (PName base) /\
      lookup (B"FontFile2") d4 = Some (PRef file 0) /\
    the_stream os file d5 prog /\ lookup (B"Filter") d5 = Some (PName (B"FlateDecode")) /\ lookup (B"Length1") d5 = Some (PInt len).
