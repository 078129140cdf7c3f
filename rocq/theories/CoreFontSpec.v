(** What the objects of a font of 256 codes are to say (C82).  Specification. *)
From Coq Require Import String List ZArith Lia Bool.
From Verif Require Import Base PdfSyntax CryptoSpec TtfSpec FontMakerSpec CoreFont.
Open Scope Z_scope.
Open Scope list_scope.

(** The font is the type [ty] of the program [l] of Go. *)
Record font_of (l : list stmt) (ty : bytes) (f : ifont) : Prop := {
  fo_name : str_result l ty (B"GetName") = Some (if_name f);
  fo_diff : str_result l ty (B"GetDiff") = Some (if_diff f);
  fo_size : int_result l ty (B"GetOriginalsize") = Some (if_size f);
  fo_width : forall c, 0 <= c < 256 -> width_result l ty c = Some (if_cw f c);
  fo_desc : map Some (if_desc f) = item_list l ty
}.

(** The object at the start of the text is a stream; a reader goes by /Length, and
    line ends may follow the data. *)
Definition stream_text (s : bytes) (d : list (bytes * pv)) (body : bytes) : Prop :=
  exists rest eols trail, reads s (PDict d) rest /\ skip rest = B"stream" ++ [10] ++ body ++ eols ++ B"endstream" ++ trail /\
    Forall (fun c => c = 10 \/ c = 13) eols /\ eols <> [] /\ lookup (B"Length") d = Some (PInt (blen body)).

(** The font dictionary of ISO 32000-1, 9.6.3, for codes 32 to 255. *)
Definition simple_font (name : bytes) (w d e : Z) : list (bytes * pv) :=
  [(B"Type", PName (B"Font")); (B"Subtype", PName (B"TrueType")); (B"BaseFont", PName name); (B"FirstChar", PInt 32); (B"LastChar", PInt 255);
   (B"Widths", PRef w 0); (B"FontDescriptor", PRef d 0); (B"Encoding", PRef e 0)].
