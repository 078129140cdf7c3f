(** The objects of a font of 256 codes (minigopdf): font, widths, encoding,
    descriptor and font file.  No call of GoPdf adds them to a document. *)
From Coq Require Import String List ZArith Lia Bool.
From Verif Require Import Base Md5Rc4 Crypto.
Open Scope Z_scope.
Open Scope list_scope.

(** ifont.go 3-17: what the methods of an IFont return.  GetCw is a map from bytes
    to widths, here its lookup, which gives 0 for a byte that is not in it. *)
Record ifont := mkIFont { if_name : bytes; if_desc : list (bytes * bytes); if_cw : Z -> Z; if_diff : bytes; if_size : Z }.

(** fontconverthelper.go 9-18: codes 32 to 255. *)
Definition cw2str (cw : Z -> Z) : bytes := B" " ++ flat_map (fun i => itoa (cw (32 + Z.of_nat i)) ++ B" ") (seq 0 224).

(** font_obj.go 29-48; [embed] are the numbers of the widths, the descriptor and
    the encoding, if IsEmbedFont is set. *)
Definition core_font_obj (family : bytes) (font : option ifont) (embed : option (Z * Z * Z)) : bytes :=
  B"<<" ++ [10] ++ B"  /Type /Font" ++ [10] ++ B"  /Subtype /TrueType" ++ [10] ++
  B"  /BaseFont /" ++ match font with Some f => if_name f | None => family end ++ [10] ++
  match embed with
  | Some (w, d, e) => B"  /FirstChar 32 /LastChar 255" ++ [10] ++ B"  /Widths " ++ itoa w ++ B" 0 R" ++ [10] ++
      B"  /FontDescriptor " ++ itoa d ++ B" 0 R" ++ [10] ++ B"  /Encoding " ++ itoa e ++ B" 0 R" ++ [10]
  | None => []
  end ++ B">>" ++ [10].

(** encoding_obj.go 21-26; a nil font panics. *)
Definition core_encoding_obj (font : option ifont) : res bytes :=
  match font with
  | Some f => Ok (B"<</Type /Encoding /BaseEncoding /WinAnsiEncoding /Differences [" ++ if_diff f ++ B"]>>" ++ [10])
  | None => Panic
  end.

(** fontdescriptor_obj.go 17-39; getType is never Type1. *)
Definition core_descriptor_obj (font : option ifont) (relate : bytes) : res bytes :=
  match font with
  | Some f => Ok (B"<</Type /FontDescriptor /FontName /" ++ if_name f ++ B" " ++ flat_map (fun i => B"/" ++ fst i ++ B" " ++ snd i ++ B" ") (if_desc f) ++
      B"/FontFile2 " ++ relate ++ B">>" ++ [10])
  | None => Panic
  end.

(** embedfont_obj.go 25-49; [file] is the content of the file at zfontpath, if it
    can be read. *)
Definition core_file_obj (file : option bytes) (pr : option protection) (objID : Z) (font : option ifont) : res bytes :=
  match file with
  | None => Err EOther
  | Some z => match font with
    | None => Panic
    | Some f =>
      do body <- match pr with Some pr => do c <- rc4 (objectkey pr objID) z; Ok (c ++ [10]) | None => Ok z end;
      Ok (B"<</Length " ++ itoa (blen z) ++ [10] ++ B"/Filter /FlateDecode" ++ [10] ++ B"/Length1 " ++ itoa (if_size f) ++ [10] ++ B">>" ++ [10] ++
          B"stream" ++ [10] ++ body ++ [10] ++ B"endstream" ++ [10])
    end
  end.
