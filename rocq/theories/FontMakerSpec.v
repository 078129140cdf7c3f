(** What the font maker is to do, without reference to how it does it: a reader
    for the part of Go its files are written in, map files, and what the values
    are to be. *)
From Coq Require Import String List ZArith Lia Bool.
From Verif Require Import Base PdfSyntax TtfSpec.
Open Scope Z_scope.
Open Scope list_scope.

(** ** Go: tokens (The Go Programming Language Specification, Lexical elements).
    Identifiers of ASCII letters, digits and _; decimal numbers; strings in
    double quotes with backslash escapes for the backslash and the quote; line
    comments. *)
Inductive tok := TId (n : bytes) | TInt (n : Z) | TStr (s : bytes) | TSym (c : Z).

Definition letter (c : Z) : bool := ((65 <=? c) && (c <=? 90)) || ((97 <=? c) && (c <=? 122)) || (c =? 95).
Definition alnum (c : Z) : bool := letter c || is_digit c.
Definition symbol_char (c : Z) : bool := existsb (Z.eqb c) [40; 41; 42; 44; 45; 46; 58; 61; 91; 93; 123; 125].
Definition blank (c : Z) : bool := (c =? 32) || (c =? 9) || (c =? 13).
(** What may stand in a string as it is. *)
Definition plain_char (c : Z) : bool := (32 <=? c) && (c <=? 126) && negb (c =? 34) && negb (c =? 92).

Inductive lstate := Start | InId (a : bytes) | InNum (a : bytes) | InStr (a : bytes) | Esc (a : bytes) | Slash | Comment.

(** A number starts with 0 only if it is 0. *)
Definition number_tok (w : bytes) : option tok :=
  match w with
  | c :: _ :: _ => if c =? 48 then None else option_map TInt (atou w)
  | _ => option_map TInt (atou w)
  end.
Definition start_step (c : Z) : option (lstate * list tok) :=
  if blank c then Some (Start, [])
  else if c =? 34 then Some (InStr [], [])
  else if is_digit c then Some (InNum [c], [])
  else if letter c then Some (InId [c], [])
  else if c =? 47 then Some (Slash, [])
  else if symbol_char c then Some (Start, [TSym c]) else None.
Definition emit (t : option tok) (r : option (lstate * list tok)) : option (lstate * list tok) :=
  match t, r with Some t, Some (s, l) => Some (s, t :: l) | _, _ => None end.
Definition lex_step (s : lstate) (c : Z) : option (lstate * list tok) :=
  match s with
  | Start => start_step c
  | InId a => if alnum c then Some (InId (a ++ [c]), []) else emit (Some (TId a)) (start_step c)
  | InNum a => if is_digit c then Some (InNum (a ++ [c]), []) else emit (number_tok a) (start_step c)
  | InStr a => if c =? 34 then Some (Start, [TStr a]) else if c =? 92 then Some (Esc a, []) else if plain_char c then Some (InStr (a ++ [c]), []) else None
  | Esc a => if (c =? 34) || (c =? 92) then Some (InStr (a ++ [c]), []) else None
  | Slash => if c =? 47 then Some (Comment, []) else None
  | Comment => Some (Comment, [])
  end.
Fixpoint lex_run (s : lstate) (l : bytes) : option (lstate * list tok) :=
  match l with
  | [] => Some (s, [])
  | c :: l => match lex_step s c with
              | Some (s1, t1) => match lex_run s1 l with Some (s2, t2) => Some (s2, t1 ++ t2) | None => None end
              | None => None
              end
  end.
Definition lex_end (s : lstate) : option (list tok) :=
  match s with
  | Start | Comment => Some []
  | InId a => Some [TId a]
  | InNum a => option_map (fun t => [t]) (number_tok a)
  | _ => None
  end.
Definition lex (l : bytes) : option (list tok) :=
  match lex_run Start l with
  | Some (s, t) => match lex_end s with Some t' => Some (t ++ t') | None => None end
  | None => None
  end.

(** ** Go: the lines that matter *)
Inductive gval := VInt (n : Z) | VStr (s : bytes).
Inductive stmt :=
| SType (ty : bytes)                       (* type ty struct { *)
| SFunc (ty name : bytes)                  (* func (me * ty) name( *)
| SField (f : bytes) (v : gval)            (* me.f = v *)
| SWidth (c w : Z)                         (* me.cw[c] = w *)
| SItem (i : Z) (k v : bytes)              (* me.desc[i] = gopdf.FontDescItem{Key: k, Val: v} *)
| SReturn (e : list tok)                   (* return e *)
| SOther.

Definition signed (l : list tok) : option Z :=
  match l with [TInt n] => Some n | [TSym m; TInt n] => if m =? 45 then Some (- n) else None | _ => None end.
(** gopdf.Chr(n) and gopdf.ToByte(s), ifont.go:31-37 *)
Definition byte_expr (f : bytes) (a : tok) : option Z :=
  match a with
  | TInt n => if beqb f (B"Chr") then Some (n mod 256) else None
  | TStr (c :: _) => if beqb f (B"ToByte") then Some c else None
  | _ => None
  end.
Definition is_id (w : bytes) (t : tok) : bool := match t with TId x => beqb x w | _ => false end.
Definition is_sym (c : Z) (t : tok) : bool := match t with TSym x => x =? c | _ => false end.
Definition is_str (t : tok) : bool := match t with TStr _ => true | _ => false end.
Definition is_name (t : tok) : bool := match t with TId _ => true | _ => false end.
Definition word (t : tok) : bytes := match t with TId x => x | TStr x => x | _ => [] end.
Fixpoint shape (ps : list (tok -> bool)) (l : list tok) : option (list tok) :=
  match ps, l with [], _ => Some l | p :: ps, t :: l => if p t then shape ps l else None | _ :: _, [] => None end.
Definition any (t : tok) : bool := true.

Definition type_line (l : list tok) : option stmt :=
  match shape [is_id (B"type"); is_name; is_id (B"struct"); is_sym 123] l with Some [] => Some (SType (word (nth 1 l (TSym 0)))) | _ => None end.
Definition func_line (l : list tok) : option stmt :=
  match shape [is_id (B"func"); is_sym 40; is_id (B"me"); is_sym 42; is_name; is_sym 41; is_name; is_sym 40] l with
  | Some _ => Some (SFunc (word (nth 4 l (TSym 0))) (word (nth 6 l (TSym 0))))
  | None => None
  end.
Definition field_line (l : list tok) : option stmt :=
  match shape [is_id (B"me"); is_sym 46; is_name; is_sym 61] l with
  | Some [TStr s] => Some (SField (word (nth 2 l (TSym 0))) (VStr s))
  | Some e => option_map (fun n => SField (word (nth 2 l (TSym 0))) (VInt n)) (signed e)
  | None => None
  end.
Definition width_line (l : list tok) : option stmt :=
  match shape [is_id (B"me"); is_sym 46; is_id (B"cw"); is_sym 91; is_id (B"gopdf"); is_sym 46; is_name; is_sym 40; any; is_sym 41; is_sym 93; is_sym 61] l with
  | Some e => match byte_expr (word (nth 6 l (TSym 0))) (nth 8 l (TSym 0)), signed e with Some c, Some w => Some (SWidth c w) | _, _ => None end
  | None => None
  end.
Definition item_line (l : list tok) : option stmt :=
  match shape [is_id (B"me"); is_sym 46; is_id (B"desc"); is_sym 91; any; is_sym 93; is_sym 61; is_id (B"gopdf"); is_sym 46; is_id (B"FontDescItem"); is_sym 123;
               is_id (B"Key"); is_sym 58; is_str; is_sym 44; is_id (B"Val"); is_sym 58; is_str; is_sym 125] l, nth 4 l (TSym 0) with
  | Some [], TInt i => Some (SItem i (word (nth 13 l (TSym 0))) (word (nth 17 l (TSym 0))))
  | _, _ => None
  end.
Definition return_line (l : list tok) : option stmt :=
  match l with TId w :: e => if beqb w (B"return") then Some (SReturn e) else None | _ => None end.
Fixpoint first_of (fs : list (list tok -> option stmt)) (l : list tok) : stmt :=
  match fs with [] => SOther | f :: fs => match f l with Some s => s | None => first_of fs l end end.
Definition stmt_of : list tok -> stmt := first_of [type_line; func_line; field_line; width_line; item_line; return_line].

Fixpoint sequence {A} (l : list (option A)) : option (list A) :=
  match l with [] => Some [] | x :: l => match x, sequence l with Some a, Some b => Some (a :: b) | _, _ => None end end.
(** All the lines of a file; None if one cannot be read. *)
Definition go_file (f : bytes) : option (list stmt) := option_map (map stmt_of) (sequence (map lex (split1 10 f))).

(** ** Go: what the methods return once Init was called *)
Fixpoint in_func (l : list stmt) : list stmt := match l with SFunc _ _ :: _ => [] | s :: l => s :: in_func l | [] => [] end.
(** The body of method [m] of type [ty] *)
Fixpoint body (l : list stmt) (ty m : bytes) : list stmt :=
  match l with
  | SFunc t x :: l => if beqb t ty && beqb x m then in_func l else body l ty m
  | _ :: l => body l ty m
  | [] => []
  end.
Definition last_of {A} (p : stmt -> option A) (l : list stmt) (d : A) : A :=
  fold_left (fun a s => match p s with Some v => v | None => a end) l d.
Definition method (l : list stmt) (ty m : bytes) : option (list tok) :=
  match flat_map (fun s => match s with SReturn e => [e] | _ => [] end) (body l ty m) with e :: _ => Some e | [] => None end.
Definition field_of (e : list tok) : option bytes :=
  match shape [is_id (B"me"); is_sym 46; is_name] e with Some [] => Some (word (nth 2 e (TSym 0))) | _ => None end.
Definition init (l : list stmt) (ty : bytes) : list stmt := body l ty (B"Init").
(** ... of type string, and of type int *)
Definition str_result (l : list stmt) (ty m : bytes) : option bytes :=
  match method l ty m with
  | Some e => option_map (fun f => last_of (fun s => match s with SField g (VStr v) => if beqb g f then Some v else None | _ => None end) (init l ty) []) (field_of e)
  | None => None
  end.
Definition int_result (l : list stmt) (ty m : bytes) : option Z :=
  match method l ty m with
  | Some e => match signed e with
              | Some n => Some n
              | None => option_map (fun f => last_of (fun s => match s with SField g (VInt v) => if beqb g f then Some v else None | _ => None end) (init l ty) 0) (field_of e)
              end
  | None => None
  end.
(** GetCw()[c] and GetDesc()[i] *)
Definition width_result (l : list stmt) (ty : bytes) (c : Z) : option Z :=
  match method l ty (B"GetCw") with
  | Some e => match field_of e with
              | Some f => if beqb f (B"cw") then Some (last_of (fun s => match s with SWidth x w => if x =? c then Some w else None | _ => None end) (init l ty) 0) else None
              | None => None
              end
  | None => None
  end.
Definition item_result (l : list stmt) (ty : bytes) (i : Z) : option (bytes * bytes) :=
  match method l ty (B"GetDesc") with
  | Some e => match field_of e with
              | Some f => if beqb f (B"desc") then Some (last_of (fun s => match s with SItem j k v => if j =? i then Some (k, v) else None | _ => None end) (init l ty) ([], [])) else None
              | None => None
              end
  | None => None
  end.

Definition identifier (s : bytes) : Prop := exists c r, s = c :: r /\ letter c = true /\ forallb alnum r = true.
Definition quotable (s : bytes) : Prop := forallb plain_char s = true.

(** ** Map files: lines "!code U+value name", code and value in hexadecimal; of
    several lines for a code the last one counts, codes without a line are
    .notdef. *)
Definition nibble (c v : Z) : Prop := (48 <= c <= 57 /\ v = c - 48) \/ (65 <= c <= 70 /\ v = c - 55) \/ (97 <= c <= 102 /\ v = c - 87).
Inductive hexadecimal : bytes -> Z -> Prop :=
| hex_one : forall c v, nibble c v -> hexadecimal [c] v
| hex_more : forall s n c v, hexadecimal s n -> nibble c v -> hexadecimal (s ++ [c]) (16 * n + v).
(** Names may be what PDF names may be, without escapes, and stand in a string of Go. *)
Definition name_char (c : Z) : bool := regular c && plain_char c && negb (c =? 35).
Definition glyph_name (n : bytes) : Prop := n <> [] /\ forallb name_char n = true.
Definition entry_line (e : Z * Z * bytes) (l : bytes) : Prop :=
  let '(c, uv, n) := e in exists h1 h2, hexadecimal h1 c /\ hexadecimal h2 uv /\ 0 <= c < 256 /\ uv < 2 ^ 31 /\ glyph_name n /\
    l = B"!" ++ h1 ++ B" U+" ++ h2 ++ B" " ++ n /\ blen l < 65000.
Inductive map_file : bytes -> list (Z * Z * bytes) -> Prop :=
| map_end : map_file [] []
| map_lf : forall e l s es, entry_line e l -> map_file s es -> map_file (l ++ [10] ++ s) (e :: es)
| map_crlf : forall e l s es, entry_line e l -> map_file s es -> map_file (l ++ [13; 10] ++ s) (e :: es).
Definition code_entry (es : list (Z * Z * bytes)) (c : Z) : Z * bytes :=
  fold_left (fun a e => let '(x, uv, n) := e in if x =? c then (uv, n) else a) es (-1, B".notdef").
Definition code_name (es : list (Z * Z * bytes)) (c : Z) : bytes := snd (code_entry es c).

(** ** Values of the font *)
(** [w] is [v] units of the font in thousandths, to the nearest. *)
Definition scaled (d : bytes) (v w : Z) : Prop := exists u, units_per_em d u /\ 2 * Z.abs (w * u - 1000 * v) <= u.
(** The glyph of a character after the format 4 map; 0 if it has none. *)
Definition bmp_glyph (d : bytes) (c g : Z) : Prop :=
  exists cmap len off sx, has_table d (B"cmap") cmap len /\ cmap_subtable d cmap 3 1 off /\ u16 d (cmap + off + 6) = Some sx /\
    (glyph_of4 d (cmap + off) c g \/ ((forall i, ~ segment d (cmap + off) (sx / 2) c i) /\ g = 0)).
(** The segments do not overlap. *)
Definition segments_apart (d : bytes) : Prop :=
  forall cmap len off sx i j e s, has_table d (B"cmap") cmap len -> cmap_subtable d cmap 3 1 off -> u16 d (cmap + off + 6) = Some sx ->
    0 <= i < j -> j < sx / 2 -> end_code d (cmap + off) i = Some e -> start_code d (cmap + off) (sx / 2) j = Some s -> e < s.
(** Every code has the width of the glyph of its character. *)
Definition code_width (d : bytes) (es : list (Z * Z * bytes)) (c w : Z) : Prop :=
  let (uv, n) := code_entry es c in
  (n = B".notdef" -> forall a, advance d 0 a -> scaled d a w) /\
  (n <> B".notdef" -> uv <> 65535 -> forall g a, bmp_glyph d uv g -> advance d g a -> scaled d a w).

(** Numbers of the tables OS/2 and post *)
Definition os2_u16 (d : bytes) (p v : Z) : Prop := exists o l, has_table d (B"OS/2") o l /\ u16 d (o + p) = Some v.
Definition os2_s16 (d : bytes) (p v : Z) : Prop := exists o l, has_table d (B"OS/2") o l /\ s16 d (o + p) = Some v.
Definition post_s16 (d : bytes) (p v : Z) : Prop := exists o l, has_table d (B"post") o l /\ s16 d (o + p) = Some v.
Definition post_u32 (d : bytes) (p v : Z) : Prop := exists o l, has_table d (B"post") o l /\ u32 d (o + p) = Some v.
Definition head_s16 (d : bytes) (p v : Z) : Prop := exists o l, has_table d (B"head") o l /\ s16 d (o + p) = Some v.
Definition hhea_s16 (d : bytes) (p v : Z) : Prop := exists o l, has_table d (B"hhea") o l /\ s16 d (o + p) = Some v.
(** OS/2 has the height of capitals from version 2 on; before, the ascender stands for it. *)
Definition cap_height (d : bytes) (v : Z) : Prop :=
  exists ver, os2_u16 d 0 ver /\ (2 <= ver /\ os2_s16 d 88 v \/ ver < 2 /\ hhea_s16 d 4 v).

(** The PostScript name: the first name record with number 6; the bytes without
    NUL, so that it may be in UTF-16. *)
Definition name_record (d : bytes) (i id len off : Z) : Prop :=
  exists o l, has_table d (B"name") o l /\ u16 d (o + 6 + 12 * i + 6) = Some id /\ u16 d (o + 6 + 12 * i + 8) = Some len /\ u16 d (o + 6 + 12 * i + 10) = Some off.
Definition postscript_name (d n : bytes) : Prop :=
  exists o l count so i len off raw, has_table d (B"name") o l /\ u16 d (o + 2) = Some count /\ u16 d (o + 4) = Some so /\ 0 <= i < count /\
    name_record d i 6 len off /\ (forall j id ln of', 0 <= j < i -> name_record d j id ln of' -> id <> 6) /\
    bytes_at d (o + so + off) len = Some raw /\ n = filter (fun c => negb (c =? 0)) raw.

(** ** Differences of an encoding (ISO 32000-1, 9.6.6.1): a number gives the code
    of the name after it, the names following have the following codes. *)
Fixpoint differences (l : list pv) (at_ : option Z) : option (list (Z * bytes)) :=
  match l, at_ with
  | [], _ => Some []
  | PInt n :: l, _ => differences l (Some n)
  | PName x :: l, Some n => option_map (cons (n, x)) (differences l (Some (n + 1)))
  | _, _ => None
  end.
Definition encoded (base : Z -> bytes) (l : list (Z * bytes)) (c : Z) : bytes :=
  fold_left (fun a e => if fst e =? c then snd e else a) l (base c).
(** The text is the inside of an array that makes of the encoding [base] the
    encoding [enc]. *)
Definition makes (text : bytes) (base enc : Z -> bytes) : Prop :=
  exists l ds, reads (B"[" ++ text ++ B"]") (PArr l) [] /\ differences l None = Some ds /\ forall c, 0 <= c < 256 -> encoded base ds c = enc c.

(** ** A licence that forbids embedding (OS/2, fsType): usage permission 2, or
    only bitmaps. *)
Definition restricted (d : bytes) : Prop := exists v, os2_u16 d 8 v /\ (Z.testbit v 1 = true /\ Z.testbit v 2 = false /\ Z.testbit v 3 = false \/ Z.testbit v 9 = true).

(** ** What the methods of a definition file are to say about the font [d] with the
    map file of entries [es]: numbers of the font in thousandths of its em. *)
Definition item_list (l : list stmt) (ty : bytes) : list (option (bytes * bytes)) := map (item_result l ty) [0; 1; 2; 3; 4; 5; 6; 7].
Record describes (d : bytes) (es cp : list (Z * Z * bytes)) (enc : bytes) (l : list stmt) (ty : bytes) : Prop := {
  df_type : str_result l ty (B"GetType") = Some (B"TrueType");
  df_enc : str_result l ty (B"GetEnc") = Some enc;
  df_name : forall n, postscript_name d n -> str_result l ty (B"GetName") = Some (filter (fun c => negb (c =? 48)) n);
  df_up : exists w, int_result l ty (B"GetUp") = Some w /\ forall v, post_s16 d 8 v -> scaled d v w;
  df_ut : exists w, int_result l ty (B"GetUt") = Some w /\ forall v, post_s16 d 10 v -> scaled d v w;
  df_widths : forall c, 0 <= c < 256 -> exists w, width_result l ty c = Some w /\ code_width d es c w;
  df_items : exists asc desc cap flags x0 y0 x1 y1 italic stem missing,
    item_list l ty = [Some (B"Ascent", itoa asc); Some (B"Descent", itoa desc); Some (B"CapHeight", itoa cap); Some (B"Flags", itoa flags);
      Some (B"FontBBox", B"[" ++ itoa x0 ++ B" " ++ itoa y0 ++ B" " ++ itoa x1 ++ B" " ++ itoa y1 ++ B"]");
      Some (B"ItalicAngle", itoa italic); Some (B"StemV", itoa stem); Some (B"MissingWidth", itoa missing)] /\
    (forall v, os2_s16 d 68 v -> scaled d v asc) /\ (forall v, os2_s16 d 70 v -> scaled d v desc) /\ (forall v, cap_height d v -> scaled d v cap) /\
    (forall v, head_s16 d 36 v -> scaled d v x0) /\ (forall v, head_s16 d 38 v -> scaled d v y0) /\ (forall v, head_s16 d 40 v -> scaled d v x1) /\ (forall v, head_s16 d 42 v -> scaled d v y1) /\
    (forall v, post_s16 d 4 v -> italic = v) /\ (forall v, advance d 0 v -> scaled d v missing) /\
    (forall v, os2_u16 d 62 v -> stem = if Z.testbit v 5 then 120 else 70) /\
    (forall f a, post_u32 d 12 f -> post_s16 d 4 a -> flags = (if f =? 0 then 0 else 1) + 32 + (if a =? 0 then 0 else 64));
  df_diff : (code_name es 0 = code_name cp 0 -> code_name es 1 = code_name cp 1) ->
    exists t, str_result l ty (B"GetDiff") = Some t /\ makes t (code_name cp) (code_name es)
}.

(** ** Names: a font file dir/base.ttf; spaces are not kept. *)
Definition in_name (c : Z) : bool := negb (c =? 46) && negb (c =? 47).
Definition font_path (p base : bytes) : Prop :=
  exists dir rest, p = dir ++ base ++ B"." ++ rest /\ (dir = [] \/ exists q, dir = q ++ B"/") /\ forallb in_name base = true /\ ~ In 47 rest.
(** The extension is .ttf in whatever case. *)
Definition ttf_named (p : bytes) : Prop :=
  exists q rest, p = q ++ B"." ++ rest /\ map (fun c => if (65 <=? c) && (c <=? 90) then c + 32 else c) rest = B"ttf".
Definition no_spaces (s : bytes) : bytes := map (fun c => if c =? 32 then 95 else c) s.
Definition capital (s : bytes) : bytes := match s with c :: r => (if (97 <=? c) && (c <=? 122) then c - 32 else c) :: r | [] => [] end.

(** ** A task for the font maker: the font file [fp] of name [base] and content
    [d], the map files for the encoding [enc] and for cp1252 in the directory [mp],
    with entries [es] and [cp].  [read] gives the contents of files. *)
Record task (read : bytes -> option bytes) (fp mp enc base d : bytes) (es cp : list (Z * Z * bytes)) : Prop := {
  tk_path : font_path fp base;
  tk_font : read fp = Some d;
  tk_map : exists s, read (mp ++ B"/" ++ enc ++ B".map") = Some s /\ map_file s es;
  tk_ref : exists s, read (mp ++ B"/cp1252.map") = Some s /\ map_file s cp;
  tk_bytes : Forall (fun c => 0 <= c <= 255) d;
  tk_len : blen d < 4611686018427387904;
  tk_apart : segments_apart d
}.
(** ... whose definition file is a program of Go *)
Definition go_task (enc base d : bytes) : Prop :=
  (exists n, postscript_name d n /\ quotable n) /\ quotable enc /\ identifier (capital (no_spaces base)) /\ exists u, units_per_em d u /\ 0 < u.
