(** What the calls of a program set, read off the calls alone; part of the
    specification. *)
From Coq Require Import String List ZArith Lia Bool.
From Coq.Floats Require Import SpecFloat.
From Verif Require Import Base Float64 Ttf Subset Text GoPdf GoPdfSpec.
Open Scope Z_scope.
Open Scope list_scope.

(** ** Settings *)

(** The colours of texts and fills, the width of lines, the margins, the size of
    the open page, and what the last successful SetFont asked for: family, style
    and size. *)
Record settings := mkSet { s_color : Z * Z * Z; s_gray : f64; s_width : f64; s_left : f64; s_top : f64; s_page : f64 * f64; s_font : option (bytes * Z * Z) }.
Definition set_step (cfg : gconfig) (s : settings) (x : gp * gcall * option err) : settings :=
  let 'mkSet c g w l t p f := s in
  match snd (fst x), snd x with
  | TextColor c, _ => mkSet c g w l t p f
  | GrayFill g, _ => mkSet c g w l t p f
  | LineWidth w, _ => mkSet c g w l t p f
  | LeftMargin l, _ => mkSet c g w l t p f
  | TopMargin t, _ => mkSet c g w l t p f
  | AddPage o, _ => mkSet c g w l t (asked cfg o) f
  | SetFont family style size, None => mkSet c g w l t p (Some (family, style, size))
  | SetFontString family style size, None => mkSet c g w l t p (Some (family, converted_style style, size))
  | _, _ => s
  end.
Definition set_first : settings := mkSet (0, 0, 0) (fofz 0) (fofz 1) (fofz 10) (fofz 10) (fofz 0, fofz 0) None.
Definition settings_of (cfg : gconfig) (t : trace) : settings := fold_left (set_step cfg) t set_first.

(** ** Fonts *)

(** A font as it was added: family, style, file, kerning asked for, and the
    function KernOverride set for it *)
Record afont := mkAF { af_family : bytes; af_style : Z; af_file : bytes; af_kerning : bool; af_over : option kernfn }.
Fixpoint on_first {A} (p : A -> bool) (f : A -> A) (l : list A) : list A :=
  match l with [] => [] | x :: l => if p x then f x :: l else x :: on_first p f l end.
Definition font_step (l : list afont) (x : gp * gcall * option err) : list afont :=
  match snd (fst x), snd x with
  | AddFont family kerning style (Some file) _, None => l ++ [mkAF family style file kerning None]
  | KernOverride family k, None => on_first (fun a => beqb (af_family a) family) (fun a => mkAF (af_family a) (af_style a) (af_file a) (af_kerning a) k) l
  | _, _ => l
  end.
Definition added (t : trace) : list afont := fold_left font_step t [].
(** The first one of a family and a style; underlining (4) is not part of the style. *)
Definition of_style (family : bytes) (style : Z) (a : afont) : bool := beqb (af_family a) family && (af_style a =? Z.ldiff style 4).
Definition font_for (l : list afont) (family : bytes) (style : Z) : option afont := find (of_style family style) l.

(** A font of the document is that of a call. *)
Definition same_font (a : afont) (f : gfont) : Prop :=
  gf_family f = af_family a /\ gf_style f = af_style a /\ parseTtf (af_file a) = Ok (gf_ttf f) /\ gf_kerning f = af_kerning a /\
  (if af_kerning a then parseKern (af_file a) (tables (gf_ttf f)) = Ok (gf_pairs f) else gf_pairs f = []) /\ gf_over f = af_over a.

(** ** What a state has of them *)

(** The fields in which the methods of gopdf.go keep the settings *)
Definition set_now (s : settings) (g : gp) : Prop :=
  u_color (g_cur g) = s_color s /\ u_gray (g_cur g) = s_gray s /\ u_line (g_cur g) = s_width s /\ g_left g = s_left s /\ g_top g = s_top s /\ u_page (g_cur g) = s_page s.
(** The selected font is the first one added with the family and the style asked for. *)
Definition font_now (s : settings) (l : list afont) (g : gp) : Prop :=
  match s_font s with
  | None => u_font (g_cur g) = None
  | Some (family, style, size) => u_size (g_cur g) = size /\ u_style (g_cur g) = style /\
      exists n f a, u_font (g_cur g) = Some n /\ nth_error (g_fonts g) n = Some f /\ font_for l family style = Some a /\ nth_error l n = Some a /\
        (forall m x, (m < n)%nat -> nth_error l m = Some x -> of_style family style x = false) /\ same_font a f
  end.

(** ** Positions *)

(** Where GetX and GetY are after a call that is not one of text. *)
Definition moved (s : settings) (c : gcall) (x y x' y' : f64) : Prop :=
  match c with
  | AddPage _ => x' = s_left s /\ y' = s_top s
  | SetX a => x' = a /\ y' = y
  | SetY a => x' = x /\ y' = a
  | Br h => x' = s_left s /\ y' = fadd y h
  | Text _ | Cell _ _ | CellOpt _ _ _ _ _ | Measure _ => True
  | _ => x' = x /\ y' = y
  end.

(** ** Pictures *)

(** The pictures in the order in which their names come up: name, what was read
    at that time, and what lies behind it *)
Definition picture_step (l : list (bytes * bytes * bytes)) (x : gp * gcall * option err) : list (bytes * bytes * bytes) :=
  match snd (fst x), snd x with
  | ImageBy id d bey _ _ _, None => if existsb (fun p => beqb id (fst (fst p))) l then l else l ++ [(id, d, bey)]
  | _, _ => l
  end.
Definition pictures (t : trace) : list (bytes * bytes * bytes) := fold_left picture_step t [].
