(** What the calls of a program draw on a page, as operators of the content
    stream; part of the specification. *)
From Coq Require Import String List ZArith Lia Bool.
From Coq.Floats Require Import SpecFloat.
From Verif Require Import Base Utf8 PdfSyntax Float64 Ttf TtfSpec TtfProofs Subset Text TextSpec GoPdf GoPdfSpec TextCases.
Open Scope Z_scope.
Open Scope list_scope.

(** ** Operators *)

(** An operator with its operands: what is not a number is an operator. *)
Definition oper := (list pv * bytes)%type.
Definition is_op (v : pv) : option bytes := match v with PWord w => match num v with None => Some w | Some _ => None end | _ => None end.
Fixpoint group (args l : list pv) : option (list oper) :=
  match l with
  | [] => match args with [] => Some [] | _ => None end
  | v :: l => match is_op v with Some w => option_map (cons (args, w)) (group [] l) | None => group (args ++ [v]) l end
  end.
Definition operators (s : bytes) (l : list oper) : Prop := exists ts, tokens s ts /\ group [] ts = Some l.

(** ** Operands *)

(** Near: at most half a hundredth away.  Minus: the negative of such a number.
    Part: [c] of 255.  Show: the glyphs of a text, with the kerning between them
    in thousandths. *)
Inductive want :=
| Near (x : f64)
| Minus (x : f64)
| Part (c : Z)
| Is (v : pv)
| Show (t : ttf) (kern : option (Z * Z) -> Z * Z -> Z) (text : bytes).
Definition fits (q : want) (v : pv) : Prop :=
  match q with
  | Near x => exists n, num v = Some n /\ near x n
  | Minus x => exists n, num v = Some (- n) /\ near x n
  | Part c => exists n, num v = Some n /\ Z.abs (255 * n - 100 * c) <= 127
  | Is u => v = u
  | Show t kern text => exists items l, v = PArr items /\ map fst l = runes text /\
      Forall (fun x => forall d, Forall bytep d -> blen d < 2 ^ 62 -> parseTtf d = Ok t -> char_glyph d (fst x) (snd x)) l /\
      forall s, show s items = Some (shown (fun g _ => glyph s g) kern (fun _ _ _ => 0) None 0 l)
  end.
Definition wop := (list want * bytes)%type.
Definition fit_op (q : wop) (o : oper) : Prop := Forall2 fits (fst q) (fst o) /\ snd q = snd o.

(** What is left out: numbers that are not finite, underlines of negative
    thickness, glyphs beyond sixteen bits, fonts without units. *)
Definition positive (x : f64) : Prop := match x with S754_zero s | S754_finite s _ _ => s = false | _ => False end.
Definition sound (q : want) : Prop :=
  match q with
  | Near x => finite x
  | Minus x => positive x
  | Part c => 0 <= c < 256
  | Is _ => True
  | Show t _ text => 0 < unitsPerEm t /\ forall r g, In r (runes text) -> 65535 < r -> glyph_index t r = Ok g -> 0 <= g < 65536
  end.
Definition sound_op (q : wop) : Prop := Forall sound (fst q).

(** ** Drawing calls; [h] is the height of the page *)

Definition painting (style : bytes) : bytes := if beqb style (B"F") then B"f" else if beqb style (B"FD") || beqb style (B"DF") then B"B" else B"S".
Definition rgb_want (c : Z * Z * Z) : list want := let '(r, g, b) := c in [Part r; Part g; Part b].
Definition ints (l : list Z) : want := Is (PArr (map PInt l)).
Definition line_ops (x1 y1 x2 y2 : f64) : list wop := [([Near x1; Near y1], B"m"); ([Near x2; Near y2], B"l"); ([], B"s")].
Definition clamped (v : f64) : f64 := if flt v (fofz 0) then fofz 0 else if fgt v (fofz 1) then fofz 1 else v.

(** The four arcs of an oval: from the lower end to the right, the upper and the
    left end and back; their control points are 0.55228 of the half axes away. *)
Definition oval_ops (h x1 y1 x2 y2 : f64) : list wop :=
  let half a b := fdiv (fsub b a) (fofz 2) in
  let cx := fadd x1 (half x1 x2) in
  let cy := fsub h (fadd y1 (half y1 y2)) in
  let dx := fmul (half x1 x2) (fconst 55228 100000) in
  let dy := fmul (half y1 y2) (fconst 55228 100000) in
  let low := fsub h y2 in
  let high := fsub h y1 in
  let arc a b c d e f := (map Near [a; b; c; d; e; f], B"c") in
  [([Near cx; Near low], B"m");
   arc (fadd cx dx) low x2 (fsub cy dy) x2 cy; arc x2 (fadd cy dy) (fadd cx dx) high cx high;
   arc (fsub cx dx) high x1 (fadd cy dy) x1 cy; arc x1 (fsub cy dy) (fsub cx dx) low cx low; ([], B"S")].

Definition graphic (h : f64) (c : gcall) : option (list wop) :=
  match c with
  | LineWidth w => Some [([Near w], B"w")]
  | LineType t => Some [((if beqb t (B"dashed") then [ints [5]; Is (PInt 2)] else if beqb t (B"dotted") then [ints [2; 3]; Is (PInt 11)]
                          else [ints []; Is (PInt 0)]), B"d")]
  | Line x1 y1 x2 y2 => Some (line_ops x1 (fsub h y1) x2 (fsub h y2))
  | RectLower x y a b s => Some [(map Near [x; fsub h y; a; b], B"re"); ([], painting s)]
  | RectUpper x y a b s => Some [(map Near [x; fsub h (fadd y b); a; b], B"re"); ([], painting s)]
  | Oval x1 y1 x2 y2 => Some (oval_ops h x1 y1 x2 y2)
  | Curve x0 y0 x1 y1 x2 y2 x3 y3 s =>
    Some [(map Near [x0; fsub h y0], B"m"); (map Near [x1; fsub h y1; x2; fsub h y2; x3; fsub h y3], B"c"); ([], painting (map upper (trim_space s)))]
  | GrayFill v => Some [([Near (clamped v)], B"g")]
  | GrayStroke v => Some [([Near (clamped v)], B"G")]
  | StrokeColor c => Some [(rgb_want c, B"RG")]
  | FillColor c => Some [(rgb_want c, B"rg")]
  | _ => None
  end.

(** Images have numbers in the order in which their names come up; an image
    without a rectangle is as large as when it came up. *)
Fixpoint place (id : bytes) (l : list (bytes * Z * (f64 * f64))) (k : Z) : Z * option (f64 * f64) :=
  match l with
  | [] => (k, None)
  | (name, _, r) :: l => if beqb id name then (k, Some r) else place id l (k + 1)
  end.
(** The size of an image of that many pixels at 128 to the inch, in whole points;
    what would be nothing follows from the other side. *)
Definition natural (w h : Z) : f64 * f64 :=
  let a := Z.quot (72 * w) 128 in
  let b := Z.quot (72 * h) 128 in
  let a := if a =? 0 then Z.quot (b * w) h else a in
  let b := if b =? 0 then Z.quot (a * h) w else b in
  (fofz a, fofz b).
Definition image_ops (gw : gworld) (h : f64) (g : gp) (id data : bytes) (x y : f64) (rect : option (f64 * f64)) : list wop :=
  let (k, r) := place id (u_cache (g_cur g)) 0 in
  let (rw, rh) := match rect, r with
                  | Some r, _ => r
                  | None, Some r => r
                  | None, None => match gw_bounds gw data with Some (dx, dy) => natural dx dy | None => (fofz 0, fofz 0) end
                  end in
  [([], B"q"); ([Near rw; Is (PInt 0); Is (PInt 0); Near rh; Near x; Near (fsub h (fadd y rh))], B"cm");
   ([Is (PName (B"I" ++ itoa (k + 1)))], B"Do"); ([], B"Q")].

(** ** Lines of text *)

(** What a call of text gives: whether it is a cell, its rectangle, alignment,
    border and text *)
Record targs := mkTA { a_cell : bool; a_rect : option (f64 * f64); a_align : Z; a_border : Z; a_text : bytes }.
Definition text_args (c : gcall) : option targs :=
  match c with
  | Text t => Some (mkTA false None 0 0 t)
  | Cell r t => Some (mkTA true r (aLeft + aTop) 0 t)
  | CellOpt r t a b _ => Some (mkTA true r a b t)
  | _ => None
  end.

(** One or more calls of text written as one: the state before the first, what
    the first gave, the whole text, and the state before the last. *)
Record line := mkLine { l_first : gp; l_args : targs; l_text : bytes; l_last : gp }.

(** A call of text goes on with the line before when that has no rectangle and
    the colours, the font, the size, the style and the y are still the same, and
    SetX was not called. *)
Definition goes_on (l : line) (g : gp) : bool :=
  let u := g_cur (l_first l) in
  let v := g_cur g in
  match a_rect (l_args l) with
  | Some _ => false
  | None => (let '(r, g, b) := u_color u in let '(r', g', b') := u_color v in (r =? r') && (g =? g') && (b =? b'))
            && feq (u_gray u) (u_gray v) && (u_count u =? u_count v) && (u_size u =? u_size v) && (u_style u =? u_style v)
            && (u_setx u =? u_setx v) && feq (u_y u) (u_y v)
  end.

(** The font of the line as it was at the last call: its file and its kerning. *)
Definition l_font (l : line) : option gfont := match u_font (g_cur (l_first l)) with Some n => nth_error (g_fonts (l_last l)) n | None => None end.
Definition pair_value (f : gfont) (p x : Z * Z) : Z :=
  let v := match kern_value (gf_pairs f) (snd p) (snd x) with Some v => v | None => 0 end in
  match gf_over f with Some h => h (fst p) (fst x) (snd p) (snd x) v | None => v end.
Definition kern_units (f : gfont) (prev : option (Z * Z)) (x : Z * Z) : Z :=
  match prev with
  | Some p => if gf_kerning f then Z.quot (1000 * pair_value f p x) (unitsPerEm (gf_ttf f)) else 0
  | None => 0
  end.

(** The width of a text: that of the glyphs and the kerning, in thousandths of the size *)
Fixpoint advances (f : gfont) (prev : option (Z * Z)) (l : list Z) : Z :=
  match l with
  | [] => 0
  | r :: l =>
    let g := match glyph_index (gf_ttf f) r with Ok g => g | _ => 0 end in
    match glyph_width (gf_ttf f) g with Ok w => w | _ => 0 end + kern_units f prev (r, g) + advances f (Some (r, g)) l
  end.

Definition line_wants (h : f64) (l : line) (f : gfont) : list wop :=
  let u := g_cur (l_first l) in
  let a := l_args l in
  let t := gf_ttf f in
  let size := u_size u in
  let tw := scale_width (advances f None (runes (l_text l))) size in
  let asc := typo_asc t size in
  let desc := typo_desc t size in
  let (cw, ch) := match a_rect a with Some r => r | None => (tw, fsub asc desc) end in
  let x := u_x u in
  let top := fsub h (u_y u) in
  let bottom := fsub top ch in
  let px := if negb (a_cell a) then x
            else if hasbit (a_align a) aRight then fsub (fadd x cw) tw
            else if hasbit (a_align a) aCenter then fsub (fadd x (fmul cw half)) (fmul tw half)
            else x in
  let py := if negb (a_cell a) then top
            else if hasbit (a_align a) aBottom then fsub bottom desc
            else if hasbit (a_align a) aMiddle then fsub (fsub top (fmul ch half)) (fmul (fadd desc asc) half)
            else fsub top asc in
  let em := fofz (unitsPerEm t) in
  let uy := fsub (fsub h (fsub (u_y u) (fmul (fdiv (fofz (underlinePosition t)) em) (fofz size)))) (fmul (fofz size) (fconst 7 10)) in
  let xr := fadd x cw in
  let out := fmul (u_line u) half in
  let side b ops := if hasbit (a_border a) b then ops else [] in
  [([], B"BT"); ([Near px; Near py], B"TD"); ([Is (PName (B"F" ++ itoa (u_count u + 1))); Is (PInt size)], B"Tf")]
  ++ (let '(r, g, b) := u_color u in if (r + g + b) mod 256 =? 0 then [] else [(rgb_want (u_color u), B"rg")])
  ++ [([Show t (kern_units f) (l_text l)], B"TJ"); ([], B"ET")]
  ++ (if hasbit (u_style u) uUnderline
      then [([Near x; Near uy; Near (fsub xr x); Minus (fmul (fdiv (fofz (underlineThickness t)) em) (fofz size))], B"re"); ([], B"f")] else [])
  ++ side aTop (line_ops (fsub x out) top (fadd xr out) top)
  ++ side aLeft (line_ops x top x bottom)
  ++ side aRight (line_ops xr top xr bottom)
  ++ side aBottom (line_ops (fsub x out) bottom (fadd xr out) bottom).

(** ** A page *)

Inductive piece := Ops (l : list wop) | Words (l : line).
Definition piece_step (w : gworld) (h : f64) (ps : list piece) (x : gp * gcall * option err) : list piece :=
  let '(g, c, e) := x in
  match text_args c with
  | Some a =>
    match rev ps with
    | Words l :: r => if goes_on l g then rev r ++ [Words (mkLine (l_first l) (l_args l) (l_text l ++ a_text a) g)]
                      else ps ++ [Words (mkLine g a (a_text a) g)]
    | _ => ps ++ [Words (mkLine g a (a_text a) g)]
    end
  | None =>
    match c with
    | ImageBy id data _ x y rect => match e with None => ps ++ [Ops (image_ops w h g id data x y rect)] | Some _ => ps end
    | _ => match graphic h c with Some l => ps ++ [Ops l] | None => ps end
    end
  end.
Definition pieces (w : gworld) (h : f64) (t : trace) : list piece := fold_left (piece_step w h) t [].
Definition piece_wants (h : f64) (p : piece) : list wop :=
  match p with Ops l => l | Words l => match l_font l with Some f => line_wants h l f | None => [] end end.
(** The operators of a page of that height. *)
Definition wanted (w : gworld) (h : f64) (t : trace) : list wop := flat_map (piece_wants h) (pieces w h t).

(** Calls of text that return an error may leave a line half written. *)
Definition texts_ok (t : trace) : Prop := Forall (fun x => text_args (snd (fst x)) <> None -> snd x = None) t.

Example operators_case : operators (B"1 2.5 m 3 4 l s") [([PInt 1; PWord (B"2.5")], B"m"); ([PInt 3; PInt 4], B"l"); ([], B"s")].
Proof.
  eexists. split.
  - repeat (eapply tokens_more; [exists 20%nat; vm_compute; reflexivity|]). apply tokens_end. reflexivity.
  - vm_compute. reflexivity.
Qed.
