(** Content streams: a reader and a small interpreter after ISO 32000-1, 8.4-8.8,
    9.3 and 9.4; part of the specification.  Numbers may have up to two decimals
    and are counted in hundredths.  Covered: the operators BT ET TD Tf Ts TJ rg
    w d m l s re f q Q cm Do, text shown with two-byte codes (Identity-H), one cm
    per q. *)
From Coq Require Import String List ZArith Lia Bool.
From Coq.Floats Require Import SpecFloat.
From Verif Require Import Base PdfSyntax HexProofs Float64.
Open Scope Z_scope.
Open Scope list_scope.

(** ** Tokens *)

Inductive tokens : bytes -> list pv -> Prop :=
| tokens_end : forall s, skip s = [] -> tokens s []
| tokens_more : forall s v r l, reads s v r -> tokens r l -> tokens s (v :: l).

(** A decimal number in hundredths. *)
Definition unsigned (w : bytes) : option Z :=
  let (a, r) := span is_digit w in
  match r with
  | [] => option_map (Z.mul 100) (atou a)
  | p :: f => if (p =? 46) && (List.length f <=? 2)%nat then atou (a ++ f ++ repeat 48 (2 - List.length f)) else None
  end.
Definition decimal (w : bytes) : option Z :=
  match w with
  | c :: t => if c =? 45 then option_map Z.opp (unsigned t) else if c =? 43 then unsigned t else unsigned w
  | [] => None
  end.
Definition num (v : pv) : option Z := match v with PInt n => Some (100 * n) | PWord w => decimal w | _ => None end.

(** ** Graphics state and marks *)

Record gstate := mkG {
  g_fill : Z * Z * Z; g_font : bytes; g_size : Z; g_rise : Z; g_at : Z * Z; g_text : bool;
  g_line : Z; g_dash : list Z * Z; g_path : list (Z * Z); g_cm : option (Z * Z * Z * Z * Z * Z) }.

Inductive mark :=
| Glyph (code : Z) (font : bytes) (size rise : Z) (fill : Z * Z * Z) (start : Z * Z)  (* start of the line of text *)
| Adjust (n : Z)                                   (* thousandths of the size, to the left *)
| Stroke (p : list (Z * Z)) (width : Z) (dash : list Z * Z)
| Filled (p : list (Z * Z)) (fill : Z * Z * Z)
| Image (name : bytes) (cm : option (Z * Z * Z * Z * Z * Z)).

Definition glyph (s : gstate) (c : Z) : mark := Glyph c (g_font s) (g_size s) (g_rise s) (g_fill s) (g_at s).

Definition unhex_codes (h : bytes) : option (list Z) := match unhex h with Some b => codes b | None => None end.

Fixpoint show (s : gstate) (l : list pv) : option (list mark) :=
  match l with
  | [] => Some []
  | PHex h :: l => match unhex_codes h, show s l with Some cs, Some ms => Some (map (glyph s) cs ++ ms) | _, _ => None end
  | v :: l => match num v, show s l with Some n, Some ms => Some (Adjust n :: ms) | _, _ => None end
  end.

Fixpoint nums (l : list pv) : option (list Z) :=
  match l with [] => Some [] | v :: l => match num v, nums l with Some n, Some ns => Some (n :: ns) | _, _ => None end end.

(** One operator with its operands; the second state is the one q saved. *)
Definition op1 (w : bytes) (args : list pv) (st : gstate * option gstate) : option (gstate * option gstate * list mark) :=
  let (s, saved) := st in
  let '(mkG fill font size rise at_ text line dash path cm) := s in
  if beqb w (B"BT") then match args with [] => if text then None else Some (mkG fill font size rise (0, 0) true line dash path cm, saved, []) | _ => None end
  else if beqb w (B"ET") then match args with [] => if text then Some (mkG fill font size rise at_ false line dash path cm, saved, []) else None | _ => None end
  else if beqb w (B"TJ") then match args with [PArr l] => if text then option_map (fun ms => (s, saved, ms)) (show s l) else None | _ => None end
  else if beqb w (B"Tf") then match args with [PName n; v] => option_map (fun z => (mkG fill n z rise at_ text line dash path cm, saved, [])) (num v) | _ => None end
  else if beqb w (B"Do") then match args with [PName n] => Some (s, saved, [Image n cm]) | _ => None end
  else if beqb w (B"d") then match args with [PArr l; v] => match nums l, num v with Some ns, Some z => Some (mkG fill font size rise at_ text line (ns, z) path cm, saved, []) | _, _ => None end | _ => None end
  else match nums args with
  | None => None
  | Some ns =>
    if beqb w (B"TD") then match ns with [x; y] => if text then Some (mkG fill font size rise (fst at_ + x, snd at_ + y) text line dash path cm, saved, []) else None | _ => None end
    else if beqb w (B"Ts") then match ns with [x] => Some (mkG fill font size x at_ text line dash path cm, saved, []) | _ => None end
    else if beqb w (B"rg") then match ns with [x; y; z] => Some (mkG (x, y, z) font size rise at_ text line dash path cm, saved, []) | _ => None end
    else if beqb w (B"w") then match ns with [x] => Some (mkG fill font size rise at_ text x dash path cm, saved, []) | _ => None end
    else if beqb w (B"m") then match ns with [x; y] => Some (mkG fill font size rise at_ text line dash [(x, y)] cm, saved, []) | _ => None end
    else if beqb w (B"l") then match ns, path with [x; y], _ :: _ => Some (mkG fill font size rise at_ text line dash (path ++ [(x, y)]) cm, saved, []) | _, _ => None end
    else if beqb w (B"s") then match ns, path with [], _ :: _ => if text then None else Some (mkG fill font size rise at_ text line dash [] cm, saved, [Stroke path line dash]) | _, _ => None end
    else if beqb w (B"re") then match ns with [x; y; a; b] => Some (mkG fill font size rise at_ text line dash [(x, y); (x + a, y); (x + a, y + b); (x, y + b)] cm, saved, []) | _ => None end
    else if beqb w (B"f") then match ns, path with [], _ :: _ => if text then None else Some (mkG fill font size rise at_ text line dash [] cm, saved, [Filled path fill]) | _, _ => None end
    else if beqb w (B"q") then match ns, saved with [], None => Some (s, Some s, []) | _, _ => None end
    else if beqb w (B"Q") then match ns, saved with [], Some s' => Some (s', None, []) | _, _ => None end
    else if beqb w (B"cm") then match ns, cm with [a; b; c; d; e; f], None => Some (mkG fill font size rise at_ text line dash path (Some (a, b, c, d, e, f)), saved, []) | _, _ => None end
    else None
  end.

(** What is not a number is an operator. *)
Fixpoint exec (st : gstate * option gstate) (args : list pv) (l : list pv) : option (gstate * option gstate * list mark) :=
  match l with
  | [] => match args with [] => Some (st, []) | _ => None end
  | v :: l =>
    match v, num v with
    | PWord w, None =>
      match op1 w args st with
      | Some (st', ms) => match exec st' [] l with Some (st'', ms') => Some (st'', ms ++ ms') | None => None end
      | None => None
      end
    | _, _ => exec st (args ++ [v]) l
    end
  end.

(** [s] draws [ms], starting in one state and ending in the other; what q saves
    is restored. *)
Definition draws (s : bytes) (g g' : gstate) (ms : list mark) : Prop :=
  exists l, tokens s l /\ exec (g, None) [] l = Some (g', None, ms).

(** ** Numbers *)

Definition finite (x : f64) : Prop := match x with S754_zero _ | S754_finite _ _ _ => True | _ => False end.

(** [n] hundredths are at most half a hundredth away from [x]. *)
Definition near (x : f64) (n : Z) : Prop :=
  match x with
  | S754_zero _ => n = 0
  | S754_finite s m e =>
    let v := if s then Z.neg m else Z.pos m in
    if 0 <=? e then n = 100 * v * 2 ^ e else Z.abs (2 * (100 * v - n * 2 ^ (- e))) <= 2 ^ (- e)
  | _ => False
  end.

(** The marks of a line of text: the glyph of every character [(char, glyph)] in
    turn, each with its own rise, and before it the kerning with the character
    before it in thousandths of the size ([kern], [rise]: [None] stands before
    the first character). *)
Fixpoint shown (mk : Z -> Z -> mark) (kern : option (Z * Z) -> Z * Z -> Z) (rise : option (Z * Z) -> Z -> Z -> Z)
  (prev : option (Z * Z)) (k : Z) (l : list (Z * Z)) : list mark :=
  match l with
  | [] => []
  | (r, g) :: l =>
    (if kern prev (r, g) =? 0 then [] else [Adjust (-100 * kern prev (r, g))])
    ++ mk g (rise prev r k) :: shown mk kern rise (Some (r, g)) (k + 1) l
  end.

Definition no_glyph (m : mark) : Prop := match m with Glyph _ _ _ _ _ _ | Adjust _ => False | _ => True end.

Example draws_case : draws (B"BT 1.5 -2 TD /F1 12 Tf 0.5 0 0 rg [<00410042>-20<0043>] TJ ET 0 0 m 10 0.25 l s")
  (mkG (0, 0, 0) [] 0 0 (0, 0) false 100 ([], 0) [] None)
  (mkG (50, 0, 0) (B"F1") 1200 0 (150, -200) false 100 ([], 0) [] None)
  [Glyph 65 (B"F1") 1200 0 (50, 0, 0) (150, -200); Glyph 66 (B"F1") 1200 0 (50, 0, 0) (150, -200); Adjust (-2000);
   Glyph 67 (B"F1") 1200 0 (50, 0, 0) (150, -200); Stroke [(0, 0); (1000, 25)] 100 ([], 0)].
Proof.
  eexists. split.
  - repeat (eapply tokens_more; [exists 20%nat; vm_compute; reflexivity|]). apply tokens_end. reflexivity.
  - vm_compute. reflexivity.
Qed.
