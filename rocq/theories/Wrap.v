(** Wrapped text: pdft.go:217-294 InsertWrapText and 322-337 MeasureTextWidth, and
    strings.TrimSpace. *)
From Coq Require Import String List ZArith Lia Bool.
From Coq.Floats Require Import SpecFloat.
From Verif Require Import Base Utf8 Float64 Ttf Subset Text.
Open Scope Z_scope.
Open Scope list_scope.

(** pdf_font_data.go addChars on the font a text uses (Subset.v add_chars); the
    characters stay added. *)
Definition add_text (f : sfont) (text : bytes) : sfont * res unit :=
  let (m, o) := add_chars (sf_ttf f) text (sf_map f) in (mkSfont (sf_ttf f) m (sf_kern f) (sf_rise f), o).

(** pdft.go:322-337 MeasureTextWidth with a current font: the error of addChars is
    dropped, measuring then fails by itself. *)
Definition measure_text (f : sfont) (size : Z) (text : bytes) : sfont * res f64 :=
  match add_text f text with
  | (f', Panic) => (f', Panic)
  | (f', Diverge) => (f', Diverge)
  | (f', _) => (f', measure f' size text)
  end.

(** The UTF-8 forms of the characters unicode.IsSpace accepts. *)
Definition spaces : list bytes :=
  map (fun c => [c]) [9; 10; 11; 12; 13; 32] ++ map utf8 ([133; 160; 5760] ++ map (fun k => 8192 + Z.of_nat k) (seq 0 11) ++ [8232; 8233; 8239; 8287; 12288]).
Fixpoint strip_prefix (p s : bytes) : option bytes :=
  match p, s with
  | [], _ => Some s
  | a :: p, b :: s => if a =? b then strip_prefix p s else None
  | _ :: _, [] => None
  end.
Fixpoint strip_any (ps : list bytes) (s : bytes) : option bytes :=
  match ps with [] => None | p :: ps => match strip_prefix p s with Some r => Some r | None => strip_any ps s end end.
Fixpoint strip_all (ps : list bytes) (fuel : nat) (s : bytes) : bytes :=
  match fuel with O => s | S f => match strip_any ps s with Some r => strip_all ps f r | None => s end end.
(** strings.TrimSpace: the white space at the start goes, then that at the end
    (found by looking at the string from its end; DecodeLastRune gives a
    character exactly when the string ends with its UTF-8 form). *)
Definition trim_space (s : bytes) : bytes :=
  let s := strip_all spaces (List.length s) s in
  rev (strip_all (map (@rev Z) spaces) (List.length s) (rev s)).

(** 240-258: the loop over the tokens; the lines with their y, what the last line
    holds, and the y after it *)
Fixpoint wrap_loop (f : sfont) (size : Z) (w : f64) (toks : list bytes) (curr : bytes) (y : f64) (lines : list (bytes * f64))
  : sfont * res (list (bytes * f64) * bytes * f64) :=
  match toks with
  | [] => (f, Ok (lines, curr, y))
  | [] :: toks => wrap_loop f size w toks curr y lines
  | tok :: toks =>
    match measure_text f size (curr ++ tok) with
    | (f, Ok v) =>
      if fgt v w
      then wrap_loop f size w toks tok (fadd y (fadd (fofz size) (fmul (fofz size) (fconst 2 10)))) (lines ++ [(trim_space curr, y)])
      else wrap_loop f size w toks (curr ++ tok) y lines
    | (f, Err e) => (f, Err e)
    | (f, Panic) => (f, Panic)
    | (f, Diverge) => (f, Diverge)
    end
  end.
(** 259-293: the texts handed to Insert with their y.  Before a token prevText and
    currText are the same string, so one is enough. *)
Definition wrap_lines (f : sfont) (size : Z) (w y : f64) (align : Z) (toks : list bytes) : sfont * res (list (bytes * f64)) :=
  match wrap_loop f size w toks [] y [] with
  | (f, Ok (lines, curr, last)) =>
    let step := fadd (fofz size) (fmul (fofz size) (fconst 2 10)) in
    let (lines, last) := match curr with [] => (lines, last) | _ => (lines ++ [(trim_space curr, last)], fadd last step) end in
    let off := if hasbit align aMiddle then fsub (fdiv (fsub last y) (fofz 2)) (fdiv (fofz size) (fofz 2)) else fofz 0 in
    (f, Ok (map (fun x => (fst x, fsub (snd x) off)) lines))
  | (f, Err e) => (f, Err e)
  | (f, Panic) => (f, Panic)
  | (f, Diverge) => (f, Diverge)
  end.

Example trim_case : trim_space ([9; 32] ++ B"a b" ++ [194; 160; 227; 128; 128]) = B"a b" /\ trim_space (B"  ") = [] /\ trim_space [160] = [160].
Proof. vm_compute. repeat split; reflexivity. Qed.
