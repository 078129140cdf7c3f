(** Results, byte strings and the Go string functions used by pdft. *)
From Coq Require Import String Ascii List ZArith Lia Bool.
Require Export ZifyBool ZifyNat ZifyN.
Export ListNotations.
Open Scope Z_scope.
Open Scope list_scope.

(** A Go byte is a [Z] in 0..255, strings and byte slices are lists of them. *)
Definition bytes := list Z.

(** Errors.  Only the sentinel errors that callers can compare against are
    distinguished; all other errors are [EOther]. *)
Inductive err :=
| EObjNotFound         (* pdf_obj_property_data.go:203  ErrorObjectIDNotFound *)
| EAddSameFontName     (* pdft.go:18  ErrAddSameFontName *)
| EFontNameNotFound    (* pdft.go:21  ErrFontNameNotFound *)
| ENoPageKeep          (* pdft.go:24  ErrNoDesiredPageToKeep *)
| ENoPageRemove        (* pdft.go:27  ErrNoDesiredPageToRemove *)
| ENoPageCopy          (* pdft.go:30  ErrNoDesiredPageToCopy *)
| ENoContents          (* pdft.go:33  ErrNoContentsProperty *)
| ECrawlValNotFound    (* crawl_result.go:21  ErrCrawlResultValOfNotFound *)
| EWrongType           (* crawl_result.go:106  ErrWrongTypeOfVal *)
| ENoFontIndex         (* crawl_result_font.go:13  ErrNoFontIndex *)
| ECharNotFound        (* minigopdf/subset_font_obj.go:14  ErrCharNotFound *)
| EOther.

(** Outcome of a Go function.  [Panic] is a run-time panic, [Diverge] is
    unbounded recursion (reported when the fuel of a model function runs out). *)
Inductive res (A : Type) :=
| Ok (a : A)
| Err (e : err)
| Panic
| Diverge.
Arguments Ok {A}. Arguments Err {A}. Arguments Panic {A}. Arguments Diverge {A}.

Definition bind {A B} (x : res A) (f : A -> res B) : res B :=
  match x with Ok a => f a | Err e => Err e | Panic => Panic | Diverge => Diverge end.

Notation "'do' x <- e1 ; e2" := (bind e1 (fun x => e2))
  (at level 200, x pattern, e1 at level 100, e2 at level 200, right associativity).

Definition is_ok {A} (r : res A) : bool := match r with Ok _ => true | _ => false end.

Lemma bind_ok : forall A B (x : res A) (f : A -> res B) b,
  bind x f = Ok b -> exists a, x = Ok a /\ f a = Ok b.
Proof. intros A B [a|e| |] f b H; simpl in H; try discriminate. eauto. Qed.

(** String literals. *)
Fixpoint bytes_of_string (s : string) : bytes :=
  match s with
  | EmptyString => []
  | String a s' => Z.of_N (N_of_ascii a) :: bytes_of_string s'
  end.
Notation "'B' s" := (bytes_of_string s%string) (at level 9, s at level 8).

Definition blen (s : bytes) : Z := Z.of_nat (List.length s).

Fixpoint beqb (a b : bytes) : bool :=
  match a, b with
  | [], [] => true
  | x :: a', y :: b' => (x =? y) && beqb a' b'
  | _, _ => false
  end.

(** strings.HasPrefix *)
Fixpoint prefixb (p s : bytes) : bool :=
  match p, s with
  | [], _ => true
  | x :: p', y :: s' => (x =? y) && prefixb p' s'
  | _ :: _, [] => false
  end.

(** strings.Index (first occurrence). *)
Fixpoint index (p s : bytes) : option nat :=
  if prefixb p s then Some 0%nat
  else match s with
       | [] => None
       | _ :: s' => option_map S (index p s')
       end.

(** strings.LastIndex (last occurrence), for a non-empty pattern. *)
Fixpoint last_index (p s : bytes) : option nat :=
  match (match s with [] => None | _ :: s' => last_index p s' end) with
  | Some n => Some (S n)
  | None => if prefixb p s then Some 0%nat else None
  end.

Definition contains (p s : bytes) : bool :=
  match index p s with Some _ => true | None => false end.

(** s[i:j] with Go's bounds check against the length (capacity of a string is
    its length; for slices the model only slices within the length). *)
Definition slice (s : bytes) (i j : Z) : res bytes :=
  if (0 <=? i) && (i <=? j) && (j <=? blen s)
  then Ok (firstn (Z.to_nat (j - i)) (skipn (Z.to_nat i) s))
  else Panic.

(** s[i] with bounds check. *)
Definition at_ {A} (l : list A) (i : Z) : res A :=
  if i <? 0 then Panic
  else match nth_error l (Z.to_nat i) with Some a => Ok a | None => Panic end.

(** strings.Replace / ReplaceAll of a one-byte pattern. *)
Definition replace1 (c : Z) (new s : bytes) : bytes :=
  flat_map (fun x => if x =? c then new else [x]) s.

(** unicode.IsSpace at the start of the string: length in bytes of the leading
    white-space rune, 0 if there is none.  White space is: U+0009-000D, U+0020,
    U+0085, U+00A0, U+1680, U+2000-200A, U+2028, U+2029, U+202F, U+205F, U+3000. *)
Definition is_space1 (c : Z) : bool := ((9 <=? c) && (c <=? 13)) || (c =? 32).

Definition is_space2 (c d : Z) : bool := (c =? 194) && ((d =? 133) || (d =? 160)).

Definition is_space3 (c d e : Z) : bool :=
  ((c =? 225) && (d =? 154) && (e =? 128))
  || ((c =? 226) && (d =? 128) &&
      (((128 <=? e) && (e <=? 138)) || (e =? 168) || (e =? 169) || (e =? 175)))
  || ((c =? 226) && (d =? 129) && (e =? 159))
  || ((c =? 227) && (d =? 128) && (e =? 128)).

Definition space_len (s : bytes) : nat :=
  match s with
  | [] => 0
  | c :: s1 =>
    if is_space1 c then 1
    else match s1 with
         | [] => 0
         | d :: s2 =>
           if is_space2 c d then 2
           else match s2 with
                | [] => 0
                | e :: _ => if is_space3 c d e then 3 else 0
                end
         end
  end%nat.

(** Same at the end of a string; the argument is the reversed string. *)
Definition rspace_len (s : bytes) : nat :=
  match s with
  | [] => 0
  | c :: s1 =>
    if is_space1 c then 1
    else match s1 with
         | [] => 0
         | d :: s2 =>
           if is_space2 d c then 2
           else match s2 with
                | [] => 0
                | e :: _ => if is_space3 e d c then 3 else 0
                end
         end
  end%nat.

Fixpoint drop_runs (len : bytes -> nat) (fuel : nat) (s : bytes) : bytes :=
  match fuel with
  | O => s
  | S f => match len s with O => s | k => drop_runs len f (skipn k s) end
  end.

(** strings.TrimSpace / bytes.TrimSpace *)
Definition trim_left_space (s : bytes) : bytes := drop_runs space_len (List.length s) s.
Definition trim_right_space (s : bytes) : bytes :=
  rev (drop_runs rspace_len (List.length s) (rev s)).
Definition trim_space (s : bytes) : bytes := trim_right_space (trim_left_space s).

(** strings.Trim with an ASCII cut set. *)
Fixpoint trim_left_set (cut : Z -> bool) (s : bytes) : bytes :=
  match s with
  | [] => []
  | c :: s' => if cut c then trim_left_set cut s' else s
  end.
Definition trim_set (cut : Z -> bool) (s : bytes) : bytes :=
  rev (trim_left_set cut (rev (trim_left_set cut s))).

(** strings.Split(s, " ") : always at least one piece. *)
Fixpoint split1 (sep : Z) (s : bytes) : list bytes :=
  match s with
  | [] => [[]]
  | c :: s' =>
    if c =? sep then [] :: split1 sep s'
    else match split1 sep s' with
         | [] => [[c]]
         | w :: ws => (c :: w) :: ws
         end
  end.

(** strings.Fields: maximal runs without white space. *)
Fixpoint fields_aux (fuel : nat) (cur : bytes) (s : bytes) : list bytes :=
  let flush (rest : list bytes) := match cur with [] => rest | _ => rev cur :: rest end in
  match fuel with
  | O => flush []
  | S f =>
    match s with
    | [] => flush []
    | c :: s' =>
      match space_len s with
      | O => fields_aux f (c :: cur) s'
      | k => flush (fields_aux f [] (skipn k s))
      end
    end
  end.
Definition fields (s : bytes) : list bytes := fields_aux (S (List.length s)) [] s.

(** Decimal printing: strconv.Itoa, fmt %d. *)
Definition is_digit (c : Z) : bool := (48 <=? c) && (c <=? 57).

Fixpoint digits (fuel : nat) (n : Z) (acc : bytes) : bytes :=
  match fuel with
  | O => acc
  | S f => if n <? 10 then (48 + n) :: acc else digits f (n / 10) ((48 + n mod 10) :: acc)
  end.
Definition utoa (n : Z) : bytes := digits (S (Z.to_nat (Z.log2 n))) n [].
Definition itoa (n : Z) : bytes := if n <? 0 then 45 :: utoa (- n) else utoa n.

(** strconv.Atoi on a 64-bit platform: optional sign, at least one digit,
    digits only, result within int64. *)
Fixpoint dec_value (acc : Z) (s : bytes) : Z :=
  match s with [] => acc | c :: s' => dec_value (10 * acc + (c - 48)) s' end.

Definition int64_min : Z := - 9223372036854775808.
Definition int64_max : Z := 9223372036854775807.

Definition atou (s : bytes) : option Z :=
  match s with
  | [] => None
  | _ => if forallb is_digit s then Some (dec_value 0 s) else None
  end.

Definition atoi (s : bytes) : res Z :=
  let '(neg, body) := match s with
                      | c :: s' => if c =? 43 then (false, s')
                                   else if c =? 45 then (true, s')
                                   else (false, s)
                      | [] => (false, s)
                      end in
  match atou body with
  | None => Err EOther
  | Some v => let v := if neg then - v else v in
              if (int64_min <=? v) && (v <=? int64_max) then Ok v else Err EOther
  end.

(** fmt %0<w>d for a non-negative number. *)
Definition pad0 (w : nat) (s : bytes) : bytes := repeat 48 (w - List.length s) ++ s.

(** Hexadecimal printing: %X with at least [w] digits. *)
Definition hexdigit (d : Z) : Z := if d <? 10 then 48 + d else 55 + d.
Fixpoint hexdigits (fuel : nat) (n : Z) (acc : bytes) : bytes :=
  match fuel with
  | O => acc
  | S f => if n <? 16 then hexdigit n :: acc
           else hexdigits f (n / 16) (hexdigit (n mod 16) :: acc)
  end.
Definition utox (n : Z) : bytes := hexdigits (S (Z.to_nat (Z.log2 n))) n [].
Definition hex4 (n : Z) : bytes := pad0 4 (utox n).

(** The character class [\r\n\t ] of the regular expressions in regex.go. *)
Definition is_ws4 (c : Z) : bool := (c =? 13) || (c =? 10) || (c =? 9) || (c =? 32).

(** ** Generic leftmost, non-overlapping regular expression search.

    A matcher [m] gives, for a suffix of the input, the length of the match
    that starts at its head (or None).  [find_all m s] lists the (start,end)
    offsets that regexp.FindAllIndex returns.  Matches in this code base are
    never empty.  [skip] counts the bytes of the current match still to be
    passed over. *)
Fixpoint find_all_aux (m : bytes -> option nat) (pos skip : nat) (s : bytes) : list (nat * nat) :=
  match s with
  | [] => []
  | _ :: s' =>
    match skip with
    | S k => find_all_aux m (S pos) k s'
    | O => match m s with
           | Some (S n) => (pos, (pos + S n)%nat) :: find_all_aux m (S pos) n s'
           | _ => find_all_aux m (S pos) 0 s'
           end
    end
  end.
Definition find_all (m : bytes -> option nat) (s : bytes) : list (nat * nat) :=
  find_all_aux m 0 0 s.

Definition m_lit (p : bytes) (s : bytes) : option nat :=
  if prefixb p s then Some (List.length p) else None.
