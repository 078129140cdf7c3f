(** The dictionary reader and writer: pdf_obj_property_data.go,
    pdf_obj_properties_data.go, pdf_obj_data.go 57-65. *)
From Coq Require Import String List ZArith Lia Bool.
From Verif Require Import Base.
Open Scope Z_scope.
Open Scope list_scope.

(** pdf_obj_property_data.go:18-21 PDFObjPropertyData *)
Record prop := mkProp { pkey : bytes; pval : bytes }.

(** Go's string(b) for a byte b: the UTF-8 encoding of the code point b
    (pdf_obj_property_data.go:131 [r := string(p.str[i])]). *)
Definition go_char (c : Z) : bytes :=
  if c <? 128 then [c] else [192 + c / 64; 128 + c mod 64].

(** Status argument of parseProps.loop: "", "key", "val". *)
Inductive status := StNone | StKey | StVal.

(** props.at(propsIndex).key += r  and  .rawVal += r: propsIndex is always the
    index of the last property appended. *)
Fixpoint upd_last (f : prop -> prop) (ps : list prop) : list prop :=
  match ps with
  | [] => []
  | [p] => [f p]
  | p :: ps' => p :: upd_last f ps'
  end.
Definition add_key (r : bytes) (ps : list prop) : list prop :=
  upd_last (fun p => mkProp (pkey p ++ r) (pval p)) ps.
Definition add_val (r : bytes) (ps : list prop) : list prop :=
  upd_last (fun p => mkProp (pkey p) (pval p ++ r)) ps.

(** count01 (angle brackets) and count02 (square brackets), lines 149-157. *)
Definition cnt1 (r c1 : Z) : Z := if r =? 60 then c1 + 1 else if r =? 62 then c1 - 1 else c1.
Definition cnt2 (r c2 : Z) : Z := if r =? 91 then c2 + 1 else if r =? 93 then c2 - 1 else c2.

(** parseProps.loop, pdf_obj_property_data.go:127-172, with its recursion kept:
    a recursive call starts a new frame with fresh counters, and when it
    returns (i', status') the calling frame goes on at i'+1 in status'.
    [fuel] bounds the number of steps; None means it ran out (excluded by
    PropsProofs.loop_total). *)
Fixpoint loop (fuel : nat) (str : bytes) (i : nat) (st : status) (c1 c2 : Z) (ps : list prop)
  : option (nat * status * list prop) :=
  match fuel with
  | O => None
  | S f =>
    match nth_error str i with
    | None => Some (i, st, ps)
    | Some r =>
      match st with
      | StNone =>
        if r =? 47 then
          match loop f str (S i) StKey 0 0 (ps ++ [mkProp [] []]) with
          | None => None
          | Some (i', st', ps') => loop f str (S i') st' c1 c2 ps'
          end
        else loop f str (S i) StNone c1 c2 ps
      | StKey =>
        if r =? 32 then
          match loop f str (S i) StVal 0 0 ps with
          | None => None
          | Some (i', st', ps') => loop f str (S i') st' c1 c2 ps'
          end
        else if (r =? 60) || (r =? 91) then
          match loop f str i StVal 0 0 ps with
          | None => None
          | Some (i', st', ps') => loop f str (S i') st' c1 c2 ps'
          end
        else if r =? 47 then Some ((i - 1)%nat, StNone, ps)
        else loop f str (S i) StKey c1 c2 (add_key (go_char r) ps)
      | StVal =>
        let c1' := cnt1 r c1 in
        let c2' := cnt2 r c2 in
        let zero := (c1' =? 0) && (c2' =? 0) in
        if ((r =? 93) || (r =? 62)) && zero then Some (i, StNone, add_val (go_char r) ps)
        else if (r =? 47) && zero then Some ((i - 1)%nat, StNone, ps)
        else loop f str (S i) StVal c1' c2' (add_val (go_char r) ps)
      end
    end
  end.

(** parseProps.set, lines 119-125 *)
Definition parse_props (str : bytes) : res (list prop) :=
  match loop (3 * List.length str + 4) str 0 StNone 0 0 [] with
  | Some (_, _, ps) => Ok ps
  | None => Diverge
  end.

(** regexpLine: "[\r\n\t ]+" replaced by " " (line 99). *)
Fixpoint collapse (s : bytes) : bytes :=
  match s with
  | [] => []
  | c :: s' =>
    if is_ws4 c then
      match s' with
      | d :: _ => if is_ws4 d then collapse s' else 32 :: collapse s'
      | [] => [32]
      end
    else c :: collapse s'
  end.

Fixpoint skip_ws (s : bytes) : bytes :=
  match s with
  | [] => []
  | c :: s' => if is_ws4 c then skip_ws s' else s
  end.

(** "[\r\n\t ]+P" replaced by P (lines 100-104), for a literal P that neither
    holds nor starts with a character of the class: a white-space character
    disappears exactly when the run it belongs to is followed by P. *)
Fixpoint strip (pat s : bytes) : bytes :=
  match s with
  | [] => []
  | c :: s' => if is_ws4 c && prefixb pat (skip_ws s') then strip pat s' else c :: strip pat s'
  end.

(** lines 99-104 *)
Definition norm (s : bytes) : bytes :=
  strip (B">>") (strip (B"<<") (strip (B"]") (strip (B"[") (strip (B"/") (collapse s))))).

Definition stream_kw : bytes := B"stream".   (* extractStreamBytes, pdf_data.go:543 *)

(** readProperties, pdf_obj_property_data.go:78-112 *)
Definition readProperties (raw : bytes) : res (list prop) :=
  let tmp0 := match index stream_kw raw with Some n => firstn n raw | None => raw end in
  match index (B"<<") tmp0, last_index (B">>") tmp0 with
  | Some s, Some e =>
    if (e <? s)%nat then Err EOther
    else do t <- slice raw (Z.of_nat s + 2) (Z.of_nat e);
         parse_props (norm (trim_space t))
  | _, _ => Err EOther
  end.

(** getPropByKey: the first property with the key (pdf_obj_properties_data.go:14-21). *)
Fixpoint getPropByKey (k : bytes) (ps : list prop) : option prop :=
  match ps with
  | [] => None
  | p :: ps' => if beqb (pkey p) k then Some p else getPropByKey k ps'
  end.

(** Assignment through the pointer that getPropByKey returns. *)
Fixpoint setPropByKey (k v : bytes) (ps : list prop) : list prop :=
  match ps with
  | [] => []
  | p :: ps' => if beqb (pkey p) k then mkProp (pkey p) v :: ps' else p :: setPropByKey k v ps'
  end.

(** readProperty, pdf_obj_property_data.go:69-76 *)
Definition readProperty (raw key : bytes) : res (option prop) :=
  do ps <- readProperties raw; Ok (getPropByKey key ps).

(** PDFObjData.setProperties, pdf_obj_data.go:57-65 *)
Definition setProperties (ps : list prop) : bytes :=
  B"<<" ++ [10] ++ flat_map (fun p => [47] ++ pkey p ++ [32] ++ pval p) ps ++ B">>" ++ [10].

(** propertyType, lines 56-67 *)
Inductive ptype := PObject | PArray | PNumber | PDictionary.
Definition propertyType (raw : bytes) : ptype :=
  let raw := trim_space raw in
  if (2 <? blen raw) && prefixb (B"<<") raw then PObject
  else if (1 <? blen raw) && prefixb (B"[") raw then PArray
  else match atoi (trim_space raw) with
       | Ok _ => PNumber
       | _ => PDictionary
       end.

(** setAsDictionary with revision 0, line 27-29 *)
Definition refText (id : Z) : bytes := itoa id ++ B" 0 R".

(** setAsDictionaryArr with revisions nil, lines 31-42 *)
Definition refArrText (ids : list Z) : bytes :=
  B"[" ++ flat_map (fun id => itoa id ++ B" 0 R ") ids ++ B"]".

(** readObjIDFromDictionary, lines 205-222; the returned revision is always 0 *)
Definition readObjID (str : bytes) : res Z :=
  let str := trim_space str in
  match str with
  | [] => Err EObjNotFound
  | _ => match split1 32 str with
         | [a; _; _] => atoi (trim_space a)
         | _ => Err EObjNotFound
         end
  end.

(** readObjIDFromDictionaryArr, lines 174-200.  tokens[i+1] is out of range
    (a panic) when a single token is left.  The revisions are not kept. *)
Fixpoint readObjIDs_loop (tokens : list bytes) : res (list Z) :=
  match tokens with
  | [] => Ok []
  | a :: tl =>
    do id <- atoi (trim_space a);
    match tl with
    | [] => Panic
    | b :: tl2 =>
      do _ <- atoi (trim_space b);
      match tl2 with
      | [] => Ok [id]
      | _ :: tl3 => do ids <- readObjIDs_loop tl3; Ok (id :: ids)
      end
    end
  end.
Definition readObjIDs (str : bytes) : res (list Z) :=
  readObjIDs_loop (split1 32 (trim_space (replace1 93 [] (replace1 91 [] str)))).
