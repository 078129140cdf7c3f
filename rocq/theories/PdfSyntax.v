(** A reader of PDF objects after the grammar of ISO 32000-1, 7.2 and 7.3; part
    of the specification, written without looking at how pdft reads.  Comments
    and #-escapes in names are not covered. *)
From Coq Require Import String List ZArith Lia Bool.
From Verif Require Import Base CryptoSpec.
Open Scope Z_scope.
Open Scope list_scope.

Inductive pv :=
| PInt (n : Z)
| PWord (w : bytes)          (* true, false, null, real numbers *)
| PName (n : bytes)
| PStr (s : bytes)
| PHex (s : bytes)
| PRef (n g : Z)
| PArr (l : list pv)
| PDict (l : list (bytes * pv)).

Definition wsp (c : Z) : bool := (c =? 0) || (c =? 9) || (c =? 10) || (c =? 12) || (c =? 13) || (c =? 32).
Definition delim (c : Z) : bool :=
  (c =? 40) || (c =? 41) || (c =? 60) || (c =? 62) || (c =? 91) || (c =? 93) || (c =? 123) || (c =? 125) || (c =? 47) || (c =? 37).
Definition regular (c : Z) : bool := negb (wsp c) && negb (delim c).

Fixpoint skip (s : bytes) : bytes := match s with c :: t => if wsp c then skip t else s | [] => [] end.

Fixpoint span (p : Z -> bool) (s : bytes) : bytes * bytes :=
  match s with
  | c :: t => if p c then let (a, b) := span p t in (c :: a, b) else ([], s)
  | [] => ([], [])
  end.

(** A whole number, perhaps signed. *)
Definition number (w : bytes) : option Z :=
  match w with
  | c :: t => if c =? 45 then option_map Z.opp (atou t) else if c =? 43 then atou t else atou w
  | [] => None
  end.

(** After a number: generation and the keyword R. *)
Definition ref_tail (s : bytes) : option (Z * bytes) :=
  let (g, r) := span regular (skip s) in
  match atou g with
  | None => None
  | Some n => let (k, r') := span regular (skip r) in if beqb k (B"R") then Some (n, r') else None
  end.

Fixpoint value (f : nat) (s : bytes) : option (pv * bytes) :=
  match f with
  | O => None
  | S f =>
    match skip s with
    | [] => None
    | c :: t =>
      if c =? 47 then let (n, r) := span regular t in Some (PName n, r)
      else if c =? 91 then match items f t with Some (l, r) => Some (PArr l, r) | None => None end
      else if c =? 40 then match lit 0 t with Some (l, r) => Some (PStr l, r) | None => None end
      else if c =? 60 then
        match t with
        | d :: t' => if d =? 60 then match entries f t' with Some (l, r) => Some (PDict l, r) | None => None end
                     else let (h, r) := span (fun x => negb (x =? 62)) t in
                          match r with _ :: r' => Some (PHex h, r') | [] => None end
        | [] => None
        end
      else
        let (w, r) := span regular (c :: t) in
        match w with
        | [] => None
        | _ => match number w with
               | None => Some (PWord w, r)
               | Some n => match ref_tail r with Some (g, r') => Some (PRef n g, r') | None => Some (PInt n, r) end
               end
        end
    end
  end
with items (f : nat) (s : bytes) : option (list pv * bytes) :=
  match f with
  | O => None
  | S f =>
    match skip s with
    | [] => None
    | c :: t =>
      if c =? 93 then Some ([], t)
      else match value f (c :: t) with
           | Some (v, r) => match items f r with Some (l, r') => Some (v :: l, r') | None => None end
           | None => None
           end
    end
  end
with entries (f : nat) (s : bytes) : option (list (bytes * pv) * bytes) :=
  match f with
  | O => None
  | S f =>
    match skip s with
    | [] => None
    | c :: t =>
      if c =? 62 then match t with d :: t' => if d =? 62 then Some ([], t') else None | [] => None end
      else if c =? 47 then
        let (n, r) := span regular t in
        match value f r with
        | Some (v, r1) => match entries f r1 with Some (l, r') => Some ((n, v) :: l, r') | None => None end
        | None => None
        end
      else None
    end
  end.

(** [v] is the object at the start of [s] and [r] what follows it.  More fuel
    never changes the answer (PdfSyntaxProofs.value_mono), so [v] and [r] are
    unique. *)
Definition reads (s : bytes) (v : pv) (r : bytes) : Prop := exists f, value f s = Some (v, r).

(** An object that is a stream: the dictionary, then the keyword, one line end,
    the bytes that /Length tells, perhaps a line end, "endstream". *)
Fixpoint lookup (k : bytes) (l : list (bytes * pv)) : option pv :=
  match l with [] => None | (n, v) :: l' => if beqb n k then Some v else lookup k l' end.

Definition stream_object (s : bytes) (d : list (bytes * pv)) (body : bytes) : Prop :=
  exists rest eol eol2 trail, reads s (PDict d) rest /\ skip rest = B"stream" ++ eol ++ body ++ eol2 ++ B"endstream" ++ trail /\
    (eol = [10] \/ eol = [13; 10]) /\ (eol2 = [] \/ eol2 = [10] \/ eol2 = [13; 10] \/ eol2 = [13]) /\
    lookup (B"Length") d = Some (PInt (blen body)).

Example reads_case : reads (B" << /A [1 0 R -2 /B (x(y)) <41>] /C<</D true>>/E 3 >> x")
  (PDict [(B"A", PArr [PRef 1 0; PInt (-2); PName (B"B"); PStr (B"x(y)"); PHex (B"41")]);
               (B"C", PDict [(B"D", PWord (B"true"))]); (B"E", PInt 3)]) (B" x").
Proof. exists 20%nat. vm_compute. reflexivity. Qed.
