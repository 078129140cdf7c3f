(** The crawler over dictionaries: crawl.go, crawl_result.go and
    getPageCrawl of pdf_data.go. *)
From Coq Require Import String List ZArith Lia Bool Permutation.
From Verif Require Import Base Output Props PdfData.
Open Scope Z_scope.
Open Scope list_scope.

(** crawl_result.go:97-102 crawlResultItem.  [INone] is an item whose typeOfVal
    was never set (a number under the key that is being followed, crawl.go
    63-95); [ICr] holds a nested crawlResult. *)
Inductive item :=
| INone (k : bytes)
| IStr (k v : bytes)
| ICr (k : bytes) (l : list item).

(** crawl.go:13 results: a Go map; an association list with one entry per key
    (kept by [touch] and [emit]). *)
Definition results := list (Z * list item).

Fixpoint mem_key {A} (id : Z) (m : list (Z * A)) : bool :=
  match m with [] => false | (k, _) :: m' => (id =? k) || mem_key id m' end.

(** crawl.go:16-22 resultByObjID *)
Definition touch (id : Z) (m : results) : results :=
  if mem_key id m then m else m ++ [(id, [])].

(** m[id] = f(m[id]) for a key that is there *)
Fixpoint upd_key {A} (id : Z) (f : A -> A) (m : list (Z * A)) : list (Z * A) :=
  match m with
  | [] => []
  | (k, v) :: m' => if id =? k then (k, f v) :: m' else (k, v) :: upd_key id f m'
  end.

(** m[id] = v *)
Definition set_key {A} (id : Z) (v : A) (m : list (Z * A)) : list (Z * A) :=
  if mem_key id m then upd_key id (fun _ => v) m else m ++ [(id, v)].

(** cr.items = append(cr.items, item), crawl.go:99.  The target is either the
    result of an object (in the map) or a nested crawlResult, whose items are
    collected in [acc]. *)
Definition emit (tgt : option Z) (it : item) (m : results) (acc : list item) : results * list item :=
  match tgt with
  | Some id => (upd_key id (fun l => l ++ [it]) m, acc)
  | None => (m, acc ++ [it])
  end.

(** What a call of next returns: the map, the items collected for a nested
    target, and how the call ended; on an error the map keeps what was done
    before.  A call is given the data, the target and the map. *)
Definition crawler := bytes -> option Z -> results -> results * list item * res unit.

(** crawl.go:80-83: the objects of an array; errors are ignored, panics not *)
Fixpoint next_each (os : list obj) (rec : crawler) (l : list Z) (m : results) {struct l} : results * res unit :=
  match l with
  | [] => (m, Ok tt)
  | id :: l' =>
    match getObj id os with
    | Ok o =>
      let '(m1, _, r) := rec (odata o) (Some id) (touch id m) in
      match r with
      | Panic => (m1, Panic)
      | Diverge => (m1, Diverge)
      | _ => next_each os rec l' m1
      end
    | _ => (m, Panic)
    end
  end.

(** crawl.go:55-100: the loop over the properties.  [key] is c.paths[i], [final]
    says that it is the last path component, [rec] is next for i+1. *)
Fixpoint next_props (os : list obj) (key : bytes) (final : bool) (rec : crawler) (tgt : option Z)
    (ps : list prop) (m : results) (acc : list item) {struct ps} : results * list item * res unit :=
  match ps with
  | [] => (m, acc, Ok tt)
  | p :: ps' =>
    let continue it m := let '(m1, acc1) := emit tgt it m acc in next_props os key final rec tgt ps' m1 acc1 in
    if negb (beqb (pkey p) key) then continue (IStr (pkey p) (pval p)) m
    else
      match propertyType (pval p) with
      | PDictionary =>
        match (do id <- readObjID (pval p); do o <- getObj id os; Ok (id, o)) with
        | Ok (id, o) =>
          let '(m1, _, r) := rec (odata o) (Some id) (touch id m) in
          match r with
          | Ok _ => continue (IStr (pkey p) (pval p)) m1
          | e => (m1, acc, e)
          end
        | Err e => (m, acc, Err e)
        | Panic => (m, acc, Panic)
        | Diverge => (m, acc, Diverge)
        end
      | PArray =>
        match readObjIDs (pval p) with
        | Ok ids =>
          let '(m1, r) := next_each os rec ids m in
          match r with
          | Ok _ => continue (IStr (pkey p) (pval p)) m1
          | e => (m1, acc, e)
          end
        | Err e => (m, acc, Err e)
        | Panic => (m, acc, Panic)
        | Diverge => (m, acc, Diverge)
        end
      | PObject =>
        if final then continue (IStr (pkey p) (pval p)) m
        else
          let '(m1, sub, r) := rec (pval p) None m in
          match r with
          | Ok _ => continue (ICr (pkey p) sub) m1
          | e => (m1, acc, e)
          end
      | PNumber => continue (INone (pkey p)) m
      end
  end.

(** crawl.go:40-103 next.  [paths] are the path components not yet followed
    (c.paths[i:]). *)
Fixpoint next (os : list obj) (paths : list bytes) (data : bytes) (tgt : option Z) (m : results)
  {struct paths} : results * list item * res unit :=
  match paths with
  | [] => (m, [], Ok tt)
  | key :: paths' =>
    match readProperties data with
    | Err e => (m, [], Err e)
    | Panic => (m, [], Panic)
    | Diverge => (m, [], Diverge)
    | Ok props =>
      next_props os key (match paths' with [] => true | _ => false end) (next os paths') tgt props m []
    end
  end.

(** crawl.go:24-38 set and run on a fresh crawl *)
Definition crawl_run (os : list obj) (id : Z) (paths : list bytes) : results * res unit :=
  match getObj id os with
  | Ok o => let '(m, _, r) := next os paths (odata o) (Some id) (touch id []) in (m, r)
  | _ => ([], Panic)
  end.

(** crawl_result.go:57-78 loopValOf: a nested result ends the search *)
Fixpoint valOf_item (key : bytes) (it : item) : option (option bytes) :=
  match it with
  | INone _ => None
  | IStr k v => if beqb k key then Some (Some v) else None
  | ICr _ l =>
    Some ((fix go (l : list item) : option bytes :=
             match l with
             | [] => None
             | it :: l' => match valOf_item key it with Some r => r | None => go l' end
             end) l)
  end.
Fixpoint valOf (key : bytes) (l : list item) : option bytes :=
  match l with
  | [] => None
  | it :: l' => match valOf_item key it with Some r => r | None => valOf key l' end
  end.

(** crawl_result.go:41-55 loopSetValOf; the boolean says that the search ended
    at this item.  The error (key not found) is ignored by all callers. *)
Fixpoint setValOf_item (key val : bytes) (it : item) : item * bool :=
  match it with
  | INone k => (it, false)
  | IStr k v => if beqb k key then (IStr k val, true) else (it, false)
  | ICr k l =>
    (ICr k ((fix go (l : list item) : list item :=
               match l with
               | [] => []
               | it :: l' => let '(it', stop) := setValOf_item key val it in
                             if stop then it' :: l' else it' :: go l'
               end) l), true)
  end.
Fixpoint setValOf (key val : bytes) (l : list item) : list item :=
  match l with
  | [] => []
  | it :: l' => let '(it', stop) := setValOf_item key val it in
                if stop then it' :: l' else it' :: setValOf key val l'
  end.

(** crawl_result.go:80-93 loopCrawlResultString *)
Fixpoint item_text (it : item) : bytes :=
  match it with
  | INone k => [47] ++ k ++ [32]
  | IStr k v => [47] ++ k ++ [32] ++ (match trim_space v with [] => [] | _ => v ++ [10] end)
  | ICr k l => [47] ++ k ++ [32] ++ [10; 9] ++ B"<<" ++ flat_map item_text l ++ B">>" ++ [10]
  end.
Definition items_text (l : list item) : bytes := flat_map item_text l.

(** Go iterates maps in an arbitrary order, possibly a new one every time.  An
    order is a choice of permutation for every loop instance; the instance is
    named by a list of numbers. *)
Definition morder := list Z -> forall A, list (Z * A) -> list (Z * A).
Definition fair (o : morder) : Prop := forall t A l, Permutation (o t A l) l.

(** pdf_data.go:80-105 getPageCrawl.  Keys are never added to the queue: line
    98 tests for the key that line 97 has just written.  Errors of run are
    ignored; a panic is not.  [t] names the loop instance. *)
Definition is_inner (l : list item) : bool :=
  let s := items_text l in contains (B"/Pages") s && contains (B"/Parent") s.

Fixpoint merge_all (sub m : results) : results :=
  match sub with [] => m | (k, v) :: sub' => merge_all sub' (set_key k v m) end.

Fixpoint page_crawl_loop (os : list obj) (path : list bytes) (queue : list Z) (m : results) : res results :=
  match queue with
  | [] => Ok m
  | key :: queue' =>
    match map_get m key with
    | Some l =>
      if is_inner l then
        match crawl_run os key path with
        | (_, Panic) => Panic
        | (_, Diverge) => Diverge
        | (sub, _) => page_crawl_loop os path queue' (merge_all sub m)
        end
      else page_crawl_loop os path queue' m
    | None => Panic
    end
  end.

Definition getPageCrawl (ord : morder) (t : list Z) (os : list obj) (id : Z) (path : list bytes) : res results :=
  match crawl_run os id (B"Pages" :: path) with
  | (_, Panic) => Panic
  | (_, Diverge) => Diverge
  | (m, _) => page_crawl_loop os path (map fst (ord t _ m)) m
  end.
