(** Specification vocabulary for font resources (C19, C20, C43, C46): what a page
    offers as fonts, and which documents are considered tidy. *)
From Coq Require Import String List ZArith Lia Bool.
From Verif Require Import Base Output Props PropsSpec PdfData PagesSpec.
Open Scope Z_scope.
Open Scope list_scope.

(** The entries of object [id]. *)
Definition dict (os : list obj) (id : Z) (ps : list prop) : Prop := exists o, version os id o /\ entries o ps.

(** A value that is a dictionary, or refers to one. *)
Definition points (os : list obj) (v : bytes) (ps : list prop) : Prop :=
  (propertyType v = PObject /\ readProperties v = Ok ps) \/
  (exists n, readObjID v = Ok n /\ dict os n ps).

(** The dictionary under the name K in the resources of a page. *)
Definition page_dict (K : bytes) (os : list obj) (id : Z) (fps : list prop) : Prop :=
  exists ps v rps w, dict os id ps /\ value ps (B"Resources") v /\ points os v rps /\
    value rps K w /\ points os w fps.

(** The font dictionary and the image dictionary of a page. *)
Definition page_fonts : list obj -> Z -> list prop -> Prop := page_dict (B"Font").
Definition page_images : list obj -> Z -> list prop -> Prop := page_dict (B"XObject").

(** A name in a font or image dictionary stands for object [n]. *)
Definition font_named (fps : list prop) (k : bytes) (n : Z) : Prop :=
  exists v, value fps k v /\ readObjID v = Ok n.

(** ** Tidy documents *)
Definition once (ps : list prop) (k v : bytes) : Prop :=
  exists a b, ps = a ++ mkProp k v :: b /\ ~ has_key a k /\ ~ has_key b k.

(** The same value every time. *)
Definition alike (ps : list prop) (k v : bytes) : Prop := has_key ps k /\ forall w, In (mkProp k w) ps -> w = v.

(** Where the font dictionary of a page (or image dictionary, with another K) is: in the resource dictionary or in an
    object of its own; likewise for the resource dictionary. *)
Inductive font_place := NoFont | FontIn (fps : list prop) | FontAt (f : Z) (fps : list prop).
Inductive res_place := NoRes | ResIn (rps : list prop) (fp : font_place) | ResAt (r : Z) (rps : list prop) (fp : font_place).

Definition font_is (K : bytes) (os : list obj) (rps : list prop) (fp : font_place) : Prop :=
  match fp with
  | NoFont => ~ has_key rps K
  | FontIn fps => exists v, alike rps K v /\ propertyType v = PObject /\ readProperties v = Ok fps
  | FontAt f fps => exists v, once rps K v /\ readObjID v = Ok f /\ dict os f fps
  end.
Definition page_is (K : bytes) (os : list obj) (id : Z) (ps : list prop) (rp : res_place) : Prop :=
  dict os id ps /\
  match rp with
  | NoRes => ~ has_key ps (B"Resources")
  | ResIn rps fp => exists v, once ps (B"Resources") v /\ propertyType v = PObject /\ readProperties v = Ok rps /\ font_is K os rps fp
  | ResAt r rps fp => exists v, once ps (B"Resources") v /\ readObjID v = Ok r /\ dict os r rps /\ font_is K os rps fp
  end.

Definition font_objects (rp : res_place) : list Z :=
  match rp with ResIn _ (FontAt f _) | ResAt _ _ (FontAt f _) => [f] | _ => [] end.
Definition res_objects (rp : res_place) : list Z := match rp with ResAt r _ _ => [r] | _ => [] end.

Fixpoint tree_ids (t : tree) : list Z := match t with Leaf i => [i] | Node i ts => i :: flat_map tree_ids ts end.

(** getPageCrawl takes an object for an inner node when both names occur. *)
Definition text_of (ps : list prop) : bytes := flat_map (fun p => [47] ++ pkey p ++ [32] ++ pval p ++ [10]) ps.
Definition mentions (ps : list prop) (name : bytes) : Prop := exists a b, text_of ps = a ++ name ++ b.

(** Not only vertical tabs and form feeds. *)
Definition seen_value (p : prop) : Prop := pval p = [] \/ trim_space (pval p) <> [].

(** A page tree of at most two levels below the root in a document with no
    surprises: *)
Record tidy (K : bytes) (p : pdf) (rid : Z) (ts : list tree) (info : Z -> res_place) : Prop := {
  (* no object number is used twice, in the document or in the page tree *)
  td_unique : NoDup (map oid (objs p));
  td_distinct : NoDup (root p :: rid :: flat_map tree_ids ts);
  (* the catalog has one Pages entry, the nodes one Kids entry each *)
  td_catalog : exists ps v, dict (objs p) (root p) ps /\ once ps (B"Pages") v /\ readObjID v = Ok rid /\
    ~ mentions ps (B"/Parent") /\ ~ has_key ps K;
  td_root : exists ps v, dict (objs p) rid ps /\ once ps (B"Kids") v /\ propertyType v = PArray /\
    readObjIDs v = Ok (map tid ts) /\ ~ mentions ps (B"/Parent") /\ ~ has_key ps K;
  td_levels : forall t, In t ts -> (exists id, t = Leaf id) \/ (exists id ids, t = Node id (map Leaf ids));
  (* inner nodes can be told from pages and have no resources of their own *)
  td_inner : forall id kids, In (Node id kids) ts -> exists ps v, dict (objs p) id ps /\ once ps (B"Kids") v /\
    propertyType v = PArray /\ readObjIDs v = Ok (map tid kids) /\ mentions ps (B"/Pages") /\ mentions ps (B"/Parent") /\
    Forall seen_value ps /\ ~ has_key ps (B"Resources") /\ ~ has_key ps K;
  td_pages : forall id, In id (flat_map leaves ts) -> exists ps, page_is K (objs p) id ps (info id) /\
    ~ has_key ps K /\ ~ mentions ps (B"/Pages") /\
    match info id with ResIn rps _ | ResAt _ rps _ => ~ mentions rps (B"/Pages") | NoRes => True end;
  (* resource and font dictionaries are not nodes of the page tree, nor each other *)
  td_apart : forall id r f id', In id (flat_map leaves ts) -> In id' (flat_map leaves ts) ->
    (In r (res_objects (info id)) -> ~ In r (root p :: rid :: flat_map tree_ids ts)) /\
    (In f (font_objects (info id)) -> ~ In f (root p :: rid :: flat_map tree_ids ts) /\ ~ In f (res_objects (info id')))
}.

Arguments td_unique {K}.
Arguments td_distinct {K}.
Arguments td_catalog {K}.
Arguments td_root {K}.
Arguments td_levels {K}.
Arguments td_inner {K}.
Arguments td_pages {K}.
Arguments td_apart {K}.

(** A dictionary value that survives rewriting inside another dictionary:
    brackets match within every name and value and no angle bracket stands alone. *)
Fixpoint balanced (angle square : Z) (v : bytes) : bool :=
  match v with
  | [] => (angle =? 0) && (square =? 0)
  | c :: v' =>
    let angle := if c =? 60 then angle + 1 else if c =? 62 then angle - 1 else angle in
    let square := if c =? 91 then square + 1 else if c =? 93 then square - 1 else square in
    (0 <=? angle) && (0 <=? square) && balanced angle square v'
  end.
Definition embeddable (p : prop) : Prop :=
  balanced 0 0 (pkey p) = true /\ balanced 0 0 (pval p) = true /\ no_lone_angle ([32] ++ pval p ++ [32]).

(** A name of regular characters without brackets. *)
Definition regular_name (k : bytes) : Prop :=
  Forall (fun c => 33 <= c < 127 /\ c <> 47 /\ c <> 60 /\ c <> 62 /\ c <> 91 /\ c <> 93) k /\
  forall a b, k <> a ++ B"stream" ++ b.

(** No other page has the resource object of page [id]. *)
Definition unshared (ids : list Z) (info : Z -> res_place) (id : Z) : Prop :=
  forall r id', In r (res_objects (info id)) -> In id' ids -> In r (res_objects (info id')) -> id' = id.

(** What must hold of the dictionaries that are written anew for a page.  A
    resource object of several pages is written with its entries repeated, so
    brackets must match in the last value, too. *)
Definition writable_page (os : list obj) (ids : list Z) (info : Z -> res_place) (id : Z) : Prop :=
  match info id with
  | ResIn rps (FontIn fps) => (exists o ps v, version os id o /\ entries o ps /\ rewritable (odata o) /\ Forall seen_value ps /\
      once ps (B"Resources") v /\ rewritable v) /\ Forall seen_value rps /\ Forall embeddable rps /\ Forall (fun q => regular_name (pkey q)) fps
  | ResAt r rps (FontIn fps) => (exists o, version os r o /\ rewritable (odata o)) /\ Forall seen_value rps /\
      Forall (fun q => regular_name (pkey q)) fps /\ (unshared ids info id \/ Forall (fun q => balanced 0 0 (pval q) = true) rps)
  | ResIn _ (FontAt _ fps) | ResAt _ _ (FontAt _ fps) => Forall (fun q => regular_name (pkey q)) fps
  | _ => False
  end.

(** A name such as F1 or TT12: no digit and no underscore, then a number. *)
Definition numbered_name (k : bytes) : Prop :=
  exists p n, k = p ++ itoa n /\ 0 <= n < 2 ^ 63 /\ Forall (fun c => 33 <= c < 127 /\ c <> 95 /\ ~ 48 <= c <= 57) p.
