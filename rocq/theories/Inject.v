(** Rewriting of page resources and contents when a document is saved:
    pdf_data.go 162-627, crawl_result_font.go, crawl_result_x_object.go. *)
From Coq Require Import String List ZArith Lia Bool Permutation.
From Verif Require Import Base Output Props PdfData Crawl.
Open Scope Z_scope.
Open Scope list_scope.

(** ** Fonts *)

(** crawl_result_font.go:84-88 crawlResultFont *)
Record cfont := mkCf { cf_prefix : bytes; cf_index : Z; cf_obj : Z }.

Fixpoint first_digit (s : bytes) : option nat :=
  match s with
  | [] => None
  | c :: s' => if is_digit c then Some 0%nat else option_map S (first_digit s')
  end.

(** crawl_result_font.go:16-30 splitFont.  The range loop is over runes; the
    keys it is called with come from the dictionary reader, whose runes are all
    below U+0100, where unicode.IsDigit holds for '0'..'9' only, so bytes do.
    The index i of the digit is used in the string without underscores. *)
Definition splitFont (s : bytes) : res (bytes * Z) :=
  match first_digit s with
  | None => Err ENoFontIndex
  | Some i =>
    let s' := replace1 95 [] s in
    if (List.length s' <? i)%nat then Panic
    else do v <- atoi (skipn i s'); Ok (firstn i s, v)
  end.

(** crawl_result_font.go:32-55 parse (its callers give up on an error) *)
Fixpoint cfonts_of (ps : list prop) : res (list cfont) :=
  match ps with
  | [] => Ok []
  | p :: ps' =>
    do pi <- splitFont (trim_space (pkey p));
    do id <- readObjID (pval p);
    do fs <- cfonts_of ps';
    Ok (mkCf (fst pi) (snd pi) id :: fs)
  end.
Definition cfonts_parse (data : bytes) : res (list cfont) :=
  do ps <- readProperties data; cfonts_of ps.

(** crawl_result_font.go:57-63 String *)
Definition cfonts_text (fs : list cfont) : bytes :=
  flat_map (fun f => [47] ++ cf_prefix f ++ itoa (cf_index f) ++ [32] ++ itoa (cf_obj f) ++ B" 0 R" ++ [10]) fs.

(** crawl_result_font.go:73-81 maxFontIndex *)
Definition maxFontIndex (fs : list cfont) : Z :=
  fold_left (fun m f => if m <? cf_index f then cf_index f else m) fs 0.

(** The existing fonts of one crawl result, pdf_data.go:583-608 and 373-388:
    where the font dictionary is (inline or in another object) and what is in it. *)
Inductive fontdict := FInline (fs : list cfont) | FObject (id : Z) (fs : list cfont) | FArray | FAbsent.

Definition font_dict (os : list obj) (l : list item) : res fontdict :=
  match valOf (B"Font") l with
  | None => Ok FAbsent
  | Some v =>
    match propertyType v with
    | PObject => do fs <- cfonts_parse v; Ok (FInline fs)
    | PDictionary =>
      do id <- readObjID v;
      do o <- getObj id os;
      do fs <- cfonts_parse (odata o);
      Ok (FObject id fs)
    | _ => Ok FArray
    end
  end.

(** pdf_data.go:572-615 findMaxFontIndex, over the results in the order given *)
Fixpoint findMaxFontIndex (os : list obj) (rs : results) (max : Z) : res Z :=
  match rs with
  | [] => Ok max
  | (_, l) :: rs' =>
    do d <- font_dict os l;
    match d with
    | FAbsent => findMaxFontIndex os rs' max
    | FArray => Err EOther
    | FInline fs | FObject _ fs =>
      findMaxFontIndex os rs' (if max <? maxFontIndex fs then maxFontIndex fs else max)
    end
  end.

(** pdf_data.go:355-360: index and entry for every new font, in map order.  A
    font is given by a handle (its map key) and its fontID. *)
Fixpoint newFonts (fonts : list (Z * Z)) (max : Z) : list cfont :=
  match fonts with
  | [] => []
  | (_, id) :: fonts' => mkCf (B"F") (max + 1) id :: newFonts fonts' (max + 1)
  end.

(** pdf_data.go:364-399: the replacements, in the order given *)
Fixpoint fontReplaces (os : list obj) (new : list cfont) (rs : results) (must : list (Z * bytes))
  : res (list (Z * bytes)) :=
  match rs with
  | [] => Ok must
  | (objID, l) :: rs' =>
    do d <- font_dict os l;
    match d with
    | FAbsent | FArray => fontReplaces os new rs' must
    | FInline fs =>
      let l' := setValOf (B"Font") (B"<<" ++ [10] ++ cfonts_text (fs ++ new) ++ B">>" ++ [10]) l in
      fontReplaces os new rs' (set_key objID (items_text l') must)
    | FObject id fs => fontReplaces os new rs' (set_key id (cfonts_text (fs ++ new)) must)
    end
  end.

(** pdf_data.go:335-337, 399-401, 505-508: the assignments at the end *)
Fixpoint replaceAll (wrap : bytes -> bytes) (must : list (Z * bytes)) (os : list obj) : res (list obj) :=
  match must with
  | [] => Ok os
  | (id, s) :: must' => do os' <- setData id (wrap s) os; replaceAll wrap must' os'
  end.
Definition dictwrap (s : bytes) : bytes := B"<<" ++ [10] ++ s ++ B">>" ++ [10].

(** pdf_data.go:342-404 injectFontsToPDF.  The second component gives the
    resource index of every font by its handle. *)
Definition fontPath : list bytes := [B"Kids"; B"Resources"; B"Font"].
Definition injectFonts (ord : morder) (p : pdf) (fonts : list (Z * Z)) : res (pdf * list (Z * Z)) :=
  do rs <- getPageCrawl ord [1] (objs p) (root p) fontPath;
  do max <- findMaxFontIndex (objs p) (ord [2] _ rs) 0;
  let fonts' := ord [3] _ fonts in
  let new := newFonts fonts' max in
  do must <- fontReplaces (objs p) new (ord [4] _ rs) [];
  do os <- replaceAll dictwrap (ord [5] _ must) (objs p);
  Ok (mkPdf (root p) os, combine (map fst fonts') (map cf_index new)).

(** ** Images *)

(** crawl_result_x_object.go:56-60 crawlResultXObject *)
Record xobj := mkXo { xo_char : bytes; xo_index : Z; xo_obj : Z }.

Definition is_letter (c : Z) : bool :=
  ((97 <=? c) && (c <=? 122)) || ((65 <=? c) && (c <=? 90)) || (c =? 32).
Fixpoint span (f : Z -> bool) (s : bytes) : bytes * bytes :=
  match s with
  | [] => ([], [])
  | c :: s' => if f c then let '(a, b) := span f s' in (c :: a, b) else ([], s)
  end.

(** crawl_result_x_object.go:11, 22: letters or spaces, then digits, both groups possibly empty; the match at
    position 0 (possibly empty) is taken. *)
Definition regSplit (s : bytes) : bytes * bytes :=
  let '(a, r) := span is_letter s in (a, fst (span is_digit r)).

(** crawl_result_x_object.go:13-45 parse: the entries read before the first
    error; the error itself is ignored by the callers. *)
Fixpoint xobjs_of (ps : list prop) : list xobj :=
  match ps with
  | [] => []
  | p :: ps' =>
    let '(c, d) := regSplit (pkey p) in
    match (do i <- atoi (trim_space d); do id <- readObjID (pval p); Ok (mkXo c i id)) with
    | Ok x => x :: xobjs_of ps'
    | _ => []
    end
  end.
Definition xobjs_parse (data : bytes) : list xobj :=
  match readProperties data with Ok ps => xobjs_of ps | _ => [] end.

(** crawl_result_x_object.go:47-53 String *)
Definition xobjs_text (xs : list xobj) : bytes :=
  flat_map (fun x => [47] ++ xo_char x ++ itoa (xo_index x) ++ [32] ++ itoa (xo_obj x) ++ B" 0 R") xs.

(** pdf_data.go:172-197: the first result (in map order) with a Resources entry:
    (rootOfXObjectID, isEmbedResources).  resourcesContent is never used. *)
Fixpoint firstResources (rs : results) : res (option (Z * bool)) :=
  match rs with
  | [] => Ok None
  | (resID, l) :: rs' =>
    match valOf (B"Resources") l with
    | None => firstResources rs'
    | Some v =>
      match readObjID v with
      | Ok id => Ok (Some (id, false))
      | Err EObjNotFound => Ok (Some (resID, true))
      | Err e => Err e
      | Panic => Panic
      | Diverge => Diverge
      end
    end
  end.

(** pdf_data.go:214-225 xObjectVals *)
Definition xobjectVals (rs : results) : list (Z * bytes) :=
  flat_map (fun r => match valOf (B"XObject") (snd r) with Some v => [(fst r, v)] | None => [] end) rs.

(** pdf_data.go:247-259: all existing entries, the name prefix and index of the
    last one read, in the order given *)
Fixpoint scanXobjs (vals : list (Z * bytes)) (xs : list xobj) (ch : bytes) (idx : Z) : list xobj * bytes * Z :=
  match vals with
  | [] => (xs, ch, idx)
  | (_, v) :: vals' =>
    let xs' := xs ++ xobjs_parse v in
    match rev xs' with
    | [] => scanXobjs vals' xs' ch idx
    | x :: _ => scanXobjs vals' xs' (xo_char x) (if idx <? xo_index x then xo_index x else idx)
    end
  end.

(** pdf_data.go:261-275: one entry per inserted image (given by object number) *)
Fixpoint newXobjs (imgs : list Z) (ch : bytes) (idx : Z) : list xobj :=
  match imgs with
  | [] => []
  | id :: imgs' => mkXo ch (idx + 1) id :: newXobjs imgs' ch (idx + 1)
  end.

(** pdf_data.go:291-302 *)
Definition same_name (a b : xobj) : bool := beqb (xo_char a) (xo_char b) && (xo_index a =? xo_index b).
Definition addMissing (old xs : list xobj) : list xobj :=
  fold_left (fun acc x => if existsb (fun e => same_name e x) acc then acc else acc ++ [x]) xs old.

Definition imgReplacesFound (xs : list xobj) (rs : results) : list (Z * bytes) :=
  flat_map (fun r =>
    match valOf (B"XObject") (snd r) with
    | None => []
    | Some v =>
      let new := addMissing (xobjs_parse v) xs in
      [(fst r, items_text (setValOf (B"XObject") (B"<<" ++ xobjs_text new ++ B">>" ++ [10]) (snd r)))]
    end) rs.

(** pdf_data.go:308-328 *)
Fixpoint imgReplacesEmbed (xs : list xobj) (rs : results) : res (list (Z * bytes)) :=
  match rs with
  | [] => Ok []
  | (objID, l) :: rs' =>
    match valOf (B"Resources") l with
    | None => imgReplacesEmbed xs rs'
    | Some v =>
      let v := trim_space v in
      do inner <- slice v 2 (blen v - 2);
      let l' := setValOf (B"Resources") (B"<<" ++ inner ++ B" /XObject <<" ++ xobjs_text xs ++ B">>>>" ++ [10]) l in
      do rest <- imgReplacesEmbed xs rs';
      Ok ((objID, items_text l') :: rest)
    end
  end.

(** pdf_data.go:329-337 *)
Definition imgReplacesPlain (xs : list xobj) (rs : results) : list (Z * bytes) :=
  map (fun r => (fst r, items_text (snd r ++ [IStr (B"XObject") (B"<<" ++ xobjs_text xs ++ B">>" ++ [10])]))) rs.

(** A crawl whose error is returned to the caller. *)
Definition crawl_checked (os : list obj) (id : Z) (paths : list bytes) : res results :=
  let '(m, r) := crawl_run os id paths in
  match r with Ok _ => Ok m | Err e => Err e | Panic => Panic | Diverge => Diverge end.

(** pdf_data.go:162-340 injectImgsToPDF; [imgs] are the object numbers of the
    inserted images.  Also returns the resource name (prefix, index) of every
    image.  Result maps have distinct keys, so objMustReplaces does too. *)
Definition injectImgs (ord : morder) (p : pdf) (imgs : list Z) : res (pdf * list (bytes * Z)) :=
  let os := objs p in
  do rsRes <- getPageCrawl ord [11] os (root p) [B"Kids"; B"Resources"];
  do fr <- firstResources (ord [12] _ rsRes);
  match fr with
  | None => Err EOther
  | Some (rootOfX, embed) =>
    do cw1 <- crawl_checked os rootOfX [B"XObject"];
    let vals1 := xobjectVals cw1 in
    do cwv <- match vals1 with
              | [] => do cw2 <- getPageCrawl ord [13] os (root p) [B"Kids"; B"Resources"; B"XObject"];
                      Ok (cw2, xobjectVals cw2)
              | _ => Ok (cw1, vals1)
              end;
    let '(cw, vals) := cwv in
    let '(old, ch, idx) := scanXobjs (ord [14] _ vals) [] (B"I") 0 in
    let new := newXobjs imgs ch idx in
    let xs := old ++ new in
    do must <- match vals with
               | _ :: _ => Ok (imgReplacesFound xs cw)
               | [] =>
                 if embed then
                   do cw01 <- crawl_checked os (root p) [B"Pages"; B"Kids"; B"Resources"];
                   imgReplacesEmbed xs (ord [15] _ cw01)
                 else Ok (imgReplacesPlain xs cw)
               end;
    do os' <- replaceAll dictwrap (ord [16] _ must) os;
    Ok (mkPdf (root p) os', map (fun x => (xo_char x, xo_index x)) new)
  end.

(** ** Contents *)

(** pdf_data.go:513-543 streamLength *)
Definition streamLength (os : list obj) (data : bytes) : res Z :=
  do a <- readProperty data (B"Length");
  do b <- match a with Some _ => Ok a | None => readProperty data (B"Length1") end;
  match b with
  | None => Err EOther
  | Some pr =>
    match propertyType (pval pr) with
    | PNumber => atoi (trim_space (pval pr))
    | PDictionary => do id <- readObjID (pval pr); do o <- getObj id os; atoi (trim_space (odata o))
    | _ => Err EOther
    end
  end.

(** pdf_data.go:545-570 extractStream up to decompression.  [beyond] are the
    bytes that follow the object in memory (its slice usually is a window into
    the file): tmp[0:length] is checked against the capacity, not the length.
    bytes.TrimSpace returns nil when nothing is left.  When there is no
    "stream", index is -1 and the slice starts at 5. *)
Definition rawStream (beyond data : bytes) (length : Z) : res bytes :=
  let start := match index stream_kw data with Some i => Z.of_nat i + 6 | None => 5 end in
  if blen data <? start then Panic
  else
    let tmp := skipn (Z.to_nat start) data in
    let avail := match trim_space tmp with [] => [] | _ => trim_left_space tmp ++ beyond end in
    if (0 <=? length) && (length <=? blen avail) then Ok (firstn (Z.to_nat length) avail) else Panic.

(** pdf_data.go:545-570 extractStream; [inflate] is compress/zlib. *)
Definition extractStream (inflate : bytes -> res bytes) (beyond data : bytes) (length : Z) (zip : bool) : res bytes :=
  do raw <- rawStream beyond data length;
  if zip then inflate raw else Ok raw.

(** pdf_data.go:409-428: the buffers per page, from the list of (page, stream)
    of the contenters in call order.  An error of a contenter ends it. *)
Fixpoint pageBuffs (cs : list (Z * res bytes)) (m : list (Z * bytes)) : res (list (Z * bytes)) :=
  match cs with
  | [] => Ok m
  | (pg, r) :: cs' =>
    let m1 := if mem_key pg m then m else m ++ [(pg, [])] in
    do s <- r;
    pageBuffs cs' (upd_key pg (fun b => b ++ s) m1)
  end.

(** pdf_data.go:446-471: the number of the object with the page's content *)
Definition contentsID (v : bytes) : res (option Z) :=
  match propertyType v with
  | PDictionary => do id <- readObjID v; Ok (Some id)
  | PArray =>
    match readObjIDs v with
    | Ok (id :: _) => Ok (Some id)
    | Ok [] => Ok None              (* return err with err == nil, line 463 *)
    | Err e => Err e
    | Panic => Panic
    | Diverge => Diverge
    end
  | _ => Err EOther
  end.

(** pdf_data.go:499 *)
Definition content_object (s : bytes) : bytes :=
  B"<<" ++ [10] ++ B"/Length " ++ itoa (blen s) ++ [10] ++ B">>" ++ [10] ++ B"stream" ++ [10] ++ s ++ B"endstream".

(** pdf_data.go:439-503: one page.  State: page buffers and replacements; the
    boolean is true when the function returned nil early (line 463). *)
Fixpoint pageResults (inflate : bytes -> res bytes) (beyond : Z -> bytes) (os : list obj) (page : Z)
    (rs : results) (buffs : list (Z * bytes)) (must : list (Z * bytes))
  : res (list (Z * bytes) * list (Z * bytes) * bool) :=
  match rs with
  | [] => Ok (buffs, must, false)
  | (_, l) :: rs' =>
    match valOf (B"Contents") l with
    | None => pageResults inflate beyond os page rs' buffs must
    | Some v =>
      do oid <- contentsID v;
      match oid with
      | None => Ok (buffs, must, true)
      | Some id =>
        do o <- getObj id os;
        do f <- readProperty (odata o) (B"FlateDecode");
        let zip := match f with Some _ => true | None => false end in
        do len <- streamLength os (odata o);
        do stm <- extractStream inflate (beyond id) (odata o) len zip;
        match map_get buffs page with
        | Some b =>
          pageResults inflate beyond os page rs' (set_key page [] buffs)
            (set_key id (content_object (stm ++ [10] ++ b)) must)
        | None => pageResults inflate beyond os page rs' buffs must
        end
      end
    end
  end.

Fixpoint pagesLoop (ord : morder) (inflate : bytes -> res bytes) (beyond : Z -> bytes) (os : list obj)
    (page : Z) (ids : list Z) (buffs must : list (Z * bytes)) : res (list (Z * bytes) * bool) :=
  match ids with
  | [] => Ok (must, false)
  | id :: ids' =>
    do rs <- crawl_checked os id [B"Contents"];
    do st <- pageResults inflate beyond os page (ord [21; page] _ rs) buffs must;
    let '(buffs', must', stop) := st in
    if stop then Ok (must', true)
    else pagesLoop ord inflate beyond os (page + 1) ids' buffs' must'
  end.

(** pdf_data.go:406-511 injectContentToPDF *)
Definition injectContent (ord : morder) (inflate : bytes -> res bytes) (beyond : Z -> bytes) (fuel : nat)
    (p : pdf) (cs : list (Z * res bytes)) : res pdf :=
  do buffs <- pageBuffs cs [];
  do ids <- getPageObjIDs fuel p;
  do st <- pagesLoop ord inflate beyond (objs p) 1 ids buffs [];
  let '(must, stop) := st in
  if stop then Ok p
  else
    do os <- replaceAll (fun s => s) (ord [22] _ must) (objs p);
    Ok (mkPdf (root p) os).
