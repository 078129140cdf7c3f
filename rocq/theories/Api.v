(** The PDFt object: pdft.go, pdf_font_data.go, pdf_image_data.go,
    content_*.go.  Every exported call is a transition. *)
From Coq Require Import String List ZArith Lia Bool Permutation.
From Coq.Floats Require Import SpecFloat.
From Verif Require Import Base Output Props PdfData Crawl Inject Md5Rc4 Crypto Png Utf8 Float64 Ttf Subset Text Wrap Parse.
Open Scope Z_scope.
Open Scope list_scope.

(** ** What the library calls *)

(** The standard library functions that are not implemented here:
    image.DecodeConfig, zlib, strconv.ParseFloat, encoding/base64. *)
Record world := mkWorld {
  w_config : bytes -> imgFormat;
  w_inflate : bytes -> res bytes;
  w_compress : bytes -> bytes;
  w_float : bytes -> res f64;
  w_base64 : bytes -> res bytes }.

(** ** State *)

(** pdf_font_data.go:11-30 PDFFontData.  The buffers of the five objects live in
    the objects; every build appends to them.  [fd_beyond] are the bytes behind
    the font file up to the capacity of its slice. *)
Record font := mkFont {
  fd_family : bytes; fd_ttf : ttf; fd_beyond : bytes; fd_map : charmap;
  fd_kern : option kernfn; fd_rise : option risefn; fd_index : Z; fd_id : Z;
  fd_bufs : bytes * bytes * bytes * bytes * bytes }.
Definition sfont_of (f : font) : sfont := mkSfont (fd_ttf f) (fd_map f) (fd_kern f) (fd_rise f).
Definition set_map (f : font) (m : charmap) : font :=
  mkFont (fd_family f) (fd_ttf f) (fd_beyond f) m (fd_kern f) (fd_rise f) (fd_index f) (fd_id f) (fd_bufs f).

(** pdf_image_data.go:11-16 PDFImageData: the bytes of the object and the
    resource name given to it at the last save *)
Record image := mkImage { im_data : bytes; im_char : bytes; im_index : Z }.

(** contenter.go, content_text.go, content_line_style.go, content_img_base64.go.
    Fonts and images are shared by pointers: numbers of the lists below. *)
Inductive contenter :=
| CLine (dotted : bool) (width : f64)
| CText (font : nat) (c : ctext)
| CImg (image : nat) (page : Z) (x y w h height : f64).

(** pdft.go:51-67 PDFt.  [s_fonts] and [s_imgs] hold all fonts and images ever
    made; [s_names] is fontDatas and [s_cache] pdfImgsMd5Map (None: nil map, as
    before the first Open).  pdfImgs is s_imgs itself: images are added to it
    when they are made. *)
Record state := mkState {
  s_doc : doc; s_names : option (list (bytes * nat)); s_fonts : list font;
  s_imgs : list image; s_cache : option (list (bytes * nat));
  s_fname : bytes; s_style : Z; s_size : Z; s_line : f64;
  s_cont : list contenter; s_prot : option protection }.

(** var p PDFt *)
Definition new_pdft : state :=
  mkState (mkDoc (mkPdf 0 []) [] []) None [] [] None [] 0 0 (fofz 0) [] None.

Definition with_doc (s : state) (d : doc) : state :=
  mkState d (s_names s) (s_fonts s) (s_imgs s) (s_cache s) (s_fname s) (s_style s) (s_size s) (s_line s) (s_cont s) (s_prot s).
Definition with_pdf (s : state) (p : pdf) : state := with_doc s (mkDoc p (d_xrefs (s_doc s)) (d_sizes (s_doc s))).
Definition with_fonts (s : state) (fs : list font) : state :=
  mkState (s_doc s) (s_names s) fs (s_imgs s) (s_cache s) (s_fname s) (s_style s) (s_size s) (s_line s) (s_cont s) (s_prot s).
Definition with_names (s : state) (n : option (list (bytes * nat))) : state :=
  mkState (s_doc s) n (s_fonts s) (s_imgs s) (s_cache s) (s_fname s) (s_style s) (s_size s) (s_line s) (s_cont s) (s_prot s).
Definition with_imgs (s : state) (is : list image) : state :=
  mkState (s_doc s) (s_names s) (s_fonts s) is (s_cache s) (s_fname s) (s_style s) (s_size s) (s_line s) (s_cont s) (s_prot s).
Definition with_cache (s : state) (c : option (list (bytes * nat))) : state :=
  mkState (s_doc s) (s_names s) (s_fonts s) (s_imgs s) c (s_fname s) (s_style s) (s_size s) (s_line s) (s_cont s) (s_prot s).
Definition with_curr (s : state) (n : bytes) (style size : Z) : state :=
  mkState (s_doc s) (s_names s) (s_fonts s) (s_imgs s) (s_cache s) n style size (s_line s) (s_cont s) (s_prot s).
Definition with_line (s : state) (l : f64) : state :=
  mkState (s_doc s) (s_names s) (s_fonts s) (s_imgs s) (s_cache s) (s_fname s) (s_style s) (s_size s) l (s_cont s) (s_prot s).
Definition with_cont (s : state) (cs : list contenter) : state :=
  mkState (s_doc s) (s_names s) (s_fonts s) (s_imgs s) (s_cache s) (s_fname s) (s_style s) (s_size s) (s_line s) cs (s_prot s).
Definition with_prot (s : state) (p : option protection) : state :=
  mkState (s_doc s) (s_names s) (s_fonts s) (s_imgs s) (s_cache s) (s_fname s) (s_style s) (s_size s) (s_line s) (s_cont s) p.

(** Looking a name up in a map that may be nil. *)
Fixpoint assoc {A} (k : bytes) (m : list (bytes * A)) : option A :=
  match m with [] => None | (a, v) :: m' => if beqb a k then Some v else assoc k m' end.
Definition lookup {A} (k : bytes) (m : option (list (bytes * A))) : option A :=
  match m with None => None | Some m => assoc k m end.

(** How a call ends: the state, and the error if there is one. *)
Definition ends := res (state * option err).
Definition ok (s : state) : ends := Ok (s, None).
Definition fails (s : state) (e : err) : ends := Ok (s, Some e).

(** ** Calls *)

(** pdft.go:75-87 ShowCellBorder *)
Definition showCellBorder (b : bool) (s : state) : state :=
  let w := if b then fconst 1 10 else fofz 0 in
  with_line (with_cont s (s_cont s ++ [CLine b w])) w.

(** pdft.go:101-115 OpenFrom *)
Definition openFrom (w : world) (fuel : nat) (raw : bytes) (s : state) : ends :=
  let s1 := with_cache (with_line (with_names s (Some [])) (fofz 1)) (Some []) in
  let '(d, r) := PDFParse (w_float w) fuel raw (s_doc s) in
  match r with
  | Ok _ => ok (showCellBorder false (with_doc s1 d))
  | Err e => fails (with_doc s1 d) e
  | Panic => Panic
  | Diverge => Diverge
  end.

(** pdft.go:118-205: the page functions (PdfData.v) *)
Definition page_call (s : state) (o : outcome) : ends :=
  match o with
  | Ok (p, e) => Ok (with_pdf s p, e)
  | Err e => fails s e
  | Panic => Panic
  | Diverge => Diverge
  end.

(** pdft.go:483-511 AddFont and AddFontFrom; [file] is what was read, None if
    reading failed *)
Definition addFont (name : bytes) (file : option bytes) (beyond : bytes) (s : state) : ends :=
  match lookup name (s_names s) with
  | Some _ => fails s EAddSameFontName
  | None =>
    match (match file with Some d => parseTtf d | None => Err EOther end) with
    | Ok t =>
      match s_names s with
      | None => Panic
      | Some names =>
        let id := List.length (s_fonts s) in
        ok (with_names (with_fonts s (s_fonts s ++ [mkFont name t beyond [] None None 0 0 ([], [], [], [], [])]))
              (Some (names ++ [(name, id)])))
      end
    | Err e => fails s e
    | Panic => Panic
    | Diverge => Diverge
    end
  end.

(** pdft.go:519-551; a function value is a value *)
Definition upd_font (s : state) (id : nat) (f : font -> font) : state := with_fonts s (set_nth id f (s_fonts s)).
Definition textriseOverride (name : bytes) (h : risefn) (s : state) : ends :=
  match lookup name (s_names s) with
  | None => fails s EFontNameNotFound
  | Some id => ok (upd_font s id (fun f => mkFont (fd_family f) (fd_ttf f) (fd_beyond f) (fd_map f) (fd_kern f) (Some h) (fd_index f) (fd_id f) (fd_bufs f)))
  end.
Definition kernOverride (name : bytes) (k : kernfn) (s : state) : ends :=
  match lookup name (s_names s) with
  | None => fails s EFontNameNotFound
  | Some id => ok (upd_font s id (fun f => mkFont (fd_family f) (fd_ttf f) (fd_beyond f) (fd_map f) (Some k) (fd_rise f) (fd_index f) (fd_id f) (fd_bufs f)))
  end.

(** pdft.go:793-805 getConvertedStyle.  strings.ToUpper maps letters of other
    alphabets, but gives the letters B, I, U for b, i, u and dotless i only
    (U+0131, bytes 196 177). *)
Fixpoint style_has (upper lower : Z) (s : bytes) : bool :=
  match s with [] => false | c :: s' => (c =? upper) || (c =? lower) || style_has upper lower s' end.
Definition getConvertedStyle (s : bytes) : Z :=
  Z.lor (Z.lor (if style_has 66 98 s then 2 else 0)
               (if style_has 73 105 s || contains [196; 177] s then 1 else 0))
        (if style_has 85 117 s then 4 else 0).

(** pdft.go:553-562 SetFont *)
Definition setFont (name style : bytes) (size : Z) (s : state) : ends :=
  match lookup name (s_names s) with
  | None => fails s EFontNameNotFound
  | Some _ => ok (with_curr s name (getConvertedStyle style) size)
  end.

(** pdft.go:339-345 pageHeight; val[3] panics on a shorter array *)
Definition pageHeight (s : state) (page : Z) : res f64 :=
  match map_get (d_sizes (s_doc s)) (page - 1) with
  | Some l => match nth_error l 3 with Some h => Ok h | None => Panic end
  | None => Ok (fconst 84189 100)
  end.

(** pdf_font_data.go:60-62 addChars on a font *)
Definition font_add (f : font) (text : bytes) : font * res unit :=
  let '(m, r) := add_chars (fd_ttf f) text (fd_map f) in (set_map f m, r).

(** pdft.go:297-319 Insert *)
Definition insert_text (text : bytes) (page : Z) (x y w h : f64) (align : Z) (color : option (Z * Z * Z)) (s : state) : ends :=
  do ph <- pageHeight s page;
  match lookup (s_fname s) (s_names s) with
  | None => fails s EFontNameNotFound
  | Some id =>
    match nth_error (s_fonts s) id with
    | None => Panic
    | Some f =>
      let c := mkText text color (s_style s) (s_size s) page x y w h align (s_line s) ph in
      let '(f', r) := font_add f text in
      let s' := upd_font (with_cont s (s_cont s ++ [CText id c])) id (fun _ => f') in
      match r with
      | Ok _ => ok s'
      | Err e => fails s' e
      | Panic => Panic
      | Diverge => Diverge
      end
    end
  end.

(** pdft.go:322-337 MeasureTextWidth: the characters are added through the map
    entry, which is nil for an unknown name; the check behind it comes too late *)
Definition measureTextWidth (text : bytes) (s : state) : res (state * res f64) :=
  match lookup (s_fname s) (s_names s) with
  | None => Panic
  | Some id =>
    match nth_error (s_fonts s) id with
    | None => Panic
    | Some f =>
      let '(f', r) := measure_text (sfont_of f) (s_size s) text in
      do _ <- pageHeight s 1;
      let s' := upd_font s id (fun f => set_map f (sf_map f')) in
      match r with Panic => Panic | Diverge => Diverge | r => Ok (s', r) end
    end
  end.

(** pdft.go:286-292: the lines, until one fails *)
Fixpoint insert_lines (lines : list (bytes * f64)) (page : Z) (x w h : f64) (align : Z) (color : option (Z * Z * Z)) (s : state) : ends :=
  match lines with
  | [] => ok s
  | (t, y) :: lines' =>
    do r <- insert_text t page x y w h align color s;
    match snd r with
    | Some e => fails (fst r) e
    | None => insert_lines lines' page x w h align color (fst r)
    end
  end.

(** pdft.go:217-294 InsertWrapText; [breaker] is the caller's text breaker, None
    for nil.  Tokens are only measured when they are not empty. *)
Definition insertWrapText (text : bytes) (page : Z) (x y w h : f64) (align : Z) (color : option (Z * Z * Z))
    (breaker : option (bytes -> res (list bytes))) (s : state) : ends :=
  match breaker with
  | None => insert_text text page x y w h align color s
  | Some b =>
    match b text with
    | Err e => fails s e
    | Panic => Panic
    | Diverge => Diverge
    | Ok toks =>
      if forallb (fun t => beqb t []) toks then ok s
      else
        match lookup (s_fname s) (s_names s) with
        | None => Panic
        | Some id =>
          match nth_error (s_fonts s) id with
          | None => Panic
          | Some f =>
            do _ <- pageHeight s 1;
            let '(f', r) := wrap_lines (sfont_of f) (s_size s) w y align toks in
            let s' := upd_font s id (fun f => set_map f (sf_map f')) in
            match r with
            | Ok lines => insert_lines lines page x w h align color s'
            | Err e => fails s' e
            | Panic => Panic
            | Diverge => Diverge
            end
          end
        end
    end
  end.

(** pdft.go:391-430 InsertImg: the objects (Png.v) and the image; [beyond] are the
    bytes behind the decoded image data *)
Definition new_image (w : world) (beyond img : bytes) (s : state) : res (state * option err) :=
  match insertImgObj (w_config w) (w_inflate w) (w_compress w) beyond (d_pdf (s_doc s)) img with
  | Ok (p, data) => ok (with_imgs (with_pdf s p) (s_imgs s ++ [mkImage data [] 0]))
  | Err e => fails s e
  | Panic => Panic
  | Diverge => Diverge
  end.
Definition place_image (id : nat) (page : Z) (x y w h : f64) (s : state) : ends :=
  do ph <- pageHeight s page;
  ok (with_cont s (s_cont s ++ [CImg id page x y w h ph])).
Definition insertImg (wd : world) (beyond img : bytes) (page : Z) (x y w h : f64) (s : state) : ends :=
  do r <- new_image wd beyond img s;
  match snd r with
  | Some e => fails (fst r) e
  | None => place_image (List.length (s_imgs s)) page x y w h (fst r)
  end.

(** pdft.go:348-388 InsertImgBase64 *)
Definition insertImgBase64 (wd : world) (beyond b64 : bytes) (page : Z) (x y w h : f64) (s : state) : ends :=
  match w_base64 wd b64 with
  | Ok img => insertImg wd beyond img page x y w h s
  | Err e => fails s e
  | Panic => Panic
  | Diverge => Diverge
  end.

(** pdft.go:433-473 InsertImgWithCache; the map keys are md5 sums (as hexadecimal
    text in Go) *)
Definition insertImgWithCache (wd : world) (beyond img : bytes) (page : Z) (x y w h : f64) (s : state) : ends :=
  let key := md5 img in
  match lookup key (s_cache s) with
  | Some id => place_image id page x y w h s
  | None =>
    do r <- new_image wd beyond img s;
    match snd r with
    | Some e => fails (fst r) e
    | None =>
      match s_cache s with
      | None => Panic
      | Some c =>
        let id := List.length (s_imgs s) in
        place_image id page x y w h (with_cache (fst r) (Some (c ++ [(key, id)])))
      end
    end
  end.

(** pdft.go:770-782 SetProtection; [rnd] is the random owner password *)
Definition setProt (rnd : bytes) (perm : Z) (user owner : bytes) (s : state) : ends :=
  match setProtection rnd perm user owner with
  | Ok p => ok (with_prot s (Some p))
  | Err e => fails s e
  | Panic => Panic
  | Diverge => Diverge
  end.

(** ** Saving *)

(** pdf_font_data.go:64-124 build: the texts are appended to the buffers *)
Definition font_build (w : world) (f : font) (start : Z) : res font :=
  let t := fd_ttf f in
  let m := fd_map f in
  do cid <- cid_obj t m (fd_family f) (start + 4);
  do dict <- dict_obj (w_compress w) t (fd_beyond f) m;
  let '(b1, b2, b3, b4, b5) := fd_bufs f in
  Ok (mkFont (fd_family f) t (fd_beyond f) m (fd_kern f) (fd_rise f) (fd_index f) (start + 1)
        (b1 ++ font_obj (fd_family f) (start + 2) (start + 3), b2 ++ cid, b3 ++ unicode_obj m,
         b4 ++ desc_obj t (fd_family f) (start + 5), b5 ++ dict)).

(** pdft.go:600-608: numbers and texts for the fonts in map order; build takes
    the number after start for the first object and leaves start unused *)
Fixpoint build_fonts (w : world) (ids : list nat) (fs : list font) (next : Z) : list font * res Z :=
  match ids with
  | [] => (fs, Ok next)
  | id :: ids' =>
    match nth_error fs id with
    | None => (fs, Panic)
    | Some f =>
      match font_build w f (next + 1) with
      | Ok f' => build_fonts w ids' (set_nth id (fun _ => f') fs) (next + 6)
      | Err e => (fs, Err e)
      | Panic => (fs, Panic)
      | Diverge => (fs, Diverge)
      end
    end
  end.

(** pdft.go:618-645: the five objects of a font *)
Definition font_objs (f : font) : list obj :=
  let '(b1, b2, b3, b4, b5) := fd_bufs f in
  [mkObj (fd_id f) b1; mkObj (fd_id f + 1) b2; mkObj (fd_id f + 2) b3; mkObj (fd_id f + 3) b4; mkObj (fd_id f + 4) b5].

(** pdft.go:647-655: one object per image *)
Fixpoint img_objs (is : list image) (next : Z) : list obj :=
  match is with [] => [] | i :: is' => mkObj (next + 1) (im_data i) :: img_objs is' (next + 1) end.

(** contenter.go: page and text of a content, with the fonts and images as they
    are when saving *)
Definition content_of (fs : list font) (is : list image) (c : contenter) : Z * res bytes :=
  match c with
  | CLine d w => (1, Ok (line_stream d w))
  | CText id c => (ct_page c, match nth_error fs id with
                              | Some f => text_stream (sfont_of f) (fd_index f) c
                              | None => Panic
                              end)
  | CImg id page x y w h height =>
    (page, match nth_error is id with
           | Some i => Ok (img_stream w h x y height (im_char i) (im_index i))
           | None => Panic
           end)
  end.

(** pdft.go:666-673: encrypt's error is dropped, the object stays as it is *)
Fixpoint encrypt_all (pr : protection) (os : list obj) : res (list obj) :=
  match os with
  | [] => Ok []
  | o :: os' =>
    do o' <- match encrypt pr o with Ok o' => Ok o' | Err _ => Ok o | Panic => Panic | Diverge => Diverge end;
    do l <- encrypt_all pr os';
    Ok (o' :: l)
  end.

(** fontData.setFontIndex of pdf_data.go:359 *)
Definition set_index (fs : list font) (h : Z * Z) : list font :=
  set_nth (Z.to_nat (fst h)) (fun f => mkFont (fd_family f) (fd_ttf f) (fd_beyond f) (fd_map f) (fd_kern f) (fd_rise f) (snd h) (fd_id f) (fd_bufs f)) fs.

(** The choices Go's runtime makes during a save: orders of map iteration,
    whether append found room behind the objects (their array then stays
    shared with the saved copy), the bytes behind each object's data. *)
Record choices := mkChoices { ch_ord : morder; ch_room : bool; ch_beyond : Z -> bytes }.

(** What SaveTo leaves: the state, and the file or the error. *)
Definition save_ends := res (state * res bytes).

(** pdft.go:578-710 SaveTo, build, toStream.

    The copy of the document (newpdf) shares the array of objects with the
    original, so assignments to objects change the original too, until an append
    moves the copy to a new array. *)
Definition saveTo (w : world) (fuel : nat) (ch : choices) (s : state) : save_ends :=
  let ord := ch_ord ch in
  let p0 := d_pdf (s_doc s) in
  let handles := match s_names s with Some n => map (fun x => (Z.of_nat (snd x), tt)) n | None => [] end in
  let order := map (fun x => Z.to_nat (fst x)) (ord [31] _ handles) in
  let '(fs1, r1) := build_fonts w order (s_fonts s) (maxID (objs p0)) in
  let s1 := with_fonts s fs1 in
  match r1 with
  | Panic => Panic
  | Diverge => Diverge
  | Err e => Ok (s1, Err e)
  | Ok next =>
    let font_of (id : nat) := match nth_error fs1 id with Some f => fd_id f | None => 0 end in
    match injectFonts ord p0 (map (fun id => (Z.of_nat id, font_of id)) order) with
    | Panic => Panic
    | Diverge => Diverge
    | Err e => Ok (s1, Err e)
    | Ok (p1, idx) =>
      let fs2 := fold_left set_index idx fs1 in
      let s2 := with_pdf (with_fonts s1 fs2) p1 in
      let new := flat_map (fun x => match nth_error fs2 (Z.to_nat (fst x)) with Some f => font_objs f | None => [] end) (ord [32] _ handles) in
      let imgs := img_objs (s_imgs s) next in
      let last := next + Z.of_nat (List.length imgs) in
      let p3 := mkPdf (root p1) (objs p1 ++ new ++ imgs) in
      let shared := match new ++ imgs with [] => true | _ => ch_room ch end in
      let keep (s : state) (p : pdf) := if shared then with_pdf s (mkPdf (root p) (firstn (List.length (objs p0)) (objs p))) else s in
      match injectImgs ord p3 (map oid imgs) with
      | Panic => Panic
      | Diverge => Diverge
      | Err e => Ok (s2, Err e)
      | Ok (p4, names) =>
        let is := map (fun x => mkImage (im_data (fst x)) (fst (snd x)) (snd (snd x))) (combine (s_imgs s) names) in
        let s4 := keep (with_imgs s2 is) p4 in
        match injectContent ord (w_inflate w) (ch_beyond ch) fuel p4 (map (content_of fs2 is) (s_cont s)) with
        | Panic => Panic
        | Diverge => Diverge
        | Err e => Ok (s4, Err e)
        | Ok p5 =>
          match s_prot s with
          | None => Ok (keep s4 p5, Ok (toStream (objs p5) last (root p5) None))
          | Some pr =>
            do os <- encrypt_all pr (objs p5);
            Ok (keep s4 (mkPdf (root p5) os), Ok (toStream os last (root p5) (Some (enc_dict pr))))
          end
        end
      end
    end
  end.

(** ** Histories *)
Inductive call :=
| KOpen (raw : bytes)
| KAddFont (name : bytes) (file : option bytes) (beyond : bytes)
| KRise (name : bytes) (h : risefn)
| KKern (name : bytes) (k : kernfn)
| KSetFont (name style : bytes) (size : Z)
| KInsert (text : bytes) (page : Z) (x y w h : f64) (align : Z) (color : option (Z * Z * Z))
| KWrap (text : bytes) (page : Z) (x y w h : f64) (align : Z) (color : option (Z * Z * Z)) (breaker : option (bytes -> res (list bytes)))
| KMeasure (text : bytes)
| KImg (beyond img : bytes) (page : Z) (x y w h : f64)
| KImg64 (beyond b64 : bytes) (page : Z) (x y w h : f64)
| KImgCache (beyond img : bytes) (page : Z) (x y w h : f64)
| KBorder (b : bool)
| KRemove (k : Z)
| KKeep (k : Z)
| KDuplicate (k pos : Z)
| KProtect (rnd : bytes) (perm : Z) (user owner : bytes)
| KSave (ch : choices).

Definition call_of (w : world) (fuel : nat) (c : call) (s : state) : ends :=
  match c with
  | KOpen raw => openFrom w fuel raw s
  | KAddFont n f b => addFont n f b s
  | KRise n h => textriseOverride n h s
  | KKern n k => kernOverride n k s
  | KSetFont n st sz => setFont n st sz s
  | KInsert t p x y wd h a c => insert_text t p x y wd h a c s
  | KWrap t p x y wd h a c b => insertWrapText t p x y wd h a c b s
  | KMeasure t => do r <- measureTextWidth t s; Ok (fst r, match snd r with Err e => Some e | _ => None end)
  | KImg b i p x y wd h => insertImg w b i p x y wd h s
  | KImg64 b i p x y wd h => insertImgBase64 w b i p x y wd h s
  | KImgCache b i p x y wd h => insertImgWithCache w b i p x y wd h s
  | KBorder b => ok (showCellBorder b s)
  | KRemove k => page_call s (removePage fuel (d_pdf (s_doc s)) k)
  | KKeep k => page_call s (removeOtherPages fuel (d_pdf (s_doc s)) k)
  | KDuplicate k pos => page_call s (duplicatePageAfter fuel (d_pdf (s_doc s)) k pos)
  | KProtect rnd perm u o => setProt rnd perm u o s
  | KSave ch => do r <- saveTo w fuel ch s; Ok (fst r, match snd r with Err e => Some e | _ => None end)
  end.

(** A history: the calls made with the error each returned (None: nil).  Callers go
    on after errors; a panic ends everything. *)
Definition entry := (call * option err)%type.
Fixpoint history (w : world) (fuel : nat) (cs : list call) (s : state) : res (state * list entry) :=
  match cs with
  | [] => Ok (s, [])
  | c :: cs' =>
    do r <- call_of w fuel c s;
    do q <- history w fuel cs' (fst r);
    Ok (fst q, (c, snd r) :: snd q)
  end.
