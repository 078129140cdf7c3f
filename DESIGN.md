# Formal model of signintech/pdft

The library reads an existing PDF, lets the caller add text, images, fonts and
page edits, and writes the result.  This directory holds a Rocq (Coq 8.16.1)
model of the Go code in /repo and proofs of the properties in
`properties.jsonl`.

## Conventions of the model

* A byte is a `Z` (0..255), a Go string or `[]byte` is a `list Z`, a Go `int`
  is a `Z` (64-bit overflow is outside the model unless a definition says
  otherwise; narrow types such as `uint8`, `uint32` wrap explicitly).
* Every function that can fail returns `res A = Ok a | Err e | Panic | Diverge`.
  `Panic` is a Go run-time panic (nil dereference, index or slice out of
  range).  Recursions that Go does not bound take fuel and return `Diverge`
  when it runs out; theorems that promise a result say for which fuel.
* Go maps are iterated in an arbitrary order.  Every such loop takes the order
  as an argument; theorems quantify over all permutations.
* Regular expressions are modelled by hand-written matchers with the
  leftmost-first, non-overlapping semantics of Go's `regexp`; each matcher's
  comment quotes the expression.
* External code enters as universally quantified function arguments: zlib
  inflate/deflate, image decoding, file reading.  MD5 and RC4 are implemented.
* Each definition cites the file and lines in /repo it models and lists its
  simplifications.

## Files (rocq/theories)

Each area has a model file (definitions citing /repo), a `*Spec.v` file (the
vocabulary of the statements, independent of the model), lemma files, and a
`Prop_*.v` file with nothing but the property theorems (closed by `exact`),
their concrete cases (`Example`) and `Print Assumptions`.

| area | model | specification | proofs | theorems |
|------|-------|---------------|--------|----------|
| results, bytes, Go string functions | `Base.v` | | `BaseProofs.v` | |
| file writer | `Output.v` | `OutputSpec.v` | `OutputProofs.v` | `Prop_Output.v` |
| dictionary reader and writer | `Props.v` | `PropsSpec.v` | `PropsFlat.v`, `PropsWrite.v`, `PropsRead.v`, `PropsNorm.v`, `PropsStable.v`, `PropsRefs.v`, `PropsFinal.v` | `Prop_Props.v` |
| object table and page tree | `PdfData.v` | `PagesSpec.v` | `PagesProofs.v`, `PagesEdit.v`, `PagesOps.v`, `PagesFinal.v` | `Prop_Pages.v` |
| crawler, fonts, images, contents | `Crawl.v`, `Inject.v` | `ContentSpec.v` | `CrawlProofs.v`, `ContentProofs.v`, `ContentFinal.v` | `Prop_Content.v` |
| font resources of pages | `Inject.v` | `InjectSpec.v` (fonts of a page, tidy documents) | `InjectMaps.v`, `InjectNames.v`, `InjectItems.v`, `InjectTexts.v`, `InjectMarks.v`, `InjectVisits.v`, `InjectPages.v`, `InjectTidy.v`, `InjectFonts.v`, `InjectFinal.v`, checkers in `InjectCheck.v`, documents in `InjectCases.v` | `Prop_Inject.v` |
| images of pages | `Inject.v` | `InjectSpec.v`, `ImgSpec.v` | `ImgNames.v`, `ImgLists.v`, `ImgCrawl.v`, `ImgPages.v`, `ImgEmbed.v`, `ImgFinal.v`, documents in `ImgCases.v` | `Prop_Images.v` |
| PDF syntax as a reader sees it (specification) | | `PdfSyntax.v` | `PdfSyntaxProofs.v` | |
| images | `Png.v` | `PngSpec.v`, `PdfSyntax.v` | `PngProofs.v`, `PngObject.v` | `Prop_Png.v` |
| fonts | `Ttf.v` (reading), `Subset.v` (map, objects, font program), `Utf8.v`, `Float64.v` | `TtfSpec.v` (what a TrueType file means), `PdfSyntax.v`, reader of `HexProofs.v` | `TtfProofs.v`, `TtfTables.v`, `TtfCmap.v`, `TtfTotal.v`, `FontFile.v`, `FontGlyphs.v`, `FontClosure.v`, `FontEmbed.v`, `FontTotal.v`, `FontObjects.v`, `CharMap.v`, `FontFinal.v`, `FontLayout.v`, `BuffProofs.v`, `FontCases.v`; a small font in `TestFont.v` | `Prop_Font.v` |
| text | `Text.v` (content of a text, line, image), `Wrap.v` (breaking and wrapping) | `TextSpec.v` (a content stream interpreter: what is drawn) | `TextNumbers.v`, `TextDraw.v`, `TextBody.v`, `TextContent.v`, `TextFinal.v`, `TextCases.v`, `TextCases2.v`, `WrapProofs.v` | `Prop_Text.v` |
| places on the page | `Text.v` | `TextPlaceSpec.v` (real numbers) | `FloatReal.v`, `TextPlace.v`, `TextPlace2.v`, `ImgDraw.v`, `TextPlaced.v`, `PlaceCases.v` | `Prop_Place.v` |
| complete fonts | `Api.v` | `FontChainSpec.v` | `FontChain.v`, `ChainCases.v` | `Prop_Chain.v` |
| reading a document | `Parse.v` | `ParseSpec.v`, `ApiSpec.v` (heights) | `ParseFind.v`, `ParseFile.v`, `ParseTrailer.v`, `ParseProofs.v`, `ParseFinal.v`, `ParsePages.v`, `ParseCrash.v`, `ParseCases.v`, `ApiMore.v` | `Prop_Parse.v`, `Prop_Api.v` |
| the PDFt object: every exported call as a transition, saving | `Api.v` | `ApiSpec.v` (registered, selected, cached: read off the list of calls) | `ApiProofs.v`, `ApiIds.v`, `ApiFresh.v`, `ApiFrames.v`, `ApiImages.v`, `ApiMore.v`, `ApiCases.v` | `Prop_Api.v` |
| a whole save | `Api.v` | `SaveSpec.v` (the document of a file, documents that can take fonts and images), `SaveDoc.v` (what a save leaves), `SaveDrawSpec.v` (what operators draw in a saved document), `SaveWrapSpec.v` (lines of a wrapped text) | `SaveFrame.v`, `SaveKeeps.v`, `SaveFonts.v`, `SaveImages.v`, `SaveWhole.v`, `SaveDraws.v`, `SaveMore.v`, `SaveCalls.v`, `SaveDrawn.v`; documents in `SaveCheck.v`, `SaveCases.v`, `SaveBareCases.v`, `SaveDrawCases.v`, `SaveMoreCases.v`; `KeepProofs.v` | `Prop_Save.v`, `Prop_SaveDraws.v`, `Prop_SaveMore.v`, `Prop_Keep.v` |
| the writer GoPdf | `GoPdf.v` | `GoPdfSpec.v` (programs, reading a file by its rows), `GoPdfDrawSpec.v` (operators of the calls), `GoPdfDocSpec.v` (passwords, streams, information), `GoPdfSetSpec.v` (settings, fonts and pictures read off the calls), `GoPdfResSpec.v` (resources, embedded fonts, pictures as a reader finds them) | `GoPdfFile.v`, `GoPdfPages.v`, `GoPdfRun.v`, `GoPdfDoc.v`, `GoPdfTree.v`, `GoPdfDraw.v`, `GoPdfLine.v`, `GoPdfState.v`, `GoPdfText.v`, `GoPdfOut.v`, `GoPdfMain.v`, `GoPdfRead.v`, `GoPdfKeep.v`, `GoPdfView.v`, `GoPdfFonts.v`, `GoPdfChain.v`, `GoPdfEmbed.v`, `GoPdfPict.v`, `PdfMore.v`; documents in `GoPdfCases.v`, `GoPdfFaults.v`, `GoPdfSetCases.v`, `GoPdfResCases.v` | `Prop_GoPdf.v`, `Prop_GoPdfSet.v`, `Prop_GoPdfRes.v` |
| GoPdf and pdft together | `GoPdf.v`, `Parse.v`, `Api.v` | `GoPdfOpenSpec.v`, `GoPdfReadySpec.v`, `LockTrailerSpec.v` | `GoPdfOpen.v`, `GoPdfOpenDict.v`, `GoPdfOpenPages.v`, `GoPdfOpenDoc.v` (opening); `GoPdfReadyDict.v`, `GoPdfReadyStream.v`, `GoPdfReadyDoc.v`, `GoPdfReadyTree.v`, `GoPdfReady.v`, `GoPdfReadyApi.v` (drawing over); `LockTrailer.v`; documents in `GoPdfOpenCases.v`, `GoPdfReadyCases.v`, `LockOpened.v` | `Prop_GoPdfOpen.v`, `Prop_GoPdfReady.v`, `Prop_LockOpened.v` |
| the font maker | `FontMaker.v` | `FontMakerSpec.v` (fields of a font, map files, Differences, a reader for the Go files it writes) | `FontMakerGo.v`, `FontMakerText.v`, `FontMakerRead.v`, `FontMakerMap.v`, `FontMakerChars.v`, `RoundReal.v`, `FontMakerInfo.v`, `FontMakerDiff.v`, `FontMakerMake.v`, `FontMakerRun.v`, `FontMakerFinal.v`; a font in `FontMakerCases.v` | `Prop_FontMaker.v` |
| objects of a made font | `CoreFont.v` | `CoreFontSpec.v` (the font of a Go file, streams read by /Length) | `CoreFontProofs.v`, `CoreFontFinal.v` | `Prop_CoreFont.v` |
| templates | `Render.v` | | `RenderProofs.v` | `Prop_Render.v` |
| protection | `Md5Rc4.v`, `Crypto.v`; `Alias.v` (passwords as slices of memory) | `CryptoSpec.v`, `AliasSpec.v` | `CryptoProofs.v`, `AliasProofs.v` | `Prop_Crypto.v`, `Prop_Alias.v` |

## Plan per property

| id | modelled by | how |
|----|-------------|-----|
| C01-C03 | `toStream`, `xref` as functions from object lists to bytes | induction over the object list with the running offset; specification is a reader that looks rows up by byte position in the produced file |
| C04 | `putNewObject`, `build` | invariant: all ids <= last id, new ids strictly increasing |
| C05 | `PDFParse` over bytes | scanning lemmas for the regex matchers; hypotheses: no keyword inside bodies |
| C06 | `readProperties`/`setProperties` | the recursive parser is proved equal to a flat state machine, whose output is in a normal form on which write-then-read is the identity; non-ASCII bytes give a refutation |
| C07-C12 | page functions | refinement to lists; specification is the list of leaves of an inductive page tree |
| C13, C14, C16 | `injectContentToPDF` | stream framing lemmas, filter by page of the call log |
| C15 | `build` twice | refutation by a witness document |
| C17 | `PDFParse` | totality of the dictionary reader; panics of `OpenFrom` shown by witnesses |
| C18 | `getPageObjIDs` | induction on an inductive page tree; cyclic tree diverges for every fuel |
| C19-C21, C43, C44, C46, C60 | crawl and injection | invariants over all iteration orders; witnesses for the refuted parts |
| C22, C23 | API state machine | case analysis on transitions, induction on histories |
| C24-C26, C28-C30 | TTF subset and content | invariants of the character map; arithmetic of loca; byte-level layout |
| C31, C32 | `InsertWrapText`, `BasicTextBreak` | invariant of the loop over tokens |
| C33, C48, C55, C56 | `toStream` of text | the stream is run by an independent interpreter of content operators; uint8 arithmetic; witnesses for the refuted parts |
| C56, C57, C58 | places of text and images | specification in real numbers (`TextPlaceSpec.v`); error bounds of each float64 operation (`FloatReal.v`, with Flocq) |
| C59 | `build_fonts`, `font_objs` | the five objects read with the PDF reader, their references followed; refutation for a second save |
| C27 | `MeasureTextWidth` | sum over characters, independence of the map |
| C34-C36, C50 | RC4, MD5, escaping | involution of xor with the key stream; unescape specification |
| C37 | image cache | invariant on history |
| C38, C39, C51-C53 | PNG | unfiltering specification per PNG standard; image objects read by an independent PDF syntax reader (`PdfSyntax.v`) |
| C40 | render | map semantics |
| C41, C42 | page sizes, duplicate ids | witnesses, positive part for fresh documents |
| C61-C71, C73 | every call of `GoPdf` as a transition; a program is a list of calls, errors do not stop it | invariants of the object list over all programs; the file is read by row, object and stream with `PdfSyntax.v`, decrypted as `CryptoSpec.v` says, and its operators compared with those of the calls; witnesses for the refuted parts |
| C72 | `saveTo` as a whole | the steps of a save put together (fonts, images, contents, file), with the objects each step leaves alone; documents with the resources in the pages or in objects, and images in the pages, in one object, or nowhere (`pictures` in SaveSpec.v; where they are nowhere and resources are in objects, a save writes `/XObject` also into the catalog and every object of the page tree, whose other entries stay: `sd_nodes`); with passwords, the objects the file has give those of the document when read with the key the passwords give (a stream without the line ends at its ends); a text or image is followed from its call (Insert, InsertWrapText, InsertImg, InsertImgBase64, InsertImgWithCache; later calls only add to what was drawn, a font only gets more characters) to the operators, which are read by the drawing semantics of C57 and C58 |
| C74-C79 | `make_font`: the contents of files, which files can be written and the compression are arguments | the text of the definition file is read back by a small reader of Go (type, methods, results, assignments), and what it returns is compared with the fields of the font; rounding by way of real numbers |
| C80 | `showCellBorder`, `line_stream`, `text_stream`, `saveTo` | the pieces of a page are run one after the other, the style set last on the page is that of the last call, then as C56; first page proved, other pages refuted |
| C81 | `saveTo`, `injectFonts`, `injectImgs`, `injectContent` | from the theorem about saved documents (C72); refuted by a document that is opened, saved and opened again |
| C82 | `CoreFont.v`: `core_font_obj`, `cw2str`, `core_encoding_obj`, `core_descriptor_obj`, `core_file_obj` | the texts are read with the reader of `PdfSyntax.v`; what they say comes from C74 to C77 by way of the Go file; /Length1 refuted |
| C83 | `Alias.v`: `append` on slices of arrays, `generate_mem`, `protect_mem` | byte by byte: what each append changes and what is read afterwards; result compared with `setProtection` on values |
| C84 | `g_bytes` and `PDFParse` together | offsets, rows and trailer are found because no object holds the words searched for; dictionaries are read by the machine of `readProperties`; the pages come from the invariant of C62 |
| C85 | `saveTo`, `openFrom`, `setProt` and all calls | the protection of the state is followed through all calls; the trailer is read by the reader of PdfSyntax.v; the lost document is a computed case of GoPdf and pdft together |
| C86 | `g_bytes`, `PDFParse`, all calls and `saveTo` together | the objects of GoPdf are shown to be a tidy document in the sense of C72 (dictionaries by the machine of `readProperties`, streams by C63); calls that add something leave the objects in place; then `saved_document` of C72 |
| C87 | `saveTo` after `history`, with `injectFonts`, `injectImgs`, `injectContent`, `build_fonts`, `encrypt_all` | each step is shown to end well: the visits of the crawl (`SaveGoesImages.v`), the names of fonts (`SaveGoesFonts.v`), what the first step leaves for the second (`SaveGoesStep.v`), fonts and images that contents refer to exist (`SaveHeld.v`, by induction over the calls), `make_font_total` for the fonts; `encrypt` decides the protected case |
| C88 | `saveTo` after `history`, and `g_bytes`, `PDFParse` for the case | the trailer is read by the reader of PdfSyntax.v, as in C85; the lost title is a computed case of GoPdf and pdft together |
| C89 | `parseKern`, `g_add_font`, `g_kern_override`, `kern_units` in every run | the positions the reader goes through are those of the format (KernSpec.v); the pairs are kept latest first, so a lookup finds the last pair; the fonts of a state are those of the calls (C69) |
| C90 | all calls of `gstep`, in every run | `end_of` (GoPdfCallSpec.v) is written over the calls before; the content object of the state is there and of its kind (`inv`), texts in it have fonts of the document (`known_run`), glyph numbers of parsed fonts are not negative (`glyph_pos`), so widths are found; partial, texts before SetFont and MeasureTextWidth panic |
| C91 | `g_bytes`, `g_read`, `g_prepare`, `build1` for every kind of object, in every run | nothing of the state is assumed: the fonts of a run come from its calls (`from_run`), the objects name fonts of the document and none is a palette (`sits_run`, over `view_next`), pages and contents are where prepare looks (`prep_saves`), RC4 with an object key cannot fail (`enc_saves`), fonts that are complete can be embedded (`fit_saves`); partial, the conditions on fonts and pictures |
| C92 | `text_call`, `append_text`, `create_content`, `g_add_font`, in every run | an invariant of all texts of the contents (`cov`: the text is valid, its font has the number it was written with and all its characters), kept by every call (`held_run`) because maps only grow (`keeps`) and numbers differ (`rels_differ`); joined texts are read as the two texts (`runes_app`); partial, the conditions on texts and fonts |
| C93 | `gstep` of every call, where it gives an error | by cases over the calls: errors come before anything is changed, but for texts (`others_fail`); texts by the invariant of C92: a text whose characters are there cannot fail any more, so only `add_chars` has been at work (`texts_fail`); refuted for texts in full |
| C94 | `g_start` in a state that a run has reached, `gstep`, `g_bytes` | refuted: by an invariant of all calls, objects 1 and 2 stay the first catalog and the first, empty page root (`front_run`), and prepare fills another one (`prep_front`); read back from the file (`started_again`) |
| C45, C47 | buffers, decimals | round-trip lemmas |

## Findings (behaviour of the code that refutes the natural property)

* C05: the objects of an opened file are in the order of the cross-reference
  rows, so the order of a saved document is not kept, and only the last version
  of each number is in the file.  No hypothesis about "n 0 obj" inside bodies
  turned out to be needed.
* C17: OpenFrom panics when "startxref" comes before "trailer", when a row in
  use points behind the end of the file, when the catalog or an object of the
  page tree is missing, when /Kids has a number left over, when a page has no
  /MediaBox of its own; a cyclic page tree recurses for ever.  Proved: there is
  no other cause (`crash` in `ParseSpec.v`).
* C06: `readProperties` walks the bytes as UTF-8 runes one byte at a time and
  appends `string(rune)`, so a byte above 127 is written back as two bytes; a
  `<` or `>` that is alone between white space changes nesting; runs of white
  space inside literal strings are squeezed.
* C08: `RemoveOtherPages(k)` keeps page k+1 (1-based page, 0-based index) and
  panics for k = n.
* C09: the copy of a page goes through the dictionary rewriting of C06, so it
  differs from its source when the page dictionary has bytes above 127.
* C11: `RemovePage(k)` with k <= 0 panics (`ids[k-1]`), and so do positions of
  `DuplicatePageAfter` outside the document.
* C13: `injectContentToPDF` recognises compression only by the name
  /FlateDecode directly after /Filter; with `[/FlateDecode]`, or any other
  filter, the encoded bytes become plain content.  With an array of content
  streams the insert is put after the first stream.  Inserts on a page without
  /Contents or on a page that does not exist are dropped without an error.
* C14: a content stream that starts with white space (for example the content
  of an empty page after one insert: newline, then operators) is read back
  shifted, the missing bytes are taken from the keyword `endstream`.
* C16: of the inserts on pages that share a content stream only those of the
  last page are kept.
* C18: a page tree whose /Kids lead back to an ancestor makes every page call
  run for ever.
* C19, C43: `getPageCrawl` looks two levels below the root of the page tree.
  The fonts of deeper pages are not seen, so that a new font may get a name
  they use already, and they do not get the new fonts.  The same holds for
  resources that pages inherit from an inner node.
* C20: every font dictionary found is rewritten, even when no font is added,
  with names cut at the first digit: C2_0 becomes C20, F01 becomes F1 (and then
  there may be two of them, the first wins); a name without a digit, such as
  Helv, makes SaveTo fail.
* C46: when two pages refer to one resource object with the fonts inside, its
  entries are written once per page, the second time with the old fonts.  The
  first ones count, so the fonts can be used all the same (Example C43_shared).
* C21: image dictionaries are written anew by every SaveTo, inserted images or
  not.  Reading stops at the first name that is not letters and a number, so
  /Logo and all behind it are lost; an image dictionary in an object of its own
  is replaced by one without its entries; the number for new names is that of
  the last entry, so it may be taken, and then the old picture is shown.
  SaveTo fails when no page has resources of its own, and when the text of an
  inline resource dictionary has exactly two spaces (it is taken for a reference).
* C44: images are put where images are found first.  Pages without image
  dictionary get none when another page has one; of several resource objects
  one gets the images, which one depends on the order of a map.  Where resources
  stand in the pages, only pages directly below the root are looked at.
* C60: when one page has its resources inside and another in an object, the
  reference of the second page is taken for a dictionary and overwritten with
  one that has images only, so the page loses its fonts.  No image need have
  been inserted.
* C34: `encrypt` trims CR and LF from both ends of the stream without touching
  /Length.  The content streams the library writes end with a newline, so each
  of them is one byte or more shorter than declared.  An object in which the
  word "stream" occurs without a later "endstream" (a title, say) makes SaveTo
  panic.
* C35: /P is computed in int and the key from its low byte with three 0xFF, so
  they agree for permissions below 256 only (260 gives a file that no password
  opens).  Not in the model, where passwords are values: `append` writes the
  padding behind the user password into the caller's array when it has room,
  which may be where the owner password is.
* C50: strings outside streams are not encrypted; a reader decrypts them.
* C39: `readInt` reads 32-bit numbers as if they had 16 bits: every value from
  32768 on comes out 65536 too small.
* C51: so a chunk of image data of 32768 to 65535 bytes makes InsertImg panic
  (Go's png encoder writes chunks of 32768 bytes).  An empty chunk ends the
  reading without an error, later image data are lost.
* C38: grey images with alpha keep neither samples nor alpha.
* C53: the palette is never written; /Indexed points to object 1.

* C54: a font with glyphs and no horizontal metrics makes AddFont panic
  (`widths[numberOfHMetrics-1]`).
* C24: units per em of 0 make the width array panic (division); characters
  beyond the basic plane get a five digit ToUnicode entry, which is not UTF-16;
  the code space of the ToUnicode map runs from the smallest to the largest
  glyph, which for two-byte codes is a rectangle that need not contain the
  glyphs between; delimiters in the font name end the dictionaries early.
* C25: a character behind the last segment of the format 4 table panics; one
  that is missing gets glyph 0 without an error (in format 12 it is an error).
* C26: the end of a format 12 group is taken as exclusive.
* C28: when two characters share a glyph (for example two that are missing),
  the sorted glyph list has a repetition, the merge loop stops there, and all
  glyphs behind are empty.  If the file ends inside the padding of a copied
  table and the slice has no room behind, makeFont panics.
* C29: only one level of components is collected, and none for glyph 0.  A
  component that has both a 2x2 matrix flag and another scale flag is stepped
  over wrongly (such fonts are excluded by `comps`).
* C30: checksums of copied tables are copied too; the checkSumAdjustment in
  head is that of the source file.

* C48: Insert keeps the text when a character could not be added; the content
  then has codes of the wrong length.  A character that format 4 does not have
  is shown as glyph 0.
* C55: `Ts` is never reset, and inserts are not wrapped in q and Q, so the rise
  of one text stays for those behind it.
* C33: the colour is written only if the sum of the components as uint8 is not
  0, so olive (128,128,0) and black take the colour drawn before.  Components
  are written to hundredths, so different colours become equal.  A text without
  colour is black.
* C56: a negative underline thickness gives `--0.60`, which is not a number.
  The underline ignores the alignment: it is at the top of the cell, over its
  whole width, also for text at the bottom or the right.
* C27, C32: bytes that are not UTF-8 become U+FFFD; the halves of a character
  are two characters.
* C15: SaveTo edits the objects of the document it was opened with (they are
  copied as a slice, so the array is shared until an append moves it), and the
  texts of the five font objects are appended to buffers that live on.  A second
  save draws everything twice; even an untouched document changes, because an
  empty /XObject dictionary is added each time.
* C59: in a second save the texts of a font's objects follow those of the first,
  and a reader uses the first: characters written between the saves are shown by
  their codes but have no width, no outline and no ToUnicode entry.
* C22: a font added under the empty name is used by Insert before any SetFont.
  The current font name survives Open although its font does not.  AddFont
  before Open panics (nil map).  MeasureTextWidth and InsertWrapText without a
  font panic.
* C23: Insert appends its text before it adds the characters to the font, and
  keeps it when that fails; InsertWrapText keeps the characters it measured.
* C40: ShowDesignView ignores errors, so a field whose font is unknown is drawn
  with whatever font the field before it in map order had.
* C41: page sizes are read when the document is opened and never updated by
  RemovePage, RemoveOtherPages or DuplicatePageAfter.  An indirect /MediaBox
  gives the A4 default, a /MediaBox with fewer than four numbers a panic at
  Insert, a missing (inherited) one a panic at Open.
* C42: of several versions of an object the first is read and edited (or the
  last that has /Annots), the saved table points to the last.
* C49: Open on a used PDFt keeps objects, inserted content and images, and reads
  the rows of the old cross-reference table again in the new file.
* C80: `ContentLineStyle.page` is always 1, so width and dashes of the border are
  set on the first page only; on other pages borders are drawn as the old content
  left lines.  Open sets the line width to 1 first and to 0 when it succeeds, so
  after an Open that fails texts have borders.
* C81: without images, and with the resources in objects of their own, the code
  that adds images runs over every object on the way from the catalog and gives it
  /XObject, even if there is nothing to add; an object it meets twice gets its
  entries twice.  Open sets the line style, which is drawn on the first page, so
  each open and save adds two lines to its content.
* C31: lines are trimmed; a first token that is too wide gives an empty first
  line.  Measuring adds the characters to the embedded font.

Hypotheses of the text theorems: `font_ready` in `TextCases.v` (the font was
read from the bytes, all characters were added, glyph numbers have 16 bits) and
`drawable` (all numbers that are written are finite, the underline thickness is
not negative, the size is in range).

Hypotheses of the font theorems: `sound_font` in `FontFinal.v` (every glyph
has a complete outline whose components exist; proved of the test font); the
embedded file is below 4 GiB; `beyond` are the bytes between length and
capacity of the slice the font was read into, universally quantified.
`plain_name`: a font name of regular characters, spaces and slashes.

Hypotheses of the PNG theorems: `chunk_read` in `PngSpec.v` (chunks of 1 to
32767 bytes, transparency chunks of the length the standard asks), zlib as a
function with `inflate (compress x) = Ok x`.

Hypotheses of the page theorems (C07-C10): the dictionary of the page tree
root is read without error, is ASCII, has no lone angle bracket, and has
/Count (`rewritable`, `editable` in `PagesSpec.v`); the catalog is not the
root; object numbers stay below 2^63 (`numbers_left`).  Each is needed: without
/Count `setPages` fails, and C06 shows what happens to other bytes.

Hypotheses of the content theorems (C12-C14, C16): `source` in
`ContentSpec.v`.  The bytes that follow an object in memory (`beyond`), the
decoder, and the order of map iteration are universally quantified.

Simplifications of the object model (`Api.v`): fonts and images are shared by
pointers in Go and are numbers into lists here; a resource name that was set
before an injection failed is not kept, because the next save sets it again
before using it; `SetProtection` takes the random owner password as an argument;
writing to a file (`Save`, `Open` by path) is not separated from the bytes.

### The writer GoPdf (C61-C71, C73)

* A creation date is written with a second `>>` behind it (gopdf.go, bindInfo), so
  the trailer of every such document is malformed (`C61_date_refuted`, for all
  documents).
* A page on which nothing is drawn has `/Contents` without a value: the object
  cannot be read (`C62_empty_page_refuted`).
* What is drawn before the first AddPage goes to a content object of no page
  (`C63_before_page_refuted`).
* Texts that follow each other are merged if `isSame` (cache_content_text.go:38)
  says so; it looks neither at X nor at the rectangle nor at the options of the
  cell, so a border after a text is not drawn (`C63_border_refuted`), Br(0) and
  SetX without a change of Y are forgotten, and the position moves by the width of
  all the merged texts each time (`C70_advance_refuted`; `C70_moves` says for all
  documents what it moves by).
* `textColor` writes nothing if the three components add up to 0 modulo 256, so
  black after red stays red (`C63_black_refuted`).
* Characters beyond the basic plane have five digits in the information
  (`C67_plane_refuted`); the minutes of the time zone of the date are always 00;
  /Info is a direct dictionary with strings in the clear also in protected files.
* AddTTFFont puts a font into the resources only if its family is not there yet with
  its style less Underline; SetFont compares with the style the font was added with.
  With a first font of style Underline and a regular one of the same family,
  texts in the second are drawn with the name of the first
  (`C64_fonts_refuted`).
* Strings are never enciphered (`C64_strings_refuted`), and the objects of pictures
  in protected documents have one line end too many before `endstream`
  (`C64_protected_refuted`; `C64_jpeg` and `C64_png` say so for all documents).
* Builds append to the buffers of their objects, so a second save doubles every
  object (`C68_again_refuted`).
* MeasureTextWidth hands createContent a nil buffer: it never returns a width
  (`C70_measure_refuted`), and panics once a font is set (`C70_measure_panics`).
* The object of a palette is made without `init`, so that building it panics
  (`C71_palette_refuted`, for all documents).  The mask is written with its index
  instead of its number, so it is taken for the object before: the picture itself or
  the contents of the page (`C71_mask_refuted`).
* A level above 9 in SetCompressLevel prints that the best level is used but sets
  nothing (`C73_big_refuted`).
* Not stated as theorems: the line
  width is not set again on a new page; text before SetFont panics; KernOverride
  has no effect without UseKerning; a font added with an Underline style can never
  be selected; only the last kern subtable counts and its format is read from
  bits 4 to 7.

### The font maker (C74-C79)

* The original size in every definition file is 98764 (`C77_size_refuted`).
* The parser takes the digit 0 out of font names, with the NUL characters
  (`C77_name_refuted`).
* Names are pasted into the Go text as they are (`C77_quote_refuted`), and the name
  of the font file is used as that of a type (`C77_hyphen_refuted`).
* The differences start with a name instead of a number if the first code that
  differs is code 1 (`C76_differences_refuted`).
* An empty or short line in a map file panics (`C78_blank_line_refuted`), as does a
  code above 255 (`C78_code_refuted`); an overlong line ends the map without an error.
* A licence is restricted if its bit 1 is set; the code tests for the value 2 only
  (`C79_licence_refuted`).
* /Length1 of the font file object is that wrong size as well (`C82_length1_refuted`).
* The compressed font is written before the reference map is read
  (`C79_no_map_refuted`) and before the name of the type is made
  (`C79_no_name_refuted`).

### Passwords in shared memory (C83)

* `generateEncryptionKey` appends the padding to the slices it is given.  With spare
  capacity this writes into the caller's array (`C83_memory_refuted`).  If the user
  password lies right behind the owner password in one buffer with room behind it,
  the padding of the owner password replaces the user password before it is used,
  and the file opens without a password (`C83_open_to_all_refuted`, for all
  passwords).  The other way round neither password opens it
  (`C83_locked_out_refuted`).

### Documents of GoPdf opened by pdft (C84)

* AddPage makes pages without /MediaBox; they inherit that of the page tree.
  parsePageSize asks for it in the page and uses the missing property: opening any
  document with such a page panics (`C84_opens_partial` says exactly when,
  `C84_standard_page_refuted` is a case).
* The condition on the words is needed: the file is searched for them from its
  start, pictures included.  A JPEG picture, which GoPdf copies byte by byte, is
  cut off at "endobj" (and would be saved so), "trailer" in it makes opening fail,
  "startxref" in it gives slice bounds in the wrong order, a panic
  (`C84_words_refuted`, `GoPdfWordCases.v`).
* A document without pages opens: the kids cannot be read, and the node is no page.
* Protected documents open without a password; the reader knows no /Encrypt.
* Documents with SetInfo are included (`GoPdfOpenInfo.v`): the Info dictionary stands
  in the trailer behind /Root, its strings are written as hexadecimal digits (the
  date as digits and signs), so it holds none of the words that the reader looks
  for.  `real_infos` asks that the date be one that `time.Format` prints.

### Protected documents that are opened and saved (C85)

* parseTrailer keeps only /Root, so the saved file has no /Encrypt, but its content
  streams are still the encrypted ones, with the new operators in plain behind
  them.  No password can bring the page back, because /O, /U and the key are no
  longer named (`C85_lost_refuted`).
* A protection stays set when another document is opened: the next save encrypts
  this one too (`C85_trailer_partial`, `C85_both_cases`); no second dictionary can be read there.

### Documents of GoPdf drawn on by pdft (C86)

* `C86_over_partial` joins the two halves: GoPdf's operators stay in front, its font
  and image names keep their objects (pdft goes on counting at F<n+1>, I<n+1>).
* A page on which nothing was drawn is written with an empty /Contents entry.
  injectContentToPDF reads the contents of every page, so no save succeeds after
  opening such a document, even without any call (`C86_blank_page_refuted`).
  `C86_blank_partial` proves it for every document with such a page, protected or
  not, and whatever is added (`BlankSave.v`: any document with a Contents entry
  that is taken for a reference and is none), and for documents without pages, where
  no resources are found (`GoPdfNoPages.v`).  `C86_over_partial` therefore does
  not ask for a page, nor that something was drawn on every page: the save would have
  failed.  Nor does it ask for page sizes: opening would have panicked (C84).
* All pages of GoPdf share object 3 as resources.  injectFontsToPDF meets it once
  for each page and writes its entries as often: a document of two pages has two
  /Font entries there, and only the first one has the new fonts.  Readers that take
  the last of equal keys do not find them (`C86_resources_refuted`; the model's
  `page_fonts` takes the first, as pdft itself does).


### What can be saved (C87)

* `C87_saves` has no hypothesis that speaks of the save itself.  The conditions it
  has were forced by the proof, and the theorems behind it show what happens
  without them.
* A document in which no page has resources is never saved, not even unchanged:
  `injectImgsToPDF` looks for the first page with resources before it asks whether
  there are images (`C87_resources_needed`).
* `readObjIDFromDictionary` takes every text with exactly two blanks for a
  reference.  Resources written in a page as `<</ProcSet[/PDF]/A 1/B 2>>` make the
  save fail with a number error (`C87_blanks_refuted`).
* With a password the save panics if any object has the word "stream" without an
  "endstream" behind it, for example in a string (`C87_locked`,
  `C87_locked_refuted`; C34 shows it for `encrypt` alone).
* Left out: documents outside `ready_document` of C72, fonts whose tables are not
  complete, and object numbers beyond 2^63.  `C87_over_partial` has the conditions
  of C86.
* `C87_saves_case`, `C87_locked_case` and `C87_over_case` have all conditions of the
  theorems at once.
* `tables_inside` (C28) speaks only of the entries of the table directory; it used
  to ask the same of bytes behind the directory that look like an entry.

### The document information (C88)

* The trailer of a saved file has /Size and /Root, or these with /Encrypt and /ID,
  whatever was opened (`C88_trailer_partial`, of the only dictionary that can be read there).  Title, author and dates that stood
  in /Info of the opened document are therefore lost (`C88_information_refuted`).

### Kerning (C89)

* Every subtable of the kern table takes the place of the one before
  (ttfparser_kern.go:56), so only the last one counts; the format has their values
  added up (`C89_subtables_refuted`).
* The format of a subtable is in bits 8 to 15 of the coverage; Parsekern looks at
  bits 4 to 7, which are reserved.  Subtables of format 2 are read as pairs
  (`C89_format_refuted`), and the flags for vertical, minimum and cross-stream values
  are not looked at.  A reserved bit makes AddTTFFont fail (`C89_rejected`).
* `kern_table` asks that the pairs are all in the file.  Where the file ends early
  the pairs read so far stay, without an error.

### Calls that end the program (C90)

* `C90_calls_partial` says of every call after every run how it ends.  Where a panic
  is left it says why: no font selected, MeasureTextWidth (which hands createContent
  no buffer), a font file with no horizontal metrics (C54), a character behind the
  last segment or outside of the glyph array of the cmap table, the reading of a
  picture, a picture with a side of 0 drawn without a rectangle.
* For texts the files of all fonts added are asked to have widths and units: a text
  may go on a line that was begun in another font with the same number, so the font
  selected now is not the only one looked at.
* An infinite loop of the reading of a picture is left open (`picture_end`).

### Saving (C91)

* `C91_saves_partial` asks for two things only: font files that are complete
  (`complete_font`, as for C86) with a cmap table that names no glyph they do not have,
  and pictures without a palette.  `C91_palette` shows that the second is needed.
* `C91_font_refuted`: tables are read with their padding (pdf_dictionary_obj.go), so a
  file that ends with a table whose length is no multiple of 4 is read beyond its end.
  ReadFile and ReadAll mostly leave room there, but need not.
* The condition on fonts is stronger than needed: glyphs that no text uses have to be
  complete as well.

### Permissions (C65)

* `C65_permission_refuted`: `createUValue` puts byte(protection) and three bytes of 255
  into the key, while P is written in full, so a bit beyond the lowest eight changes P
  and not the key.  None of the constants of the package sets such a bit, but Config
  takes any int.

### Close (C66)

* `C66_close` and `C66_end` were added after a mutant of `g_close` broke no theorem.
  `C66_close` is stated for every state, reached or not: `compile` does not look at
  what was read before (`compile_close`).  What GetBytesPdf gives after a first file
  was made is another matter, see `C68_again_refuted`.

### Texts that are written (C92)

* `C92_half_refuted`: a text is joined with the one before it on the line as bytes
  (content_obj.go), but the characters are taken from the two texts one by one, so
  two halves of a character give one that the subset does not have.
* `C92_stuck_refuted`: the joined text is kept although createContent fails, so the
  later texts of the line fail as well.
* `C92_twin_refuted`: AddTTFFontByReaderWithOption leaves the number of a font at 0
  when name and style (without underline) are there already; such a font can be
  selected when the first one has the underlined style, and its texts are joined with
  those of the font with number 0.
* `font_has` speaks of the cmap table as GoPdf reads it (`glyph_index`; the theorems of Prop_Text.v say
  what it gives): a character below 65536 that is not in the table leads to glyph 0.

### Calls that fail (C93)

* `C93_calls_partial` needs no run: it holds in every state.  Calls that do not come
  back (a panic) are not calls that fail; C90 says which these are.
* A holder of a picture is read to its end by the call whether it fails or not; this
  is outside of the document and not modelled (`ImageBy` gets what is still to read).
* `C93_any` has no condition on the state: `but_text` bounds what any failing call can
  change.  It does not say which characters or what text these are.
* `C93_lacking_refuted` and `C93_joined_refuted` are the two ways in which a failing
  text is not undone.

### Start on a used document (C94)

* Start does not clear `pdfObjs`: it adds a second catalog, page root and resources.
  The trailer always names object 1 as Root, so `C94_none` finds an empty page tree
  for every history with two or more calls of Start (`started`).
* Start does not clear `buf` either: `C94_read` needs no run before, it holds after any
  Read that has reported the end (Close in between would help, see `C66_close`).

## Trusted base

Coq's kernel and `vm_compute`.  `Print Assumptions` says "Closed under the
global context" under every property theorem outside `Prop_Place.v`,
`Prop_SaveDraws.v`, `Prop_SaveMore.v`, `Prop_Border.v`, `Prop_FontMaker.v` and
`Prop_CoreFont.v`: no axiom is used.  The theorems there that speak of real numbers, or round by way of them, use axioms of the standard library:

* `C57_text_placed_partial`, `C56_placed_partial`, `C58_image_placed_partial`,
  `C72_text_drawn_partial`, `C72_image_drawn_partial`,
  `C72_wrapped_drawn_partial`, `C72_image64_drawn_partial`,
  `C72_cached_drawn_partial`, `C80_border_partial`,
  `C80_second_page_refuted`, `C80_failed_open_refuted`,
  `C74_widths`, `C75_descriptor`, `C76_differences_partial`,
  `C77_definition_file_partial`, `C82_font_partial`, `C82_widths`,
  `C82_encoding_partial`, `C82_descriptor_partial`, `C82_file`, `C82_length1_refuted`:
  `ClassicalDedekindReals.sig_not_dec`, `ClassicalDedekindReals.sig_forall_dec`,
  `FunctionalExtensionality.functional_extensionality_dep`,
  `Classical_Prop.classic`;
* `C56_aligned_refuted`: `sig_forall_dec` and `functional_extensionality_dep`.

(The check of
whole files also lists parameters of `Coq.ssr.ssrunder`, a standard library file
that `Coq.Lists.List` already loads, and the sealed definitions of the real
numbers, `RbaseSymbolsImpl` and `RinvImpl`; `Print Assumptions` lists neither
under a theorem.)  What else has to
be believed: that the definitions say what the Go code does.  Each one cites
the file and lines it was read from.

Modelled: all of pdft.go, pdf_data.go, pdf_parse.go, pdf_obj_data.go,
pdf_obj_property_data.go, pdf_obj_properties_data.go, xref_data.go, regex.go,
crawl.go, crawl_result.go, crawl_result_font.go, crawl_result_x_object.go,
contenter.go, content_text.go, content_line_style.go, content_img_base64.go,
pdf_font_data.go, pdf_parse_font.go, pdf_image_data.go, the override types, textbreak/, render/;
of minigopdf the subset font, its five objects and the buffer
functions, the protection, the image parser and the soft mask, and the writer
`GoPdf` with pages, cached contents, image holders, kerning (`GoPdf.v`);
fontmaker/core: the TrueType parser with the kern table and the font maker, but for
`FileSize` and the keys of TtfInfo nothing asks for.

## Not modelled

* The link between minigopdf's documents and its objects of made fonts (`FontObj`,
  `EncodingObj`, `EmbedFontObj`, `FontDescriptorObj`, modelled in `CoreFont.v`):
  nothing adds them to a document, and `BasicObj` is no `IObj`, so widths cannot be.
* fontmaker/main.go (reads the command line and prints results).
* debug_th.go, debug_ch.go (test data).
* Slices that share an array, apart from the two passwords (`Alias.v`): the other
  `append` calls of the code extend slices the library made itself.
* File system access, logging, Go's memory model and concurrency, zlib itself,
  JPEG decoding, details of the `image` package, rendering by PDF viewers.
* Out of memory, 64-bit overflow of `int` where not stated.
