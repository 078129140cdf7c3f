#!/usr/bin/env python3
# Writes /verif/properties.jsonl.  Kept as a script so that the wording stays easy to review and extend.
import json, os
P = []
def p(id, title, statement, quantifier, why, anchors):
    P.append(dict(id=id, title=title, statement=statement, quantifier=quantifier, why_tests_cant=why, anchors=anchors))

p("C01", "Cross-reference offsets point at the objects",
  "In the file written by Save/SaveTo, the in-use cross-reference row of object j holds the byte offset at which the definition of object j ('<newline>j 0 obj<newline>' followed by its body) starts in that same file; when the document holds several objects with number j the row points at the last one.",
  "every document held in memory (any list of objects with any bodies, any ids >= 1), every object number j",
  "offsets depend on the lengths of all earlier objects; a test fixes one file",
  ["pdft.go: PDFt.toStream, PDFt.xref, PDFt.formatXrefline"])
p("C02", "Cross-reference table shape",
  "The cross-reference section of a saved file starts with 'xref', 'newline 0 N', has exactly N rows of exactly 20 bytes each (row j at byte 20*j of the table body), N is the /Size of the trailer and exceeds every object number, and the number after 'startxref' is the byte offset of the section.",
  "every document whose saved size is below 10^10 bytes",
  "row count and width depend on ids and offsets that range over all documents",
  ["pdft.go: PDFt.xref, PDFt.formatXrefline"])
p("C03", "Free entries form one chain through exactly the unused numbers",
  "Following the free rows of the cross-reference table from row 0 visits exactly the numbers in 1..N-1 that no object of the document uses, each once and in increasing order, and ends at row 0.",
  "every document, whatever gaps its object numbers have",
  "the gap pattern is arbitrary; tests show one or two gaps",
  ["pdft.go: PDFt.xref"])
p("C04", "Objects created by the library get fresh numbers",
  "Every object the library adds (duplicated pages and their content, the five objects of every embedded font, every image, every soft mask, the encryption dictionary) gets an object number that no other object of the saved file has, and existing objects keep their numbers.",
  "every opened document, every sequence of API calls before SaveTo, every map iteration order",
  "the number of added objects and the existing numbering are unbounded",
  ["pdf_data.go: putNewObject, maxID, injectImgsToPDF", "pdft.go: PDFt.build, DuplicatePageAfter", "pdf_font_data.go: PDFFontData.build"])
p("C05", "Saving then opening gives back the same document",
  "Opening a file produced by SaveTo yields exactly the objects that were saved: the same numbers in the same order, the same bodies (up to leading and trailing white space), and the same catalog.",
  "every document whose object bodies do not contain the PDF keywords the reader scans for (xref, trailer, endobj, an 'n 0 obj' header)",
  "the reader scans raw bytes with regular expressions, so success depends on every byte of every object",
  ["pdf_parse.go: PDFParse, parseXref, parseTrailer, parseObjOnlyKeywordN", "pdft.go: toStream, xref", "regex.go", "xref_data.go"])
p("C06", "Rewriting a dictionary keeps its entries",
  "Reading the entries of any object's dictionary and writing them back gives a dictionary from which exactly the same entries, in the same order and with the same values, are read again.",
  "every byte string that has a dictionary in it",
  "dictionary syntax is nested and free-form; the parser is hand written",
  ["pdf_obj_property_data.go: readProperties, parseProps.loop", "pdf_obj_data.go: setProperties", "regex.go"])
p("C07", "RemovePage removes exactly the page asked for",
  "If the document has n pages and 1 <= k <= n, RemovePage(k) succeeds and the document then has the other n-1 pages in their old order, and /Count of the page tree root says n-1.",
  "every document with a page tree of any depth whose root dictionary is ASCII and has /Count, and every k in range",
  "n and k are unbounded and the page tree is arbitrary",
  ["pdft.go: RemovePage, setPages, GetNumberOfPage", "pdf_data.go: getPageObjIDs"])
p("C08", "RemoveOtherPages keeps exactly the page asked for",
  "If the document has n pages and 1 <= k <= n, RemoveOtherPages(k) succeeds and leaves a document with one page, the old page k.",
  "every document with a readable page tree and every k in range",
  "n and k are unbounded", ["pdft.go: RemoveOtherPages"])
p("C09", "DuplicatePageAfter inserts one copy at the place asked for",
  "If the document has n pages, 1 <= k <= n and -n <= pos <= n-1, a successful DuplicatePageAfter(k,pos) gives n+1 pages: the old pages in their old order with one new page after the page with 0-based index pos (counted from the end when negative); the new page has the entries of page k except Contents, and its content stream has the bytes of page k's content stream.",
  "every document with a readable page tree, every k and pos in range",
  "n, k, pos and the page dictionaries are arbitrary", ["pdft.go: DuplicatePageAfter, setPages"])
p("C10", "Page operations compose like list operations",
  "After any sequence of RemovePage and DuplicatePageAfter calls the page list equals the result of running the corresponding list operations, GetNumberOfPage returns its length, and /Count agrees.",
  "every opened document whose page dictionaries survive rewriting (C06) and every finite history of page calls in range",
  "histories are unbounded", ["pdft.go: DuplicatePageAfter, RemovePage, setPages, GetNumberOfPage"])
p("C11", "A page number out of range is an error, not a crash",
  "RemovePage, RemoveOtherPages, DuplicatePageAfter with a page number or position outside the document return an error, leave the document unchanged and do not panic.",
  "every document and every int argument",
  "the argument is any int", ["pdft.go: RemovePage, RemoveOtherPages, DuplicatePageAfter"])
p("C12", "A duplicated page is independent of its source",
  "After DuplicatePageAfter, what is inserted on the copy does not change the content stream of the source page and vice versa.",
  "every document, every source page, every later sequence of inserts",
  "it quantifies over later histories", ["pdft.go: DuplicatePageAfter", "pdf_data.go: injectContentToPDF"])
p("C13", "Inserted content lands on its page, in call order, after the old content",
  "After SaveTo the content stream of page k is its old (decoded) content, a newline, and then the drawing operators of exactly the inserts made for page k in the order of the calls; objects of the document that are not the content, a page-resource holder or new are byte-for-byte unchanged, in particular the streams of pages with no insert.",
  "every document, every sequence of inserts over any pages, every map iteration order",
  "call sequences and documents are unbounded", ["pdf_data.go: injectContentToPDF, extractStream", "pdft.go: build, Insert"])
p("C14", "Stream length is exact and content survives a write/read cycle",
  "Every content stream the library writes declares in /Length exactly the number of bytes between 'stream' and 'endstream' keywords' line ends, and reading the object back gives those bytes.",
  "every stream content", "content is arbitrary bytes", ["pdf_data.go: injectContentToPDF, extractStream, streamLength"])
p("C15", "SaveTo is repeatable",
  "Calling SaveTo twice in a row writes the same bytes twice.",
  "every document and every call history", "needs equality for all documents and all map orders", ["pdft.go: build, SaveTo", "pdf_font_data.go: build"])
p("C16", "Pages that share a content stream keep their own inserts",
  "If two pages refer to the same content stream object, an insert on each of them is present in the saved file.",
  "every document in which pages share content streams", "sharing patterns are arbitrary", ["pdf_data.go: injectContentToPDF"])
p("C17", "Reading never crashes on malformed input",
  "OpenFrom on any byte string returns a document or an error; the dictionary reader returns entries or an error for any bytes.",
  "every byte string", "inputs are unbounded", ["pdf_parse.go: PDFParse, parseTrailer, parseXref, parsePageSize", "pdf_obj_property_data.go: readProperties, readObjIDFromDictionaryArr"])
p("C18", "The page list is the left-to-right leaves of the page tree",
  "GetNumberOfPage counts, and every page-numbered call addresses, the leaves of the page tree from left to right, for page trees of any depth and width; the traversal ends on every document.",
  "every finite page tree (and, for termination, every document)", "trees are unbounded", ["pdf_data.go: getPageObjIDs", "pdft.go: GetNumberOfPage"])
p("C19", "New font resource names do not collide",
  "The resource names given to embedded fonts are distinct from each other and from every font resource name already present in any page's resources.",
  "every document, every set of added fonts, every map iteration order", "names come from a map iterated in random order", ["pdf_data.go: findMaxFontIndex, injectFontsToPDF", "pdft.go: build", "crawl_result_font.go"])
p("C20", "Existing font resources survive",
  "After SaveTo every font resource entry (name and object) that a page had is still there, and every embedded font is added.",
  "every document, every set of added fonts, every map order", "font names are arbitrary", ["crawl_result_font.go: parse, String, splitFont, append", "pdf_data.go: injectFontsToPDF"])
p("C21", "Existing image resources survive and new images get new names",
  "After SaveTo every XObject resource entry a page had is still there under its name, and every inserted image has a name of its own.",
  "every document, every list of inserted images, every map order", "names are arbitrary", ["crawl_result_x_object.go", "pdf_data.go: injectImgsToPDF"])
p("C22", "Font registration discipline",
  "AddFont/AddFontFrom with a name already added returns ErrAddSameFontName and changes nothing; SetFont with a name not added returns ErrFontNameNotFound and changes nothing; Insert before any successful SetFont returns an error and adds nothing; otherwise Insert uses the font, size and style of the last successful SetFont.",
  "every history of AddFont/SetFont/Insert calls", "histories are unbounded", ["pdft.go: AddFont, AddFontFrom, SetFont, Insert", "content_text.go"])
p("C23", "A failed Insert leaves no trace",
  "If Insert, InsertImg or InsertWrapText returns an error then the file saved later is the one that would be saved without that call.",
  "every state and every argument", "needs every failure point", ["pdft.go: Insert, InsertImg, InsertWrapText"])
p("C24", "Every inserted character is in the embedded font's tables",
  "Every character of every inserted text has an entry in the font's character map with the glyph the font file's cmap gives it; the glyph has its advance width in the /W array and a ToUnicode entry mapping it back to a character that uses it.",
  "every font and every sequence of inserted texts", "texts are unbounded", ["minigopdf/subset_font_obj.go: AddChars, CharIndex", "minigopdf/map_of_character_To_glyph_index.go", "minigopdf/cid_font_obj.go", "minigopdf/unicode_map.go"])
p("C25", "cmap format 4 lookup follows OpenType",
  "For every format 4 cmap the glyph found for a character is the one the OpenType specification defines (first segment whose end code is >= the character; idDelta / idRangeOffset arithmetic modulo 65536; 0 when missing).",
  "every segment table and every BMP character", "tables are arbitrary", ["minigopdf/subset_font_obj.go: CharCodeToGlyphIndexFormat4"])
p("C26", "cmap format 12 lookup follows OpenType",
  "For every format 12 cmap the glyph found for a character c in a group [start,end] (both inclusive) is startGlyph + (c - start).",
  "every group table and every character", "tables are arbitrary", ["minigopdf/subset_font_obj.go: CharCodeToGlyphIndexFormat12"])
p("C27", "MeasureTextWidth is additive over characters",
  "With no kerning the width of a text is the sum over its characters of the glyph widths scaled by the font size, independent of which characters were measured or inserted before, and the width of a concatenation is the sum of the widths (exactly, before the final floating point scaling).",
  "every font and every text", "texts are unbounded", ["pdft.go: MeasureTextWidth", "minigopdf/cache_content_text.go: createContent", "minigopdf/subset_font_obj.go: GlyphIndexToPdfWidth"])
p("C28", "Subset font keeps the outlines of the used glyphs",
  "In the embedded font program the glyf/loca entry of every used glyph holds exactly the bytes it has in the original font file and unused glyphs are empty.",
  "every font file and every set of used characters", "glyph sets are arbitrary", ["minigopdf/pdf_dictionary_obj.go: makeGlyfAndLocaTable, makeFont"])
p("C29", "Components of composite glyphs are embedded",
  "Every glyph reachable through composite references from a used glyph is embedded.",
  "every font (composite nesting of any depth) and every set of used characters", "nesting depth is arbitrary", ["minigopdf/pdf_dictionary_obj.go: completeGlyphClosure, AddCompositeGlyphs"])
p("C30", "The embedded font file's table directory is right",
  "In the embedded font program every directory entry gives the offset and length at which its table's bytes are found, tables are 4-byte aligned and do not overlap, and the recorded checksum is the big-endian word sum of the padded table.",
  "every font file and every set of used characters", "table sizes are arbitrary", ["minigopdf/pdf_dictionary_obj.go: makeFont, CheckSum", "minigopdf/buff.go", "minigopdf/buff_write.go", "minigopdf/fontmaker/core/table_directory_entry.go"])
p("C31", "InsertWrapText loses nothing and respects the width",
  "The lines drawn by InsertWrapText, joined in order, are the text with each line break counted as nothing; every line that holds more than one token measures no more than the requested width; a line is broken only when the next token would not fit.",
  "every text, every width function (font), every width", "texts, fonts and widths are arbitrary", ["pdft.go: InsertWrapText", "textbreak/basic_textbreak.go"])
p("C32", "Text breaking is lossless",
  "The tokens the text breaker produces, concatenated, are the input text, and each token is a single space or has no space in it.",
  "every text", "texts are unbounded", ["textbreak/basic_textbreak.go"])
p("C33", "Text colour is the colour asked for",
  "Text inserted with colour (r,g,b) is drawn with exactly that fill colour whatever was drawn before.",
  "every colour and every drawing history", "colours and histories", ["minigopdf/cache_content_text.go: toStream", "minigopdf/current.go", "pdft.go: Insert"])
p("C34", "Encrypted streams decrypt to the original bytes",
  "With SetProtection, decrypting the stream of any object of the saved file with that object's key gives the stream bytes the object had, and /Length still matches.",
  "every stream and every key", "streams and keys are arbitrary", ["pdf_obj_data.go: encrypt, rc4Cip", "minigopdf/pdf_protection.go"])
p("C35", "Passwords open the protected file",
  "The /O entry decrypts, with the key made from the owner password, to the padded user password; the /U entry is what a reader computes from the user password, /O, /P and the file id; /P encodes exactly the permissions asked for.",
  "every pair of passwords and every permission set", "passwords are arbitrary", ["minigopdf/pdf_protection.go", "minigopdf/encryption_obj.go"])
p("C36", "Binary values in the encryption dictionary survive PDF string syntax",
  "Reading back, by the PDF literal string rules, the /O and /U strings written in the encryption dictionary gives the 32 bytes that were computed.",
  "every 32-byte value", "2^256 values", ["minigopdf/encryption_obj.go"])
p("C37", "Cached images are embedded once",
  "After any sequence of InsertImgWithCache calls the number of embedded image objects is the number of distinct images, and every placement refers to the image with the same bytes.",
  "every sequence of calls (md5 collisions aside)", "sequences are unbounded", ["pdft.go: InsertImgWithCache", "content_img_base64.go"])
p("C38", "Alpha separation of PNG pixels is faithful",
  "Splitting an RGBA (filtered) PNG scanline stream into colour and alpha streams gives streams that, PNG-unfiltered, hold exactly the colour and alpha samples of the original image.",
  "every image size, every pixel content, every choice of PNG row filters", "images are arbitrary", ["minigopdf/image_obj_parse.go: paesePng"])
p("C39", "PNG sizes are read correctly",
  "Big-endian 32-bit numbers in a PNG (chunk lengths, width, height) are read as their value.",
  "every 4-byte string", "2^32 values", ["minigopdf/image_obj_parse.go: readInt"])
p("C40", "Template fields",
  "Render's Text and ImgBase64 with a key use the last field definition with that key; with a key that is not defined they do nothing and return nil.",
  "every list of field definitions, every key", "lists are unbounded", ["render/render.go", "render/field_info.go"])
p("C41", "Positions are measured from the top of the right page",
  "The y coordinate of an insert on page k is turned into PDF space with the height of page k, also after pages were removed or duplicated.",
  "every document and every history of page operations", "histories are unbounded", ["pdft.go: pageHeight, Insert, InsertImg", "pdf_parse.go: parsePageSize"])
p("C42", "Documents with several versions of an object",
  "For a document that was updated incrementally (several objects with one number) the library reads and edits the version that the saved file's cross-reference table makes current.",
  "every document with duplicate object numbers", "update histories are arbitrary", ["pdf_data.go: getObjByID", "pdft.go: xref"])
p("C43", "Embedded fonts are reachable from every page",
  "After SaveTo every page that has a font resource dictionary can use every embedded font, for page trees of any depth.",
  "every document and every page", "trees are unbounded", ["pdf_data.go: getPageCrawl, injectFontsToPDF", "crawl.go"])
p("C44", "Inserted images are reachable from their page",
  "After SaveTo the resources of page k name every image inserted on page k, whatever order Go's maps are iterated in.",
  "every document, every insert, every map iteration order", "the order is random per run", ["pdf_data.go: injectImgsToPDF", "crawl.go"])
p("C45", "Binary writer and reader agree",
  "Integers written to the font buffer are read back with the same value; a write at a position changes exactly the bytes at that position and keeps everything else.",
  "every buffer content, position and value", "values and histories are arbitrary", ["minigopdf/buff.go", "minigopdf/buff_write.go", "minigopdf/fontmaker/core/ttfparser.go: ReadULong, ReadUShort, ReadShort"])
p("C46", "Shared resources are rewritten as proper dictionaries",
  "No object the library rewrites when adding fonts gets a dictionary key twice if it had it once.",
  "every document (in particular pages that share one resource object), every map order", "sharing patterns are arbitrary", ["crawl.go: next, resultByObjID", "crawl_result.go", "pdf_data.go: injectFontsToPDF"])
p("C47", "Decimal numbers in the file",
  "Every object number, offset and length the library prints is read back by the library as the same number, without sign, padding or exponent surprises.",
  "every int in range", "2^63 values", ["pdft.go: formatXrefline", "pdf_obj_property_data.go: setAsDictionaryArr, setAsDictionary, readObjIDFromDictionary, readObjIDFromDictionaryArr"])
p("C48", "Text is shown with the glyph codes of its characters",
  "The string operand of the text-showing operator is, for every inserted text, the concatenation over its characters of the four-hex-digit glyph index of each character, so a reader shows the glyphs of exactly that text.",
  "every font and every text", "texts are unbounded", ["minigopdf/cache_content_text.go: createContent, toStream"])
p("C49", "Opening another document starts afresh",
  "Calling Open or OpenFrom on a PDFt that already holds a document leaves exactly the pages, sizes and inserted content of the document opened last.",
  "every pair of documents", "histories are unbounded", ["pdft.go: OpenFrom", "pdf_parse.go: PDFParse"])
p("C50", "Strings of a protected file decrypt to the original strings",
  "With SetProtection, decrypting any string of any object of the saved file (other than the encryption dictionary) with that object's key gives the string the object had.",
  "every object and every key", "objects and keys are arbitrary", ["pdf_obj_data.go: encrypt"])
p("C51", "Images without alpha are embedded in full",
  "For a grey, RGB or palette PNG without alpha, the stream of the image object is the concatenation of the file's image data, and the dictionary gives its size, depth and colour count.",
  "every PNG file (any size, any chunks)", "files are unbounded", ["minigopdf/image_obj_parse.go: paesePng", "pdft.go: InsertImg"])
p("C52", "Image objects are well formed",
  "Read by the rules of PDF syntax, an image object is a stream with one dictionary whose /Length is the number of bytes of the stream, with the size, colour space, depth, filter, mask and soft mask of the image.",
  "every size, colour space, mask, data", "data are arbitrary bytes", ["minigopdf/image_obj_parse.go: buildImgProp", "minigopdf/image_obj.go: build", "minigopdf/smask_obj.go: build"])
p("C53", "Palette images keep their palette",
  "The colour table of a palette PNG can be found from the image object.",
  "every palette image", "palettes are arbitrary", ["minigopdf/image_obj_parse.go: buildImgProp", "pdft.go: InsertImg"])
p("C54", "Reading a font file never crashes",
  "AddFont and AddFontFrom on any bytes either read the font or return an error: they do not panic and they terminate.",
  "every byte string", "font files are arbitrary input", ["minigopdf/fontmaker/core/ttfparser.go: parse and the Parse functions"])
p("C55", "Kerning and rise overrides apply where they should",
  "With a kerning override every pair of neighbouring characters of a text is moved together by what the override returns for the pair, and with a text rise override every character is raised by what the override returns for it; the overrides of one font do not change texts drawn with another font.",
  "every override function, every font, every text and drawing history", "overrides are arbitrary functions", ["minigopdf/cache_content_text.go: createContent, kern, textrise", "pdft.go: KernOverride, TextriseOverride"])
p("C56", "Underline and border are drawn where they should",
  "Text set with the underline style is followed by a filled bar at the underline position of the font over the width of the cell, and with ShowCellBorder by the four sides of the cell; nothing else is drawn.",
  "every font, every text, every position, size and style", "interaction of font metrics, style and geometry", ["minigopdf/cache_content_text.go: underline, drawBorder, toStream"])
p("C57", "Text is where its cell and alignment put it",
  "A text inserted with Insert begins at the left edge of its cell, or so that it ends at the right edge, or is centred, as the alignment says; its base line is where the alignment puts a line reaching from the font's typographic descender to its ascender; and it is shown in the font and size that was set.",
  "every font, text, cell, size and alignment", "positions are real numbers and rounding is involved; tests try a few", ["minigopdf/cache_content_text.go: calX, calY, toStream", "pdft.go: Insert"])
p("C58", "Images are where they were put",
  "An image inserted with InsertImg is drawn with the width and height given and its upper left corner at the place given, counted from the upper left corner of the page, and nothing else of the drawing state changes.",
  "every size, position, page height and image name", "positions are real numbers and rounding is involved", ["content_img_base64.go: toSteram", "pdft.go: InsertImg"])
p("C59", "Embedded fonts are complete",
  "Every font used in a saved document is a Type 0 font whose CIDFont, widths, ToUnicode map, descriptor and font program can all be found by following the references in the file, and they cover every character written in that font.",
  "every set of fonts, every order of map iteration, every text and save history", "five objects per font refer to each other by numbers that depend on everything before", ["pdf_font_data.go: build", "pdft.go: build"])
p("C60", "Adding images leaves the other resources of every page alone",
  "After SaveTo every page has the fonts and other resource categories it had before, with the same entries; only its images may have changed.",
  "every document, every list of inserted images (also none), every map iteration order, every resource category", "the damage depends on where each page keeps its resources and on the random order of Go's maps", ["pdf_data.go: injectImgsToPDF", "crawl_result.go", "crawl_result_x_object.go"])
p("C61", "GoPdf: every object of a written document is where the cross-reference section says",
  "For every program of calls on a GoPdf, however many of them fail, the bytes of GetBytesPdf start with a header, every row of the cross-reference section points to the object with its number, object 0 is free, and the trailer is a dictionary whose Size is the number of rows and whose Root is the catalog.",
  "every sequence of calls and arguments, every compression, protection or not, files below 10^10 bytes", "offsets depend on the lengths of all objects before, so on every argument of every call; tests look at a few files", ["minigopdf/gopdf.go: compilePdf", "minigopdf/gopdf.go: xref", "minigopdf/gopdf.go: bindInfo"])
p("C62", "GoPdf: one page for each AddPage, in order and of the size asked for",
  "The page tree of a written document has exactly the pages that were added, in the order of the calls, each with the media box asked for in AddPageWithOption or else that of Start, and each with contents of its own.",
  "every sequence of calls", "pages and contents find each other by running indexes that every other call moves", ["minigopdf/gopdf.go: AddPageWithOption", "minigopdf/gopdf.go: prepare", "minigopdf/page_obj.go", "minigopdf/pages_obj.go"])
p("C63", "GoPdf: a page shows what the calls made for it drew, in their order, and nothing else",
  "The contents of each page, decrypted with the user password and unpacked, are the operators of the drawing calls between its AddPage and the next one, with the coordinates and settings of the calls.",
  "every sequence of calls, every protection, every compression level", "contents depend on the whole history of settings; consecutive texts are merged", ["minigopdf/content_obj.go", "minigopdf/list_cache_content.go", "minigopdf/cache_content_text.go"])
p("C64", "GoPdf: the fonts and pictures that pages use are in the file",
  "The font name that a text is drawn with leads, through the resources of the pages, to a font that has the glyphs, widths, characters and outlines of the font file that was selected, for all characters of the text. The name of a picture leads to an image with the data and the size of the file that was given first under that name, and with its mask.",
  "every sequence of calls, every font file and picture that is accepted, with and without a protection", "resource names come from counters, objects from indexes, characters from all texts of the document; tests look at one font and one picture", ["minigopdf/gopdf.go: AddTTFFontByReaderWithOption, ImageByHolder", "minigopdf/procset_obj.go: build", "minigopdf/subset_font_obj.go", "minigopdf/image_obj.go: build", "minigopdf/smask_obj.go: build"])
p("C65", "GoPdf: a protected document opens with its user password and with its owner password",
  "Without protection a document needs no password. With protection the standard security handler accepts the user password, and from the owner password it recovers the user password.",
  "every pair of passwords, every permission, every sequence of calls", "keys come from hashes of the passwords and of the permission; a test tries a few", ["minigopdf/pdf_protection.go", "minigopdf/encryption_obj.go", "minigopdf/gopdf.go: createProtection"])
p("C66", "GoPdf: Read in pieces gives the bytes of GetBytesPdf",
  "Calling Read with buffers of any sizes returns consecutive pieces of the file that GetBytesPdf returns, and io.EOF exactly when all bytes have been read. After Close, whatever was read before, Read begins anew with the file of the document as it is then; without Close the end stays the end.",
  "every sequence of buffer sizes, every document", "the boundaries of pieces depend on the sizes of all buffers before", ["minigopdf/gopdf.go: Read", "minigopdf/gopdf.go: Close"])
p("C67", "GoPdf: the document information is what SetInfo was given",
  "The Info dictionary of a written document has exactly the non-empty fields of the last SetInfo, and decoding their text strings gives the strings that were set.",
  "every information, every sequence of calls", "strings of all characters, written as UTF-16 in hexadecimal", ["minigopdf/gopdf.go: bindInfo", "minigopdf/gopdf.go: encodeUtf8"])
p("C68", "GoPdf: saving again gives the same document",
  "A second GetBytesPdf gives a document with the same objects as the first.",
  "every document", "the buffers of objects are appended to by each save; tests save once", ["minigopdf/gopdf.go: compilePdf", "minigopdf/catalog_obj.go: build"])
p("C69", "GoPdf: settings stay as they were set",
  "At every call the text colour, grey fill, line width, margins, page size, font, style and size are those of the last successful call that set them, failed calls change none of them, the selected font is the first one added with the family and style asked for, and GetX and GetY after a call that writes no text are where the call puts them.",
  "every sequence of calls, failed or not", "every setting is read long after it was set, with any calls between", ["minigopdf/gopdf.go: SetFontWithStyle, SetTextColor, SetGrayFill, SetLineWidth, SetLeftMargin, SetTopMargin, SetX, SetY, Br, AddPageWithOption", "minigopdf/current.go"])
p("C70", "GoPdf: MeasureTextWidth is the width a text moves the position by",
  "MeasureTextWidth returns the width of a text in the current font and size, and Text moves the current position by it.",
  "every text, font, size and state", "measuring shares the code of drawing, which is given a nil buffer here; positions add up over calls", ["minigopdf/gopdf.go: MeasureTextWidth", "minigopdf/cache_content_text.go: createContent", "minigopdf/list_cache_content.go: appendContentText"])
p("C71", "GoPdf: every picture that is accepted can be saved, with its mask",
  "If the calls of Image and ImageByHolder return no error, the document can be written, and the soft mask of a transparent picture is the mask object made for it.",
  "every picture, every sequence of calls", "the objects of mask and palette are added after the picture and numbered by the calls before", ["minigopdf/gopdf.go: ImageByHolder", "minigopdf/image_obj_parse.go: buildImgProp"])
p("C72", "A saved document is complete",
  "After Open, any calls that add fonts, texts, lines and images, and SaveTo, the file has a document with the same pages in the same order; on every page the old fonts and images and the new ones can be used under the names the drawing operators use, each new font is completely embedded, each new image is there, the operators of the calls follow the old contents of their page in call order, and every other object is unchanged.",
  "every document of the class, every sequence of calls, every order of map iteration, every compression and image decoder", "numbers and names chosen in five separate steps must agree in the bytes of the file", ["pdft.go: build", "pdf_data.go: injectFontsToPDF, injectImgsToPDF, injectContentToPDF", "pdf_data.go: bytes"])
p("C73", "GoPdf: contents are compressed at the level asked for",
  "The contents of all pages are compressed at the level of the last SetCompressLevel before saving: levels from -2 to 9 as they are, smaller ones as the default and greater ones as the best compression; at level 0 there is no filter.",
  "every sequence of calls, every compressor, with and without protection", "the level is read when the file is built, not when the page is drawn; a filter that does not fit its stream is seen by readers only", ["minigopdf/gopdf.go: SetCompressLevel", "minigopdf/content_obj.go: build"])
p("C74", "Font maker: the width of every code is that of its character",
  "In the definition file, the width of a code is the advance width of the glyph that the font's character map gives the character of that code in the map file, in thousandths of the em, to the nearest number; codes without a name have the missing width.",
  "every font, every map file, every code", "the map file, the character map and the metrics are joined for 256 codes, with a rounded quotient in floating point", ["minigopdf/fontmaker/core/fontmaker.go: GetInfoFromTrueType, MakeWidthArray", "minigopdf/fontmaker/core/ttfparser.go: ParseCmap", "minigopdf/fontmaker/core/fontmap.go"])
p("C75", "Font maker: the descriptor says what the tables of the font say",
  "Ascent, descent, height of capitals, box, italic angle, stem width, missing width and flags in the definition file are those of the tables OS/2, head, post and hmtx, lengths in thousandths of the em.",
  "every font", "signed fields at fixed places in five tables, scaled and rounded", ["minigopdf/fontmaker/core/fontmaker.go: MakeFontDescriptor, GetInfoFromTrueType", "minigopdf/fontmaker/core/ttfparser.go: ParseHead, ParsePost, ParseOS2"])
p("C76", "Font maker: the differences make the encoding",
  "Reading the differences of the definition file as PDF reads a Differences array, over the encoding cp1252, gives the encoding of the map file.",
  "every pair of map files", "numbers are written only where a run of differing codes starts", ["minigopdf/fontmaker/core/fontmaker.go: MakeFontEncoding"])
p("C77", "Font maker: the definition file is a Go program with the data of the font",
  "The definition file is a program whose type and methods are named after the font file and return the name, the type, the underline, the encoding and the size of the font; the other file is the compressed font.",
  "every font, every file name", "strings of the font and of the command line are pasted into program text", ["minigopdf/fontmaker/core/fontmaker.go: MakeFont, MakeDefinitionFile, GoStructName"])
p("C78", "Font maker: map files are read",
  "A map file of lines with a code, a character and a name gives every code the last character and name in the file, and all others none.",
  "every map file, with line ends of both kinds", "the scanner's lines and buffers, hexadecimal numbers", ["minigopdf/fontmaker/core/fontmaker.go: LoadMap"])
p("C79", "Font maker: it ends well, or leaves no definition file",
  "A font that can be parsed, may be embedded and has the glyphs of the map file is made; otherwise there is no definition file, and if a file cannot be read, is no .ttf file or may not be embedded there is no file at all.",
  "every font, every file system", "failures at each of nine steps, some after the first file was written", ["minigopdf/fontmaker/core/fontmaker.go: MakeFont, GetInfoFromTrueType"])
p("C80", "Cell borders are shown when asked for",
  "A text inserted after ShowCellBorder(true) has a dotted border, a tenth of a point wide, around its cell; a text inserted after ShowCellBorder(false), or after Open without it, has none.",
  "every sequence of calls, every page", "the line style is part of the page's graphics state and is written separately from the texts", ["pdft.go: ShowCellBorder, OpenFrom", "content_line_style.go: toSteram, page", "cache_content_text.go: toSteram"])
p("C81", "A save leaves alone what no call changed",
  "Save writes the catalog, the page tree nodes and the pages with all their entries except for the resources, and every object that is not a content stream or a resource or font dictionary of a page as it was; a document in which nothing was inserted is saved with the objects it had.",
  "every document, every sequence of calls, every order of map iteration", "the objects are rewritten by three separate crawls, and which objects they visit depends on where resources, fonts and images are stored", ["pdf_data.go: injectFontsToPDF, injectImgsToPDF, injectContentToPDF", "pdft.go: Save, ShowCellBorder", "content_line_style.go: toSteram"])
p("C82", "Objects of a made font say what the font says",
  "For a font written by the font maker the font, width, encoding, descriptor and font file objects are well formed; widths of codes 32 to 255 are those of the glyphs, the differences make the encoding of the map file, the descriptor has the measures of the font, and the stream is the compressed font with its lengths.",
  "every font file, every pair of map files, protected or not", "two programs work together: one writes Go source, the other prints objects from its methods", ["minigopdf/font_obj.go: build", "minigopdf/encoding_obj.go: build", "minigopdf/fontdescriptor_obj.go: build", "minigopdf/embedfont_obj.go: build", "minigopdf/fontconverthelper.go: FontConvertHelper_Cw2Str", "minigopdf/ifont.go"])
p("C83", "The passwords that protect a file are those handed over",
  "SetProtection makes the protection of the bytes its two slices hold when it is called, wherever the slices lie in the caller's memory, and changes none of the caller's bytes.",
  "every memory, every pair of slices of it, every permission", "append writes in place only if the capacity allows it, and that hurts only if the arrays are shared; tests use literals", ["minigopdf/pdf_protection.go: setProtection, generateEncryptionKey"])
p("C84", "pdft opens what GoPdf writes",
  "A document that GoPdf wrote is opened by pdft: all its objects are read with their texts, the pages found are those that were added, in this order, and their sizes are the ones asked for.",
  "every program of GoPdf calls, every configuration", "two separate programs meet, and the reader finds its way by searching for words and by brackets instead of reading the table", ["pdf_parse.go: PDFParse, parseXref, parseTrailer, parseObjs, parsePageSize", "pdf_data.go: getPageObjIDs", "minigopdf/gopdf.go: GetBytesPdf", "minigopdf/page_obj.go: build", "minigopdf/pages_obj.go: build"])
p("C85", "Protection of an opened document",
  "A document that was encrypted when it was opened shows the same pages to the holder of its password after a save, or it cannot be opened; the saved file says that it is encrypted exactly if a protection was set.",
  "every history of calls, every opened file", "a test that opens an encrypted file sees no error anywhere: neither opening nor saving looks at the encryption", ["pdf_parse.go: PDFParse, parseTrailer", "pdft.go: Open, SetProtection, Save, toStream, xref"])
p("C86", "pdft draws over what GoPdf wrote",
  "A document that GoPdf wrote can be opened, drawn on and saved by pdft; the saved file has the same pages in the same order, each with the operators of GoPdf and behind them what pdft drew; the names of fonts and images used by GoPdf still mean the same objects, all other objects are unchanged, and no dictionary gets a key twice.",
  "every program of GoPdf calls, every list of pdft calls that add something, every order of map iteration", "the two halves of the repository are tested apart; a test of both would look at one document and one reader of the result", ["pdft.go: Open, Insert, InsertImg, Save", "pdf_data.go: injectFontsToPDF, injectImgsToPDF, injectContentToPDF", "pdf_parse.go: PDFParse", "minigopdf/gopdf.go: GetBytesPdf", "minigopdf/procset_obj.go: build", "minigopdf/page_obj.go: build", "minigopdf/content_obj.go: build"])
p("C87", "What can be saved",
  "A save after any calls succeeds if the pages can be read, their font names are letters with a number, and the font files hold all their tables; this holds with a password and without one, for documents with and without resources, and for what GoPdf wrote.",
  "every history of calls, every document, every order of map iteration, every font", "that a save never fails is a statement about all documents; the failures are in documents no test has, such as one with two blanks in its resources or with the word stream in a string", ["pdft.go: Save, SaveTo, build", "pdf_data.go: injectFontsToPDF, injectImgsToPDF, injectContentToPDF", "pdf_obj_property_data.go: readObjIDFromDictionary", "pdf_obj_data.go: encrypt", "minigopdf/subset_font_obj.go"])
p("C88", "The document information of an opened document is kept",
  "When a document is opened, drawn on and saved, the trailer of the saved file has an Info entry exactly if the opened document had one, and the title, author and other fields are the same. Besides that, the trailer has Size and Root and, when protected, Encrypt and ID, and nothing else.",
  "all histories of calls, all orders of maps, all documents that were opened",
  "the examples look at the pages of the saved file; title and author are shown elsewhere, and what the trailer has must be known for every history",
  ["pdft.go:746-755", "pdf_parse.go:116-148"])
p("C89", "GoPdf kerns a text as the font says",
  "In a document of GoPdf, a text in a font that was added with UseKerning is set with the kerning of the kern table of the font file: between two glyphs it moves by the value of this pair of glyphs, in thousandths of the em, or by what the function of KernOverride makes of this value. Without UseKerning it moves by nothing. Fonts whose kern table has another format than pairs are refused.",
  "all runs of the writer, all fonts added in them, all font files, all pairs of glyphs, all override functions",
  "the tests draw a word with one font and look at the page; pairs, subtables and formats of the table are bytes of files that no test has, and a wrong value moves a glyph by less than a point",
  ["minigopdf/fontmaker/core/ttfparser_kern.go:9-102", "minigopdf/fontmaker/core/kern_table.go:10-22", "minigopdf/subset_font_obj.go:91-108", "minigopdf/cache_content_text.go:311-330"])
p("C90", "GoPdf: no call ends the program",
  "After any calls of the writer, whether they came back with errors or not, every further call comes back: drawing, moving, pages, colours and settings always succeed; SetFont and KernOverride succeed exactly when the font was added, and otherwise come back with an error; a font or picture that cannot be read is an error; a text in a selected font is written or is an error.",
  "all runs of the writer, all next calls, all font files and pictures",
  "a panic needs a state (no font selected, an earlier error, a content stream of another page) together with a call; the tests have a handful of such pairs and never look at a call after an error",
  ["minigopdf/gopdf.go:191-636", "minigopdf/content_obj.go:87-288", "minigopdf/list_cache_content.go:21-63", "minigopdf/cache_content_text.go:234-309", "minigopdf/subset_font_obj.go:130-261", "minigopdf/image_obj.go:152-183"])
p("C91", "GoPdf: what was accepted can be saved",
  "After any calls of the writer, whether they came back with errors or not, GetBytesPdf gives a file and Read does not end the program: every font and every picture that a call has accepted can be written, and so can every content stream, with or without a protection.",
  "all runs of the writer, all font files, pictures, settings of protection and worlds outside",
  "the objects are built only when the document is saved, long after the call that made them came back without an error; a test has to pair a picture or font of the right sort with a save",
  ["minigopdf/gopdf.go:387-446", "minigopdf/gopdf.go:715-760", "minigopdf/device_rgb_obj.go:1-50", "minigopdf/pdf_dictionary_obj.go:45-330", "minigopdf/cid_font_obj.go:20-60", "minigopdf/content_obj.go:27-77"])
p("C92", "GoPdf: a text that the font has is written",
  "With a font selected whose cmap table leads every character of a text to a glyph, Text, Cell and CellWithOption write the text and come back without an error, whatever was called before: what stands on the line already, and in which font it stands there, makes no difference.",
  "all runs of the writer, all font files, texts, cells and worlds outside",
  "a text that follows another on a line is joined with it and laid out anew, so that whether it is written depends on all earlier texts of the line and on the numbers of the fonts; tests write whole texts in one font",
  ["minigopdf/gopdf.go:345-372", "minigopdf/gopdf.go:500-580", "minigopdf/content_obj.go:88-162", "minigopdf/cache_content_text.go:38-54", "minigopdf/cache_content_text.go:234-309", "minigopdf/list_cache_content.go:1-57", "minigopdf/subset_font_obj.go:133-175"])
p("C93", "GoPdf: a call that fails leaves the document as it was",
  "A call of the writer that comes back with an error changes nothing: the pages, the fonts and pictures, the position and all settings, and so the file that is saved, are as if the call had not been made.",
  "all runs of the writer, all calls with all arguments, all worlds outside",
  "calls do several things to the objects of the document one after the other; a test that sees the error rarely saves and compares what is left behind, and only for the state it has built",
  ["minigopdf/gopdf.go:192-280", "minigopdf/gopdf.go:346-376", "minigopdf/gopdf.go:448-580", "minigopdf/subset_font_obj.go:133-146", "minigopdf/list_cache_content.go:1-57", "minigopdf/cache_content_text.go:234-309"])
p("C94", "GoPdf: Start begins a new document",
  "After Start has been called on a writer that was used before, the saved file is the document drawn since that call: its page tree has the pages added since then, one for each AddPage.",
  "all runs before and after the second Start, all configurations, all worlds outside",
  "the second Start gives no error and all later calls succeed; only reading the page tree of the file shows which objects it reaches, and a test does so for the few histories it has built",
  ["minigopdf/gopdf.go:282-342", "minigopdf/gopdf.go:664-695", "minigopdf/gopdf.go:715-794", "minigopdf/gopdf.go:835-840", "minigopdf/catalog_obj.go:1-31", "minigopdf/pages_obj.go:1-45"])
out = os.path.join(os.path.dirname(os.path.abspath(__file__)), "..", "properties.jsonl")
with open(out, "w") as f:
    for x in P: f.write(json.dumps(x) + "\n")
print(len(P))
