#!/usr/bin/env python3
# Writes /verif/MANIFEST.json and checks that every theorem named exists.
import json, os, re, glob
here = os.path.dirname(os.path.abspath(__file__))
C = []
def c(prop, status, theorems, note):
    C.append(dict(property=prop, status=status, theorems=theorems.split(), note=note))

c("C01", "proved", "C01_xref_offsets", "file below 10^10 bytes")
c("C02", "proved", "C02_xref_shape", "file below 10^10 bytes")
c("C03", "proved", "C03_free_chain", "file below 10^10 bytes")
c("C06", "partial", "C06_rewrite_keeps_entries_partial C06_lookup_after_rewrite_partial C06_non_ascii_refuted C06_lone_angle_refuted C06_string_space_refuted",
  "false for bytes above 127 and for a lone angle bracket between white space (witnesses); proved for every other dictionary")
c("C07", "proved", "C07_remove_page", "page trees of any shape; root dictionary ASCII with /Count")
c("C08", "partial", "C08_remove_others_partial C08_remove_others_refuted C08_last_page_panics",
  "false: page k+1 is kept and k = n panics; proved what the call does for every k from 0 to n-1")
c("C09", "partial", "C09_duplicate_page C09_refusal C09_non_ascii_refuted",
  "proved for pages whose dictionary survives rewriting (ASCII); false for other page dictionaries (witness)")
c("C10", "proved", "C10_page_operations", "all finite histories in range; page dictionaries survive rewriting")
c("C11", "partial", "C11_too_big_partial C11_not_positive_panics C11_position_panics C11_refuted",
  "true for page numbers above n; false (panic) for numbers <= 0 and for positions outside the document")
c("C12", "proved", "C12_independent_copy", "documents in which every page's content is a plain or Flate stream that does not start with white space; all orders of map iteration")
c("C13", "partial", "C13_inserts_partial C13_elsewhere_partial C13_page_stream_partial C13_filter_array_refuted C13_other_filter_refuted C13_contents_array_refuted C13_lost_inserts_refuted",
  "proved for pages with one plain or Flate content stream; false for filter arrays, other filters, arrays of streams and pages without content (witnesses)")
c("C14", "partial", "C14_length C14_read_back_partial C14_white_space_refuted C14_two_saves_refuted",
  "length exact for all bytes; reading back proved unless the content starts with white space, where it is false (witness)")
c("C16", "partial", "C16_shared_refuted C16_last_page_partial", "false: the inserts of the last page replace those of the others; proved what is kept")
c("C05", "partial", "C05_reopen_partial C05_in_order C05_same_entries C05_same_pages C05_stable C05_order_refuted C05_versions_refuted",
  "every document without the words xref, trailer, endobj in its objects, protected or not: the last versions of all objects come back, in the order of their numbers; the same document and the same file again if numbers are in order; false: the order is not kept, older versions are gone")
c("C17", "partial", "C17_dictionary_reader_total C17_open_partial C17_rows_total C17_reference_total C17_startxref_refuted C17_row_refuted C17_catalog_refuted C17_kid_refuted C17_odd_kids_refuted C17_mediabox_refuted C17_cycle_refuted",
  "dictionary reader total; opening crashes on malformed files (witnesses); proved that every crash has one of six causes")
c("C18", "partial", "C18_page_list C18_number_of_pages C18_cycle_refuted", "page list proved for all finite trees; termination is false on cyclic trees")
c("C34", "partial", "C34_decrypts_partial C34_others_kept C34_trailing_newline_refuted C34_word_stream_refuted",
  "proved for every key and every stream that neither begins nor ends with CR or LF; false otherwise, in particular for the library's own content streams")
c("C35", "partial", "C35_passwords_partial C35_permission_bits C35_large_permission_refuted", "all passwords, permissions 0 to 255; false for larger permission values")
c("C36", "proved", "C36_literal C36_dictionary", "all byte strings")
c("C38", "partial", "C38_alpha_partial C38_meaning_unique C38_meaning_exists C38_grey_alpha_lost C38_grey_alpha_refuted",
  "proved for RGBA images of every content and every row filter, sizes below 32768, chunks of 1 to 32767 bytes; false for grey images with alpha, which keep nothing")
c("C39", "partial", "C39_sizes_partial C39_sizes_refuted", "true exactly for values below 32768")
c("C51", "partial", "C51_data_partial C51_long_chunk_panics C51_long_chunk_refuted C51_empty_chunk_ends C51_empty_chunk_refuted C51_terminates",
  "proved for sizes below 32768 and chunks of 1 to 32767 bytes; false for longer chunks (panic) and for empty chunks (data lost)")
c("C52", "proved", "C52_object C52_jpeg", "every image record that the parsers make; read by an independent PDF syntax reader")
c("C53", "partial", "C53_palette_lost C53_palette_refuted", "false: the palette is not written, the colour table is looked for in object 1")
c("C50", "partial", "C50_strings_refuted", "false: strings are not encrypted")
c("C47", "proved", "C47_decimal C47_no_surprises C47_padded C47_reference C47_references", "numbers in the range of int")

c("C24", "partial", "C24_characters C24_no_glyph C24_widths C24_widths_total C24_widths_refuted C24_tounicode_partial C24_tounicode_refuted C24_codespace_refuted C24_font_object C24_descriptor_object C24_font_object_refuted",
  "glyphs and widths proved for every font and all histories of texts; ToUnicode proved for the basic plane, false beyond it; false for a font with no units per em and for font names with delimiters")
c("C25", "partial", "C25_format4_partial C25_meaning_unique C25_no_segment",
  "proved for every format 4 table and character that has a segment and whose glyph id lies in the subtable's array; a character behind the last segment crashes")
c("C26", "partial", "C26_format12_partial C26_found C26_last C26_format12_refuted", "glyphs found are right; false for the last character of each group, which is not found")
c("C28", "partial", "C28_outlines_partial C28_total C28_meaning_unique C28_shared_glyph C28_outlines_refuted C28_total_refuted",
  "proved for every sound font while no two characters share a glyph; false otherwise: every glyph behind a shared one is empty")
c("C29", "partial", "C29_components_partial C29_components_refuted", "proved for one level of components; false for components of components")
c("C30", "partial", "C30_layout_partial C30_copied C30_tables C30_advances C30_checksum_refuted C30_stream",
  "offsets, lengths, alignment, disjointness and the checksums of the two made tables proved; copied tables keep the checksum of the source, right or wrong")
c("C45", "proved", "C45_write C45_uint16 C45_int16 C45_uint32", "every buffer, position and value")
c("C54", "partial", "C54_parse_partial C54_parse_refuted", "every byte string; the one panic is a font with glyphs but no metrics")

c("C27", "partial", "C27_sum C27_history C27_concat_partial C27_concat_refuted", "sum and independence of history for every font and text; concatenation for valid UTF-8, false for halves of a character")
c("C31", "partial", "C31_groups_partial C31_text C31_spaces_refuted C31_empty_line_refuted", "grouping, widths and greedy breaks for every text, font and width; false: white space at the ends of lines is dropped, an empty line before a first token that is too wide")
c("C32", "partial", "C32_lossless_partial C32_any C32_tokens C32_lossless_refuted", "proved for valid UTF-8; false for other bytes")
c("C33", "partial", "C33_colour_partial C33_inherited_refuted C33_rounded_refuted", "nearest hundredth unless the components add up to a multiple of 256; then the colour drawn before is used")
c("C48", "partial", "C48_text_partial C48_unique C48_failed_refuted", "every font, text and drawing state, if all numbers written are finite; false for texts whose Insert failed, which are written all the same")
c("C55", "partial", "C55_overrides_partial C55_leak_refuted", "every override, font and text; false: the rise stays for the texts after it")
c("C56", "partial", "C56_decoration_partial C56_placed_partial C56_thickness_refuted C56_aligned_refuted", "every font with underline thickness not negative, positions in real numbers up to a million points; false for a negative thickness, and the underline does not follow the alignment of the text")
c("C57", "partial", "C57_text_placed_partial", "every font, text, size and alignment, numbers of at most a million points, positions right to 6/1000 of a point")
c("C58", "partial", "C58_image_placed_partial", "every size and position of at most a million points, right to 6/1000 of a point, names of regular characters")
c("C59", "partial", "C59_fonts_complete_partial C59_second_save_refuted", "proved for fonts saved for the first time, up to the point where all objects are there; false for a second save (witness)")

c("C04", "proved", "C04_fresh_numbers C04_count", "every document, history of calls, map order and growth of slices; histories may contain further Opens before the document in question and failed or repeated saves")
c("C15", "partial", "C15_save_again_partial C15_save_twice_refuted C15_untouched_refuted", "false, even with nothing inserted; true without fonts when images were added and the runtime moved the object array")
c("C22", "partial", "C22_add_twice C22_add_new C22_set_unknown C22_set_known C22_insert_unset C22_insert_uses C22_style C22_empty_name_refuted", "proved for every history; one exception: a font registered under the empty name is used by Insert before any SetFont")
c("C23", "partial", "C23_failed_calls C23_failed_insert C23_leave_out C23_insert_refuted C23_wrap_refuted", "proved for image calls, font calls, page removal, and Insert without a font; false for Insert and InsertWrapText when a character cannot be encoded")
c("C37", "proved", "C37_cached_once", "every history without other image calls; md5 is modelled, equal sums count as equal images")
c("C40", "proved", "C40_text_unknown C40_img_unknown C40_text_last C40_img_last C40_design_view", "every list of fields, key, text and state; every map order for ShowDesignView")
c("C41", "partial", "C41_height_at_open C41_removed_refuted", "the height is that of the k-th page when the document was opened; false after pages were removed or copied")
c("C42", "partial", "C42_which C42_one_version C42_update_refuted", "proved for documents with one version of each object; which version is used is characterised exactly; false for updated documents")
c("C49", "partial", "C49_adds C49_open_again_refuted", "false: contents, images and objects stay")

c("C19", "partial", "C19_names_fresh_partial C19_collision_refuted", "proved for tidy documents (page tree of at most two levels, record tidy in InjectSpec.v) and every map order; false for deeper page trees")
c("C20", "partial", "C20_old_kept_partial C20_renamed_refuted C20_swapped_refuted C20_unnumbered_refuted", "proved for tidy documents and font names of letters and a number; false for other names, which are renamed, merged or make saving fail")
c("C43", "partial", "C43_reachable_partial C43_deep_refuted C43_inherited_refuted", "proved for tidy documents; false for pages three levels down and for inherited resources")
c("C46", "partial", "C46_keys_unique_partial C46_shared_refuted", "proved for tidy documents whose pages do not share a resource object with the fonts inside; false when they do")
c("C21", "partial", "C21_names_distinct C21_inside_partial C21_shared_partial C21_logo_refuted C21_indirect_refuted C21_taken_refuted C21_bare_refuted C21_words_refuted", "the names given are distinct, in every document and map order; old and new images are named on every page that had images when all image dictionaries stand in the pages or all pages share one resource object, and the names are letters and a number with the greatest last; false otherwise: old entries are lost or taken for new ones")
c("C44", "partial", "C44_none_partial C44_nowhere_partial C21_inside_partial C21_shared_partial C44_other_refuted C44_order_refuted C44_nested_refuted", "proved for pages whose resource objects have no images, for pages directly below the root with resources in them and no images, and by the C21 theorems for the pages that have some; false in general: a page without images gets none when another has some, pages below an inner node get none, and with several resource objects the map order decides")
c("C60", "partial", "C60_inside_partial C60_shared_partial C60_none_partial C60_nowhere_partial C60_fonts_refuted", "proved for the four kinds of documents of C21 and C44, every map order and every resource category; false when one page has its resources inside and another in an object")
c("C61", "partial", "C61_structure_partial C61_date_refuted", "rows, objects and header for all programs; the trailer is a dictionary unless a creation date is set, and with one it never is")
c("C62", "partial", "C62_pages_partial C62_empty_page_refuted", "for documents in which something was drawn on every page; the object of a page on which nothing was drawn is malformed")
c("C63", "partial", "C63_contents_partial C63_before_page_refuted C63_border_refuted C63_black_refuted", "operators of all calls, protected or not, for finite numbers and successful text calls, as the code resolves the settings; refuted for calls before the first page, borders of merged cells, black after another colour")
c("C64", "partial", "C64_fonts_partial C64_fonts_refuted C64_strings_refuted C64_jpeg C64_png C64_alpha_partial C64_protected_refuted", "fonts without Underline in their style, JPEG, grey and colour PNG for all documents; refuted: a family whose first font has the Underline style is drawn with the wrong font, strings of protected documents are not enciphered, picture objects of protected documents are no streams, the reference to a mask is one too low")
c("C65", "partial", "C65_passwords_partial C65_values C65_permission_refuted", "proved for permissions below 256 (the sum of the flags is 60 at most), and refuted without: with a permission of 256 the user password does not open the file. Missing: strings of the information are assumed simple, as for C67")
c("C66", "proved", "C66_read C66_close C66_end", "")
c("C67", "partial", "C67_information_partial C67_plane_refuted", "for characters of the basic plane; false beyond it")
c("C68", "partial", "C68_again_refuted", "refuted: the second file has doubled object bodies")
c("C69", "proved", "C69_settings C69_positions", "positions after texts are the subject of C70")
c("C70", "partial", "C70_moves C70_measure_refuted C70_measure_panics C70_advance_refuted", "proved: what every successful text moves the position by; refuted: MeasureTextWidth never succeeds, in any state; merged texts move the position twice")
c("C71", "partial", "C71_palette_refuted C71_palette_panics C71_mask_refuted", "refuted: no document with an accepted palette picture can be saved; the mask reference is off by one")
c("C72", "partial", "C72_saved_document_partial C72_locked_partial C72_text_drawn_partial C72_image_drawn_partial C72_wrapped_drawn_partial C72_image64_drawn_partial C72_cached_drawn_partial", "proved from the calls to the bytes of the file, with and without passwords, and for texts and images from their calls to what the operators on the page draw, for documents with fonts in the pages or in objects, and with images in the pages, in one object, or nowhere; missing: images in several objects, and pages further down the tree with resources but no images in them, where a save adds no images (C44)")
c("C73", "partial", "C73_level_partial C73_big_refuted", "proved for all programs without a level above 9; refuted for those, which keep the level before")
c("C74", "proved", "C74_widths", "for every run that ends well, of a font whose definition file is a Go program (see C77)")
c("C75", "proved", "C75_descriptor", "as C74")
c("C76", "partial", "C76_differences_partial C76_differences_refuted", "proved unless the first code that differs is code 1; then it gets no number (refuted)")
c("C77", "partial", "C77_definition_file_partial C77_size_refuted C77_name_refuted C77_quote_refuted C77_hyphen_refuted", "proved for names without quotes, backslashes and line ends and file names that are identifiers, with zeros taken out of the font name; refuted: the original size, names with zeros, names with quotes, file names with hyphens")
c("C78", "partial", "C78_map_partial C78_blank_line_refuted C78_code_refuted", "proved for files of entries with lines below the scanner's limit; refuted: an empty line panics, and a code beyond 255")
c("C79", "partial", "C79_works C79_last_file C79_files_written C79_refused_partial C79_licence_refuted C79_no_map_refuted C79_no_name_refuted", "refuted: a restricted licence with another bit set is embedded; without cp1252.map, or for a file named .ttf, the compressed font is left alone")
c("C80", "partial", "C80_border_partial C80_second_page_refuted C80_failed_open_refuted", "proved for the first page, from the calls to the operators in the file; refuted for the others: the line style is only written to the first page; after an Open that fails texts have borders nobody asked for")
c("C81", "partial", "C81_kept_partial C81_catalog_refuted C81_doubled_refuted C81_first_page_refuted", "proved for the documents of C72, from the calls to the file; refuted for a document in which nothing was inserted: the catalog, tree nodes and pages get /XObject, a resource object that pages share gets its keys twice, and each save adds a line style to the first page")
c("C82", "partial", "C82_font_partial C82_widths C82_encoding_partial C82_descriptor_partial C82_file C82_length1_refuted", "proved for font names of regular characters (zeros are missing, see C77) and encodings whose first difference is not code 1 (see C76); refuted: /Length1")
c("C83", "partial", "C83_values_partial C83_same C83_open_to_all_refuted C83_locked_out_refuted C83_memory_partial C83_memory_refuted", "proved for slices where the 32 bytes behind one password are not read through the other, and for one slice given twice; refuted: a user password right behind the owner password counts as empty, the other way round neither password opens the file, and the caller's bytes change")
c("C84", "partial", "C84_opens_partial C84_standard_page_refuted C84_words_refuted", "proved for documents in which no object holds one of the words endobj, xref, trailer: all objects, page tree and sizes if every page has a size of its own; refuted: a page of the size of the document makes the reader panic; refuted as well: without the condition on the words (a JPEG picture that holds endobj is cut off, with trailer opening fails, with startxref it panics)")
c("C85", "partial", "C85_trailer_partial C85_lost_refuted", "proved for every history: the trailer of a saved file has /Encrypt exactly if a SetProtection call answered without error; refuted: an encrypted document is opened without a password and saved with encrypted streams in a file that does not say so")
c("C86", "partial", "C86_over_partial C86_blank_partial C86_blank_page_refuted C86_resources_refuted", "proved for successful saves of unprotected documents with finite page sizes in which no object holds one of the words endobj, xref, trailer, and all calls but those that open a document or change its pages; refuted: a page on which nothing was drawn makes every save fail (proved for all such documents, and for those without pages), and the resources that the pages share get each key once per page")
c("C87", "partial", "C87_saves C87_locked C87_locked_refuted C87_resources_needed C87_blanks_refuted C87_over_partial", "proved for the documents of C72 after every history of calls: without protection the save succeeds if some page has resources, resources inside a page do not have exactly two blanks, font names are letters with a number, fonts are complete and object numbers are left; with protection exactly if no object would be written with the word stream and no endstream behind it; refuted: documents with such an object, with two blanks in the resources of a page, or without resources in any page; for documents of GoPdf under the conditions of C86")
c("C88", "partial", "C88_trailer_partial C88_information_refuted", "proved for every history: the trailer of a saved file has Size and Root, or Size, Root, Encrypt and ID, and nothing else; refuted: a document of GoPdf with a title is opened, drawn on and saved without error, and the title is gone")
c("C89", "partial", "C89_kerning_partial C89_rejected C89_subtables_refuted C89_format_refuted", "proved for the last subtable of the table, whose pairs are the only ones used; refuted: the pairs of the subtables before it are lost, and a subtable of format 2 is not refused but read as pairs")
c("C90", "partial", "C90_calls_partial C90_no_font_refuted C90_measure_refuted", "how every call ends is proved from the earlier calls and the files (end_of in GoPdfCallSpec.v); refuted that all calls come back: a text before SetFont, and MeasureTextWidth with any text that the font has, panic; the other panics left are fonts without metrics, characters outside of the cmap segments and pictures with a side of 0")
c("C91", "partial", "C91_saves_partial C91_reads_partial C91_palette C91_font_refuted", "proved for all runs, protected or not, whose font files are complete and whose pictures have no palette; with a palette there is never a file (proved); refuted without the condition on fonts: a file that ends with a table that is not padded is accepted and cannot be saved. Missing: which fonts that are not complete can be saved all the same")
c("C92", "partial", "C92_written_partial C92_half_refuted C92_stuck_refuted C92_twin_refuted", "proved for all runs, with or without errors, whose texts are valid UTF-8, whose fonts were added under different names or styles and have their widths; refuted without the first condition (the bytes of one character in two calls are turned down, and with them every later text of the line) and without the second (two fonts get the same number). Missing: which texts that are not valid UTF-8 can be joined")
c("C93", "partial", "C93_calls_partial C93_texts_partial C93_any C93_lacking_refuted C93_joined_refuted", "proved in every state for all calls without a text, and for texts, under the conditions of C92 on the calls before, up to the characters that are embedded; refuted for texts: the characters before one that the font lacks are embedded, and a text that cannot be joined with the one before it stays on the page. Without these conditions, in every state, a failing call changes nothing but the characters to embed and a text at the end of the drawing of the page (C93_any)")
c("C94", "partial", "C94_again_refuted C94_none C94_read", "refuted, and the opposite proved for all runs: Start keeps the objects of the first document, the trailer names its catalog and this the first page root, which is not filled any more; whatever is drawn before or after, the page tree of the file is empty, and if the first document was read to its end Read gives nothing at all. Documents started once are C62")
names = set()
for f in glob.glob(os.path.join(here, "../rocq/theories/*.v")):
    names |= set(re.findall(r"^(?:Theorem|Lemma) ([A-Za-z0-9_]+)", open(f).read(), re.M))
for x in C:
    for t in x["theorems"]:
        assert t in names, t
assert len(set(x["property"] for x in C)) == len(C)
with open(os.path.join(here, "../MANIFEST.json"), "w") as f:
    f.write('{"claims": [\n' + ",\n".join(" " + json.dumps(x) for x in C) + "\n]}\n")
