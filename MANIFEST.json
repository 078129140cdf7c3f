{"claims": [
 {"property": "C01", "status": "proved", "theorems": ["C01_xref_offsets"], "note": "file below 10^10 bytes"},
 {"property": "C02", "status": "proved", "theorems": ["C02_xref_shape"], "note": "file below 10^10 bytes"},
 {"property": "C03", "status": "proved", "theorems": ["C03_free_chain"], "note": "file below 10^10 bytes"},
 {"property": "C06", "status": "partial", "theorems": ["C06_rewrite_keeps_entries_partial", "C06_lookup_after_rewrite_partial", "C06_non_ascii_refuted", "C06_lone_angle_refuted", "C06_string_space_refuted"], "note": "false for bytes above 127 and for a lone angle bracket between white space (witnesses); proved for every other dictionary"},
 {"property": "C07", "status": "proved", "theorems": ["C07_remove_page"], "note": "page trees of any shape; root dictionary ASCII with /Count"},
 {"property": "C08", "status": "partial", "theorems": ["C08_remove_others_partial", "C08_remove_others_refuted", "C08_last_page_panics"], "note": "false: page k+1 is kept and k = n panics; proved what the call does for every k from 0 to n-1"},
 {"property": "C09", "status": "partial", "theorems": ["C09_duplicate_page", "C09_refusal", "C09_non_ascii_refuted"], "note": "proved for pages whose dictionary survives rewriting (ASCII); false for other page dictionaries (witness)"},
 {"property": "C10", "status": "proved", "theorems": ["C10_page_operations"], "note": "all finite histories in range; page dictionaries survive rewriting"},
 {"property": "C11", "status": "partial", "theorems": ["C11_too_big_partial", "C11_not_positive_panics", "C11_position_panics", "C11_refuted"], "note": "true for page numbers above n; false (panic) for numbers <= 0 and for positions outside the document"},
 {"property": "C12", "status": "proved", "theorems": ["C12_independent_copy"], "note": "documents in which every page's content is a plain or Flate stream that does not start with white space; all orders of map iteration"},
 {"property": "C13", "status": "partial", "theorems": ["C13_inserts_partial", "C13_elsewhere_partial", "C13_page_stream_partial", "C13_filter_array_refuted", "C13_other_filter_refuted", "C13_contents_array_refuted", "C13_lost_inserts_refuted"], "note": "proved for pages with one plain or Flate content stream; false for filter arrays, other filters, arrays of streams and pages without content (witnesses)"},
 {"property": "C14", "status": "partial", "theorems": ["C14_length", "C14_read_back_partial", "C14_white_space_refuted", "C14_two_saves_refuted"], "note": "length exact for all bytes; reading back proved unless the content starts with white space, where it is false (witness)"},
 {"property": "C16", "status": "partial", "theorems": ["C16_shared_refuted", "C16_last_page_partial"], "note": "false: the inserts of the last page replace those of the others; proved what is kept"},
 {"property": "C05", "status": "partial", "theorems": ["C05_reopen_partial", "C05_in_order", "C05_same_entries", "C05_same_pages", "C05_stable", "C05_order_refuted", "C05_versions_refuted"], "note": "every document without the words xref, trailer, endobj in its objects, protected or not: the last versions of all objects come back, in the order of their numbers; the same document and the same file again if numbers are in order; false: the order is not kept, older versions are gone"},
 {"property": "C17", "status": "partial", "theorems": ["C17_dictionary_reader_total", "C17_open_partial", "C17_rows_total", "C17_reference_total", "C17_startxref_refuted", "C17_row_refuted", "C17_catalog_refuted", "C17_kid_refuted", "C17_odd_kids_refuted", "C17_mediabox_refuted", "C17_cycle_refuted"], "note": "dictionary reader total; opening crashes on malformed files (witnesses); proved that every crash has one of six causes"},
 {"property": "C18", "status": "partial", "theorems": ["C18_page_list", "C18_number_of_pages", "C18_cycle_refuted"], "note": "page list proved for all finite trees; termination is false on cyclic trees"},
 {"property": "C34", "status": "partial", "theorems": ["C34_decrypts_partial", "C34_others_kept", "C34_trailing_newline_refuted", "C34_word_stream_refuted"], "note": "proved for every key and every stream that neither begins nor ends with CR or LF; false otherwise, in particular for the library's own content streams"},
 {"property": "C35", "status": "partial", "theorems": ["C35_passwords_partial", "C35_permission_bits", "C35_large_permission_refuted"], "note": "all passwords, permissions 0 to 255; false for larger permission values"},
 {"property": "C36", "status": "proved", "theorems": ["C36_literal", "C36_dictionary"], "note": "all byte strings"},
 {"property": "C38", "status": "partial", "theorems": ["C38_alpha_partial", "C38_meaning_unique", "C38_meaning_exists", "C38_grey_alpha_lost", "C38_grey_alpha_refuted"], "note": "proved for RGBA images of every content and every row filter, sizes below 32768, chunks of 1 to 32767 bytes; false for grey images with alpha, which keep nothing"},
 {"property": "C39", "status": "partial", "theorems": ["C39_sizes_partial", "C39_sizes_refuted"], "note": "true exactly for values below 32768"},
 {"property": "C51", "status": "partial", "theorems": ["C51_data_partial", "C51_long_chunk_panics", "C51_long_chunk_refuted", "C51_empty_chunk_ends", "C51_empty_chunk_refuted", "C51_terminates"], "note": "proved for sizes below 32768 and chunks of 1 to 32767 bytes; false for longer chunks (panic) and for empty chunks (data lost)"},
 {"property": "C52", "status": "proved", "theorems": ["C52_object", "C52_jpeg"], "note": "every image record that the parsers make; read by an independent PDF syntax reader"},
 {"property": "C53", "status": "partial", "theorems": ["C53_palette_lost", "C53_palette_refuted"], "note": "false: the palette is not written, the colour table is looked for in object 1"},
 {"property": "C50", "status": "partial", "theorems": ["C50_strings_refuted"], "note": "false: strings are not encrypted"},
 {"property": "C47", "status": "proved", "theorems": ["C47_decimal", "C47_no_surprises", "C47_padded", "C47_reference", "C47_references"], "note": "numbers in the range of int"},
 {"property": "C24", "status": "partial", "theorems": ["C24_characters", "C24_no_glyph", "C24_widths", "C24_widths_total", "C24_widths_refuted", "C24_tounicode_partial", "C24_tounicode_refuted", "C24_codespace_refuted", "C24_font_object", "C24_descriptor_object", "C24_font_object_refuted"], "note": "glyphs and widths proved for every font and all histories of texts; ToUnicode proved for the basic plane, false beyond it; false for a font with no units per em and for font names with delimiters"},
 {"property": "C25", "status": "partial", "theorems": ["C25_format4_partial", "C25_meaning_unique", "C25_no_segment"], "note": "proved for every format 4 table and character that has a segment and whose glyph id lies in the subtable's array; a character behind the last segment crashes"},
 {"property": "C26", "status": "partial", "theorems": ["C26_format12_partial", "C26_found", "C26_last", "C26_format12_refuted"], "note": "glyphs found are right; false for the last character of each group, which is not found"},
 {"property": "C28", "status": "partial", "theorems": ["C28_outlines_partial", "C28_total", "C28_meaning_unique", "C28_shared_glyph", "C28_outlines_refuted", "C28_total_refuted"], "note": "proved for every sound font while no two characters share a glyph; false otherwise: every glyph behind a shared one is empty"},
 {"property": "C29", "status": "partial", "theorems": ["C29_components_partial", "C29_components_refuted"], "note": "proved for one level of components; false for components of components"},
 {"property": "C30", "status": "partial", "theorems": ["C30_layout_partial", "C30_copied", "C30_tables", "C30_advances", "C30_checksum_refuted", "C30_stream"], "note": "offsets, lengths, alignment, disjointness and the checksums of the two made tables proved; copied tables keep the checksum of the source, right or wrong"},
 {"property": "C45", "status": "proved", "theorems": ["C45_write", "C45_uint16", "C45_int16", "C45_uint32"], "note": "every buffer, position and value"},
 {"property": "C54", "status": "partial", "theorems": ["C54_parse_partial", "C54_parse_refuted"], "note": "every byte string; the one panic is a font with glyphs but no metrics"},
 {"property": "C27", "status": "partial", "theorems": ["C27_sum", "C27_history", "C27_concat_partial", "C27_concat_refuted"], "note": "sum and independence of history for every font and text; concatenation for valid UTF-8, false for halves of a character"},
 {"property": "C31", "status": "partial", "theorems": ["C31_groups_partial", "C31_text", "C31_spaces_refuted", "C31_empty_line_refuted"], "note": "grouping, widths and greedy breaks for every text, font and width; false: white space at the ends of lines is dropped, an empty line before a first token that is too wide"},
 {"property": "C32", "status": "partial", "theorems": ["C32_lossless_partial", "C32_any", "C32_tokens", "C32_lossless_refuted"], "note": "proved for valid UTF-8; false for other bytes"},
 {"property": "C33", "status": "partial", "theorems": ["C33_colour_partial", "C33_inherited_refuted", "C33_rounded_refuted"], "note": "nearest hundredth unless the components add up to a multiple of 256; then the colour drawn before is used"},
 {"property": "C48", "status": "partial", "theorems": ["C48_text_partial", "C48_unique", "C48_failed_refuted"], "note": "every font, text and drawing state, if all numbers written are finite; false for texts whose Insert failed, which are written all the same"},
 {"property": "C55", "status": "partial", "theorems": ["C55_overrides_partial", "C55_leak_refuted"], "note": "every override, font and text; false: the rise stays for the texts after it"},
 {"property": "C56", "status": "partial", "theorems": ["C56_decoration_partial", "C56_placed_partial", "C56_thickness_refuted", "C56_aligned_refuted"], "note": "every font with underline thickness not negative, positions in real numbers up to a million points; false for a negative thickness, and the underline does not follow the alignment of the text"},
 {"property": "C57", "status": "partial", "theorems": ["C57_text_placed_partial"], "note": "every font, text, size and alignment, numbers of at most a million points, positions right to 6/1000 of a point"},
 {"property": "C58", "status": "partial", "theorems": ["C58_image_placed_partial"], "note": "every size and position of at most a million points, right to 6/1000 of a point, names of regular characters"},
 {"property": "C59", "status": "partial", "theorems": ["C59_fonts_complete_partial", "C59_second_save_refuted"], "note": "proved for fonts saved for the first time, up to the point where all objects are there; false for a second save (witness)"},
 {"property": "C04", "status": "proved", "theorems": ["C04_fresh_numbers", "C04_count"], "note": "every document, history of calls, map order and growth of slices; histories may contain further Opens before the document in question and failed or repeated saves"},
 {"property": "C15", "status": "partial", "theorems": ["C15_save_again_partial", "C15_save_twice_refuted", "C15_untouched_refuted"], "note": "false, even with nothing inserted; true without fonts when images were added and the runtime moved the object array"},
 {"property": "C22", "status": "partial", "theorems": ["C22_add_twice", "C22_add_new", "C22_set_unknown", "C22_set_known", "C22_insert_unset", "C22_insert_uses", "C22_style", "C22_empty_name_refuted"], "note": "proved for every history; one exception: a font registered under the empty name is used by Insert before any SetFont"},
 {"property": "C23", "status": "partial", "theorems": ["C23_failed_calls", "C23_failed_insert", "C23_leave_out", "C23_insert_refuted", "C23_wrap_refuted"], "note": "proved for image calls, font calls, page removal, and Insert without a font; false for Insert and InsertWrapText when a character cannot be encoded"},
 {"property": "C37", "status": "proved", "theorems": ["C37_cached_once"], "note": "every history without other image calls; md5 is modelled, equal sums count as equal images"},
 {"property": "C40", "status": "proved", "theorems": ["C40_text_unknown", "C40_img_unknown", "C40_text_last", "C40_img_last", "C40_design_view"], "note": "every list of fields, key, text and state; every map order for ShowDesignView"},
 {"property": "C41", "status": "partial", "theorems": ["C41_height_at_open", "C41_removed_refuted"], "note": "the height is that of the k-th page when the document was opened; false after pages were removed or copied"},
 {"property": "C42", "status": "partial", "theorems": ["C42_which", "C42_one_version", "C42_update_refuted"], "note": "proved for documents with one version of each object; which version is used is characterised exactly; false for updated documents"},
 {"property": "C49", "status": "partial", "theorems": ["C49_adds", "C49_open_again_refuted"], "note": "false: contents, images and objects stay"},
 {"property": "C19", "status": "partial", "theorems": ["C19_names_fresh_partial", "C19_collision_refuted"], "note": "proved for tidy documents (page tree of at most two levels, record tidy in InjectSpec.v) and every map order; false for deeper page trees"},
 {"property": "C20", "status": "partial", "theorems": ["C20_old_kept_partial", "C20_renamed_refuted", "C20_swapped_refuted", "C20_unnumbered_refuted"], "note": "proved for tidy documents and font names of letters and a number; false for other names, which are renamed, merged or make saving fail"},
 {"property": "C43", "status": "partial", "theorems": ["C43_reachable_partial", "C43_deep_refuted", "C43_inherited_refuted"], "note": "proved for tidy documents; false for pages three levels down and for inherited resources"},
 {"property": "C46", "status": "partial", "theorems": ["C46_keys_unique_partial", "C46_shared_refuted"], "note": "proved for tidy documents whose pages do not share a resource object with the fonts inside; false when they do"},
 {"property": "C21", "status": "partial", "theorems": ["C21_names_distinct", "C21_inside_partial", "C21_shared_partial", "C21_logo_refuted", "C21_indirect_refuted", "C21_taken_refuted", "C21_bare_refuted", "C21_words_refuted"], "note": "the names given are distinct, in every document and map order; old and new images are named on every page that had images when all image dictionaries stand in the pages or all pages share one resource object, and the names are letters and a number with the greatest last; false otherwise: old entries are lost or taken for new ones"},
 {"property": "C44", "status": "partial", "theorems": ["C44_none_partial", "C44_nowhere_partial", "C21_inside_partial", "C21_shared_partial", "C44_other_refuted", "C44_order_refuted", "C44_nested_refuted"], "note": "proved for pages whose resource objects have no images, for pages directly below the root with resources in them and no images, and by the C21 theorems for the pages that have some; false in general: a page without images gets none when another has some, pages below an inner node get none, and with several resource objects the map order decides"},
 {"property": "C60", "status": "partial", "theorems": ["C60_inside_partial", "C60_shared_partial", "C60_none_partial", "C60_nowhere_partial", "C60_fonts_refuted"], "note": "proved for the four kinds of documents of C21 and C44, every map order and every resource category; false when one page has its resources inside and another in an object"},
 {"property": "C61", "status": "partial", "theorems": ["C61_structure_partial", "C61_date_refuted"], "note": "rows, objects and header for all programs; the trailer is a dictionary unless a creation date is set, and with one it never is"},
 {"property": "C62", "status": "partial", "theorems": ["C62_pages_partial", "C62_empty_page_refuted"], "note": "for documents in which something was drawn on every page; the object of a page on which nothing was drawn is malformed"},
 {"property": "C63", "status": "partial", "theorems": ["C63_contents_partial", "C63_before_page_refuted", "C63_border_refuted", "C63_black_refuted"], "note": "operators of all calls, protected or not, for finite numbers and successful text calls, as the code resolves the settings; refuted for calls before the first page, borders of merged cells, black after another colour"},
 {"property": "C64", "status": "partial", "theorems": ["C64_fonts_partial", "C64_fonts_refuted", "C64_strings_refuted", "C64_jpeg", "C64_png", "C64_alpha_partial", "C64_protected_refuted"], "note": "fonts without Underline in their style, JPEG, grey and colour PNG for all documents; refuted: a family whose first font has the Underline style is drawn with the wrong font, strings of protected documents are not enciphered, picture objects of protected documents are no streams, the reference to a mask is one too low"},
 {"property": "C65", "status": "partial", "theorems": ["C65_passwords_partial", "C65_values", "C65_permission_refuted"], "note": "proved for permissions below 256 (the sum of the flags is 60 at most), and refuted without: with a permission of 256 the user password does not open the file. Missing: strings of the information are assumed simple, as for C67"},
 {"property": "C66", "status": "proved", "theorems": ["C66_read", "C66_close", "C66_end"], "note": ""},
 {"property": "C67", "status": "partial", "theorems": ["C67_information_partial", "C67_plane_refuted"], "note": "for characters of the basic plane; false beyond it"},
 {"property": "C68", "status": "partial", "theorems": ["C68_again_refuted"], "note": "refuted: the second file has doubled object bodies"},
 {"property": "C69", "status": "proved", "theorems": ["C69_settings", "C69_positions"], "note": "positions after texts are the subject of C70"},
 {"property": "C70", "status": "partial", "theorems": ["C70_moves", "C70_measure_refuted", "C70_measure_panics", "C70_advance_refuted"], "note": "proved: what every successful text moves the position by; refuted: MeasureTextWidth never succeeds, in any state; merged texts move the position twice"},
 {"property": "C71", "status": "partial", "theorems": ["C71_palette_refuted", "C71_palette_panics", "C71_mask_refuted"], "note": "refuted: no document with an accepted palette picture can be saved; the mask reference is off by one"},
 {"property": "C72", "status": "partial", "theorems": ["C72_saved_document_partial", "C72_locked_partial", "C72_text_drawn_partial", "C72_image_drawn_partial", "C72_wrapped_drawn_partial", "C72_image64_drawn_partial", "C72_cached_drawn_partial"], "note": "proved from the calls to the bytes of the file, with and without passwords, and for texts and images from their calls to what the operators on the page draw, for documents with fonts in the pages or in objects, and with images in the pages, in one object, or nowhere; missing: images in several objects, and pages further down the tree with resources but no images in them, where a save adds no images (C44)"},
 {"property": "C73", "status": "partial", "theorems": ["C73_level_partial", "C73_big_refuted"], "note": "proved for all programs without a level above 9; refuted for those, which keep the level before"},
 {"property": "C74", "status": "proved", "theorems": ["C74_widths"], "note": "for every run that ends well, of a font whose definition file is a Go program (see C77)"},
 {"property": "C75", "status": "proved", "theorems": ["C75_descriptor"], "note": "as C74"},
 {"property": "C76", "status": "partial", "theorems": ["C76_differences_partial", "C76_differences_refuted"], "note": "proved unless the first code that differs is code 1; then it gets no number (refuted)"},
 {"property": "C77", "status": "partial", "theorems": ["C77_definition_file_partial", "C77_size_refuted", "C77_name_refuted", "C77_quote_refuted", "C77_hyphen_refuted"], "note": "proved for names without quotes, backslashes and line ends and file names that are identifiers, with zeros taken out of the font name; refuted: the original size, names with zeros, names with quotes, file names with hyphens"},
 {"property": "C78", "status": "partial", "theorems": ["C78_map_partial", "C78_blank_line_refuted", "C78_code_refuted"], "note": "proved for files of entries with lines below the scanner's limit; refuted: an empty line panics, and a code beyond 255"},
 {"property": "C79", "status": "partial", "theorems": ["C79_works", "C79_last_file", "C79_files_written", "C79_refused_partial", "C79_licence_refuted", "C79_no_map_refuted", "C79_no_name_refuted"], "note": "refuted: a restricted licence with another bit set is embedded; without cp1252.map, or for a file named .ttf, the compressed font is left alone"},
 {"property": "C80", "status": "partial", "theorems": ["C80_border_partial", "C80_second_page_refuted", "C80_failed_open_refuted"], "note": "proved for the first page, from the calls to the operators in the file; refuted for the others: the line style is only written to the first page; after an Open that fails texts have borders nobody asked for"},
 {"property": "C81", "status": "partial", "theorems": ["C81_kept_partial", "C81_catalog_refuted", "C81_doubled_refuted", "C81_first_page_refuted"], "note": "proved for the documents of C72, from the calls to the file; refuted for a document in which nothing was inserted: the catalog, tree nodes and pages get /XObject, a resource object that pages share gets its keys twice, and each save adds a line style to the first page"},
 {"property": "C82", "status": "partial", "theorems": ["C82_font_partial", "C82_widths", "C82_encoding_partial", "C82_descriptor_partial", "C82_file", "C82_length1_refuted"], "note": "proved for font names of regular characters (zeros are missing, see C77) and encodings whose first difference is not code 1 (see C76); refuted: /Length1"},
 {"property": "C83", "status": "partial", "theorems": ["C83_values_partial", "C83_same", "C83_open_to_all_refuted", "C83_locked_out_refuted", "C83_memory_partial", "C83_memory_refuted"], "note": "proved for slices where the 32 bytes behind one password are not read through the other, and for one slice given twice; refuted: a user password right behind the owner password counts as empty, the other way round neither password opens the file, and the caller's bytes change"},
 {"property": "C84", "status": "partial", "theorems": ["C84_opens_partial", "C84_standard_page_refuted", "C84_words_refuted"], "note": "proved for documents in which no object holds one of the words endobj, xref, trailer: all objects, page tree and sizes if every page has a size of its own; refuted: a page of the size of the document makes the reader panic; refuted as well: without the condition on the words (a JPEG picture that holds endobj is cut off, with trailer opening fails, with startxref it panics)"},
 {"property": "C85", "status": "partial", "theorems": ["C85_trailer_partial", "C85_lost_refuted"], "note": "proved for every history: the trailer of a saved file has /Encrypt exactly if a SetProtection call answered without error; refuted: an encrypted document is opened without a password and saved with encrypted streams in a file that does not say so"},
 {"property": "C86", "status": "partial", "theorems": ["C86_over_partial", "C86_blank_partial", "C86_blank_page_refuted", "C86_resources_refuted"], "note": "proved for successful saves of unprotected documents with finite page sizes in which no object holds one of the words endobj, xref, trailer, and all calls but those that open a document or change its pages; refuted: a page on which nothing was drawn makes every save fail (proved for all such documents, and for those without pages), and the resources that the pages share get each key once per page"},
 {"property": "C87", "status": "partial", "theorems": ["C87_saves", "C87_locked", "C87_locked_refuted", "C87_resources_needed", "C87_blanks_refuted", "C87_over_partial"], "note": "proved for the documents of C72 after every history of calls: without protection the save succeeds if some page has resources, resources inside a page do not have exactly two blanks, font names are letters with a number, fonts are complete and object numbers are left; with protection exactly if no object would be written with the word stream and no endstream behind it; refuted: documents with such an object, with two blanks in the resources of a page, or without resources in any page; for documents of GoPdf under the conditions of C86"},
 {"property": "C88", "status": "partial", "theorems": ["C88_trailer_partial", "C88_information_refuted"], "note": "proved for every history: the trailer of a saved file has Size and Root, or Size, Root, Encrypt and ID, and nothing else; refuted: a document of GoPdf with a title is opened, drawn on and saved without error, and the title is gone"},
 {"property": "C89", "status": "partial", "theorems": ["C89_kerning_partial", "C89_rejected", "C89_subtables_refuted", "C89_format_refuted"], "note": "proved for the last subtable of the table, whose pairs are the only ones used; refuted: the pairs of the subtables before it are lost, and a subtable of format 2 is not refused but read as pairs"},
 {"property": "C90", "status": "partial", "theorems": ["C90_calls_partial", "C90_no_font_refuted", "C90_measure_refuted"], "note": "how every call ends is proved from the earlier calls and the files (end_of in GoPdfCallSpec.v); refuted that all calls come back: a text before SetFont, and MeasureTextWidth with any text that the font has, panic; the other panics left are fonts without metrics, characters outside of the cmap segments and pictures with a side of 0"},
 {"property": "C91", "status": "partial", "theorems": ["C91_saves_partial", "C91_reads_partial", "C91_palette", "C91_font_refuted"], "note": "proved for all runs, protected or not, whose font files are complete and whose pictures have no palette; with a palette there is never a file (proved); refuted without the condition on fonts: a file that ends with a table that is not padded is accepted and cannot be saved. Missing: which fonts that are not complete can be saved all the same"},
 {"property": "C92", "status": "partial", "theorems": ["C92_written_partial", "C92_half_refuted", "C92_stuck_refuted", "C92_twin_refuted"], "note": "proved for all runs, with or without errors, whose texts are valid UTF-8, whose fonts were added under different names or styles and have their widths; refuted without the first condition (the bytes of one character in two calls are turned down, and with them every later text of the line) and without the second (two fonts get the same number). Missing: which texts that are not valid UTF-8 can be joined"},
 {"property": "C93", "status": "partial", "theorems": ["C93_calls_partial", "C93_texts_partial", "C93_any", "C93_lacking_refuted", "C93_joined_refuted"], "note": "proved in every state for all calls without a text, and for texts, under the conditions of C92 on the calls before, up to the characters that are embedded; refuted for texts: the characters before one that the font lacks are embedded, and a text that cannot be joined with the one before it stays on the page. Without these conditions, in every state, a failing call changes nothing but the characters to embed and a text at the end of the drawing of the page (C93_any)"},
 {"property": "C94", "status": "partial", "theorems": ["C94_again_refuted", "C94_none", "C94_read"], "note": "refuted, and the opposite proved for all runs: Start keeps the objects of the first document, the trailer names its catalog and this the first page root, which is not filled any more; whatever is drawn before or after, the page tree of the file is empty, and if the first document was read to its end Read gives nothing at all. Documents started once are C62"}
]}
