{
 "claims": [
  {
   "property": "C01",
   "status": "proved",
   "theorems": [
    "C01_literal_string_roundtrip",
    "C01_cell_utf8_operand"
   ],
   "note": "every byte string; reader of ISO 32000-1 7.3.4.2 defined in TextSpec.v"
  },
  {
   "property": "C02",
   "status": "partial",
   "theorems": [
    "C02_cell_operand_refuted",
    "C02_cell_operand_partial"
   ],
   "note": "full statement refuted (CR is not escaped by CellFormat); the partial theorem says exactly what is read"
  },
  {
   "property": "C03",
   "status": "proved",
   "theorems": [
    "C03_utf16_of_bmp_text"
   ],
   "note": "all BMP texts, with and without byte order mark"
  },
  {
   "property": "C04",
   "status": "partial",
   "theorems": [
    "C04_supplementary_refuted",
    "C04_no_panic_partial"
   ],
   "note": "full statement refuted (four-byte characters are mangled, a truncated sequence panics); partial: no panic on texts without truncated tails"
  },
  {
   "property": "C05",
   "status": "partial",
   "theorems": [
    "C05_translator",
    "C05_bad_line_reported_refuted",
    "C05_bad_line_reported_partial"
   ],
   "note": "translator proved; reporting of malformed map lines refuted, partial theorem says which lines are reported"
  },
  {
   "property": "C06",
   "status": "proved",
   "theorems": [
    "C06_reverse_text"
   ],
   "note": "every text of Unicode scalar values"
  },
  {
   "property": "C07",
   "status": "proved",
   "theorems": [
    "C07_split_lines"
   ],
   "note": "termination, greedy filling, no loss, width, no newline, for every text covered by the width table"
  },
  {
   "property": "C08",
   "status": "partial",
   "theorems": [
    "C08_split_text_refuted",
    "C08_split_text_partial"
   ],
   "note": "full statement refuted (a Chinese character is dropped at every automatic break); partial: everything else"
  },
  {
   "property": "C09",
   "status": "partial",
   "theorems": [
    "C09_multi_cell_refuted",
    "C09_multi_cell_partial"
   ],
   "note": "no-loss refuted for Chinese text; partial: termination, error exactly outside the table, greedy filling, width, borders"
  },
  {
   "property": "C10",
   "status": "partial",
   "theorems": [
    "C10_write_refuted",
    "C10_write_partial"
   ],
   "note": "width refuted when the cursor is barely right of the margin; no loss and termination unconditional, width under the stated room condition"
  },
  {
   "property": "C11",
   "status": "partial",
   "theorems": [
    "C11_width_refuted",
    "C11_width_partial"
   ],
   "note": "refuted (index out of range when the character equals the table length; single-byte text stops at NUL); partial: sum of widths otherwise"
  },
  {
   "property": "C12",
   "status": "proved",
   "theorems": [
    "C12_cross_reference_table"
   ],
   "note": "every document the writer model accepts, any number of objects and pages; the reader of the table is in DocSpec.v"
  },
  {
   "property": "C13",
   "status": "proved",
   "theorems": [
    "C13_objects_numbered_and_closed"
   ],
   "note": "numbers 1..n each defined and closed once; references of catalog, trailer, page tree, annotations and outlines resolve"
  },
  {
   "property": "C14",
   "status": "proved",
   "theorems": [
    "C14_stream_lengths"
   ],
   "note": "all stream emitters, with and without compression and encryption"
  },
  {
   "property": "C15",
   "status": "partial",
   "theorems": [
    "C15_page_tree_partial",
    "C15_pages_up_to_current",
    "C15_refuted"
   ],
   "note": "refuted: after SetPage to an earlier page only the pages up to the current one are written; partial: documents that end on their last page, plus the exact description otherwise"
  },
  {
   "property": "C16",
   "status": "partial",
   "theorems": [
    "C16_destinations_partial",
    "C16_refuted"
   ],
   "note": "refuted: with attachments the page objects move but the destination numbers written for links, bookmarks and OpenAction are computed as if they were the first objects; partial: without attachments"
  },
  {
   "property": "C17",
   "status": "proved",
   "theorems": [
    "C17_outline_tree"
   ],
   "note": "all bookmark lists whose level starts at 0 and grows by at most one, by a prefix invariant"
  },
  {
   "property": "C18",
   "status": "partial",
   "theorems": [
    "C18_close_partial",
    "C18_close_idempotent_partial",
    "C18_output_once_partial",
    "C18_nothing_after_close_refuted",
    "C18_reopened_refuted",
    "C18_idempotent_refuted"
   ],
   "note": "refuted: drawing after Close, AddPage after Close and a clip left open in a footer; partial theorems for closing, closing twice and output once"
  },
  {
   "property": "C19",
   "status": "partial",
   "theorems": [
    "C19_first_error_wins_partial",
    "C19_first_error_wins_refuted"
   ],
   "note": "refuted: calls that assign the error directly (listed in ApiModel) replace it; partial: all guarded calls"
  },
  {
   "property": "C20",
   "status": "partial",
   "theorems": [
    "C20_silent_after_error",
    "C20_failing_output_partial",
    "C20_no_bytes_refuted",
    "C20_failed_assembly_refuted"
   ],
   "note": "refuted: an error found while the document is assembled leaves bytes in the output; silence after an earlier error proved"
  },
  {
   "property": "C21",
   "status": "partial",
   "theorems": [
    "C21_balanced_partial",
    "C21_current_depth",
    "C21_misuse_is_an_error",
    "C21_rounded_rectangle_refuted",
    "C21_page_break_refuted",
    "C21_footer_refuted"
   ],
   "note": "refuted by ClipRoundedRect, by an automatic page break and by a footer inside a clip; partial: all other histories"
  },
  {
   "property": "C22",
   "status": "partial",
   "theorems": [
    "C22_layers_balanced_partial",
    "C22_set_page_refuted",
    "C22_before_first_page_refuted"
   ],
   "note": "refuted by SetPage and by BeginLayer before the first page; partial: other histories"
  },
  {
   "property": "C23",
   "status": "partial",
   "theorems": [
    "C23_state_kept_partial",
    "C23_content_agrees_partial",
    "C23_zero_size_refuted",
    "C23_no_font_refuted",
    "C23_line_style_refuted",
    "C23_transparency_refuted",
    "C23_content_refuted"
   ],
   "note": "refuted for font size 0, no font, dash pattern and transparency; partial: the rest of the state, whatever header and footer do"
  },
  {
   "property": "C24",
   "status": "proved",
   "theorems": [
    "C24_header_and_footer_once_per_page"
   ],
   "note": "header, footer and last-page footer, for every program built with AddPage"
  },
  {
   "property": "C25",
   "status": "partial",
   "theorems": [
    "C25_cell",
    "C25_flowing_image",
    "C25_set_word_spacing_refuted"
   ],
   "note": "cell and flowing image decisions exact; SetWordSpacing is lost at a page break (refuted)"
  },
  {
   "property": "C26",
   "status": "proved",
   "theorems": [
    "C26_movements",
    "C26_cell",
    "C26_row"
   ],
   "note": "all cursor functions over an arbitrary number type; CellFormat for each value of ln"
  },
  {
   "property": "C27",
   "status": "partial",
   "theorems": [
    "C27_aliases_partial",
    "C27_ascii_partial",
    "C27_determined",
    "C27_page_count",
    "C27_parenthesis_refuted",
    "C27_order_refuted"
   ],
   "note": "refuted for an alias that contains a parenthesis and for aliases that contain one another; partial: exact replacement otherwise"
  },
  {
   "property": "C28",
   "status": "proved",
   "theorems": [
    "C28_clamped",
    "C28_text_color",
    "C28_gray"
   ],
   "note": "all integers"
  },
  {
   "property": "C29",
   "status": "partial",
   "theorems": [
    "C29_table",
    "C29_add",
    "C29_select",
    "C29_in_force",
    "C29_text_refuted"
   ],
   "note": "refuted: SetTextSpotColor does not switch the text color flag; the rest proved"
  },
  {
   "property": "C30",
   "status": "partial",
   "theorems": [
    "C30_select",
    "C30_invalid",
    "C30_table",
    "C30_empty_mode_refuted",
    "C30_nan_refuted"
   ],
   "note": "refuted: the empty blend mode is kept as a key, NaN is accepted; the rest proved"
  },
  {
   "property": "C31",
   "status": "proved",
   "theorems": [
    "C31_add",
    "C31_set",
    "C31_link",
    "C31_kept"
   ],
   "note": "all histories of link calls"
  },
  {
   "property": "C32",
   "status": "partial",
   "theorems": [
    "C32_embedded_partial",
    "C32_refuted"
   ],
   "note": "refuted: the object number stays in the attachment after a first document; partial: attachments not used before"
  },
  {
   "property": "C33",
   "status": "partial",
   "theorems": [
    "C33_decrypt_partial",
    "C33_refuted"
   ],
   "note": "refuted: the second string of an object is encrypted with a cipher already used; partial: streams and first strings; RC4 is executable"
  },
  {
   "property": "C34",
   "status": "proved",
   "theorems": [
    "C34_passwords"
   ],
   "note": "RC4 executable, MD5 an arbitrary function; readers written from the PDF specification"
  },
  {
   "property": "C35",
   "status": "partial",
   "theorems": [
    "C35_same_file_partial",
    "C35_refuted"
   ],
   "note": "refuted: spot colors are written in map order; partial: documents with at most one spot color, page box and the like; map orders are arbitrary permutations"
  },
  {
   "property": "C36",
   "status": "partial",
   "theorems": [
    "C36_alpha_partial",
    "C36_empty_chunk_refuted"
   ],
   "note": "refuted: an empty chunk stops the scan; partial: all other files"
  },
  {
   "property": "C37",
   "status": "proved",
   "theorems": [
    "C37_template_order"
   ],
   "note": "every acyclic template graph"
  },
  {
   "property": "C38",
   "status": "partial",
   "theorems": [
    "C38_spelling",
    "C38_standard",
    "C38_known",
    "C38_added",
    "C38_names",
    "C38_undefined_partial",
    "C38_flags_refuted",
    "C38_symbol_refuted"
   ],
   "note": "refuted: the flags change although the font is undefined, Symbol selects ZapfDingbats; the rest proved"
  },
  {
   "property": "C39",
   "status": "partial",
   "theorems": [
    "C39_refuted",
    "C39_adjustment_partial",
    "C39_table_checksums"
   ],
   "note": "refuted: the subtraction forgets a borrow; partial: exact adjustment otherwise; table checksums proved"
  },
  {
   "property": "C40",
   "status": "proved",
   "theorems": [
    "C40_character_map",
    "C40_deterministic"
   ],
   "note": "all maps of characters below U+10000 and glyph numbers; reader of format 4 in TtfSpec.v"
  },
  {
   "property": "C41",
   "status": "proved",
   "theorems": [
    "C41_widths_array",
    "C41_width_found"
   ],
   "note": "all width tables; reader of the W array in CidSpec.v"
  },
  {
   "property": "C42",
   "status": "partial",
   "theorems": [
    "C42_paths_partial",
    "C42_close_refuted",
    "C42_repeat_refuted"
   ],
   "note": "refuted: a relative command after z starts from the wrong point, repeated arguments beginning with . or + are rejected; partial: the other paths. The geometry of Q is wrong in SVGBasicWrite because Curve uses the operator v (C57)"
  },
  {
   "property": "C43",
   "status": "partial",
   "theorems": [
    "C43_tokens_partial",
    "C43_cut",
    "C43_attributes_refuted",
    "C43_drawing",
    "C43_text_drawn",
    "C43_balanced_partial",
    "C43_style_restored_refuted"
   ],
   "note": "refuted: attribute values with spaces or empty are lost, the style is not restored; partial: tokens, text, order"
  },
  {
   "property": "C44",
   "status": "partial",
   "theorems": [
    "C44_tickmarks",
    "C44_no_range",
    "C44_x_axis",
    "C44_y_axis",
    "C44_extent",
    "C44_laid_out",
    "C44_terminates_refuted"
   ],
   "note": "refuted: Tickmarks does not end for some ranges; the maps, ends and spacing proved over the reals"
  },
  {
   "property": "C45",
   "status": "partial",
   "theorems": [
    "C45_compare_partial",
    "C45_same_length_partial",
    "C45_equal_is_nil_partial",
    "C45_refuted",
    "C45_readers_refuted",
    "C45_files_partial",
    "C45_files_refuted"
   ],
   "note": "refuted: only part of the bytes is compared, the comparison of readers always panics and an unreadable second file passes as equal; partial: the exact condition for the bytes and what holds for files"
  },
  {
   "property": "C46",
   "status": "proved",
   "theorems": [
    "C46_scale",
    "C46_rotate",
    "C46_skew",
    "C46_translate",
    "C46_fixed",
    "C46_rigid",
    "C46_mirrors",
    "C46_mirror_line",
    "C46_refused"
   ],
   "note": "over the reals, every centre, factor and angle"
  },
  {
   "property": "C47",
   "status": "proved",
   "theorems": [
    "C47_size",
    "C47_extent",
    "C47_place"
   ],
   "note": "over the reals"
  },
  {
   "property": "C48",
   "status": "partial",
   "theorems": [
    "C48_restored",
    "C48_top_refuted"
   ],
   "note": "restored proved; a superscript above the top edge counts from the bottom (refuted)"
  },
  {
   "property": "C49",
   "status": "proved",
   "theorems": [
    "C49_inverse",
    "C49_page",
    "C49_same_page",
    "C49_refused"
   ],
   "note": "over the reals"
  },
  {
   "property": "C50",
   "status": "proved",
   "theorems": [
    "C50_table_directory"
   ],
   "note": "all lists of tables; reader of the directory in TtfSpec.v"
  },
  {
   "property": "C51",
   "status": "partial",
   "theorems": [
    "C51_images_partial",
    "C51_shared_image_refuted",
    "C51_pages_partial",
    "C51_negative_refuted",
    "C51_registered"
   ],
   "note": "refuted: FromPage with a negative page panics, an image of a template that equals one of the document keeps object number 0; partial otherwise"
  },
  {
   "property": "C52",
   "status": "proved",
   "theorems": [
    "C52_ordered_map"
   ],
   "note": "every sequence of operations"
  },
  {
   "property": "C53",
   "status": "partial",
   "theorems": [
    "C53_justify_refuted",
    "C53_justify_partial"
   ],
   "note": "refuted: integer division loses up to one em; partial: exact bound"
  },
  {
   "property": "C54",
   "status": "partial",
   "theorems": [
    "C54_prediction_refuted",
    "C54_prediction_partial"
   ],
   "note": "refuted (tab); partial for texts with spaces and newlines only"
  },
  {
   "property": "C55",
   "status": "partial",
   "theorems": [
    "C55_resources_partial",
    "C55_no_font_refuted",
    "C55_all_names_partial",
    "C55_image_name_refuted"
   ],
   "note": "refuted: SetFontSize before any font, and an image registered under a name UseTemplate makes up; partial: all other programs; C55_all_names_partial covers fonts, images, templates, transparency states, gradients, layers and spot colors"
  },
  {
   "property": "C56",
   "status": "partial",
   "theorems": [
    "C56_grid_lines",
    "C56_plot",
    "C56_range_refuted"
   ],
   "note": "refuted: Plot asks the function beyond the last value by rounding; the rest proved"
  },
  {
   "property": "C57",
   "status": "partial",
   "theorems": [
    "C57_shapes_partial",
    "C57_paths_partial",
    "C57_rounded_partial",
    "C57_quadratic_refuted",
    "C57_beziergon_refuted",
    "C57_styles_partial"
   ],
   "note": "refuted: Curve and CurveTo are not quadratic, Beziergon is left open; partial: the other shapes C57_styles_partial: every style string of the table (D, F, FD, f*, ...) gives the path operator of that meaning, anything else is taken for an operator itself."
  },
  {
   "property": "C58",
   "status": "partial",
   "theorems": [
    "C58_search_partial",
    "C58_length_refuted"
   ],
   "note": "refuted: the length field is too small; partial: the search parameters"
  },
  {
   "property": "C59",
   "status": "partial",
   "theorems": [
    "C59_opaque_partial",
    "C59_transparent_partial",
    "C59_palette_refuted",
    "C59_empty_chunk_refuted"
   ],
   "note": "refuted: only the first fully transparent palette entry is masked, an empty chunk stops the scan; partial otherwise"
  },
  {
   "property": "C60",
   "status": "partial",
   "theorems": [
    "C60_ends_partial",
    "C60_not_png_partial",
    "C60_accepted_partial",
    "C60_crash_refuted"
   ],
   "note": "refuted: truncated and malformed files panic; partial: it always ends, and what is not a PNG is an error C60_accepted_partial: every file accepted begins with the signature and a header of at most 8 bits per sample, a known color type and no interlacing, and an indexed one has a palette."
  },
  {
   "property": "C61",
   "status": "partial",
   "theorems": [
    "C61_arc_partial",
    "C61_near_partial",
    "C61_circle_partial",
    "C61_arcto_partial",
    "C61_rotated_arcto_refuted",
    "C61_backward_refuted"
   ],
   "note": "refuted: ArcTo with a rotation writes q and cm inside the path, clockwise arcs are drawn with two curves; partial otherwise; over the reals"
  },
  {
   "property": "C62",
   "status": "partial",
   "theorems": [
    "C62_resource_names_partial",
    "C62_raw_type1_refuted",
    "C62_not_embedded_refuted"
   ],
   "note": "refuted: a Type1 file that was not compressed, a font not embedded; partial: all other documents, imported pages included (their objects: C81)"
  },
  {
   "property": "C63",
   "status": "proved",
   "theorems": [
    "C63_page_objects"
   ],
   "note": "every page of every document"
  },
  {
   "property": "C64",
   "status": "proved",
   "theorems": [
    "C64_subset_font"
   ],
   "note": "every sound font; if GenerateCutFont returns. That it returns is C66"
  },
  {
   "property": "C65",
   "status": "partial",
   "theorems": [
    "C65_refuted",
    "C65_bearings_refuted",
    "C65_bearings_partial"
   ],
   "note": "refuted: getMetrics appends into the font data; partial: exact set of glyphs and bytes affected"
  },
  {
   "property": "C66",
   "status": "partial",
   "theorems": [
    "C66_cut_partial",
    "C66_circle_refuted"
   ],
   "note": "refuted: a glyph that is a component of itself makes getSymbols recurse forever; partial: every complete font without such a circle, for all sets of characters"
  },
  {
   "property": "C67",
   "status": "partial",
   "theorems": [
    "C67_nearest_width",
    "C67_refuted",
    "C67_widths_partial"
   ],
   "note": "refuted: an advance width of 32768 or more is taken as 0; partial: all other well-formed fonts; C67_nearest_width: the binary64 computation gives a nearest integer (Flocq)"
  },
  {
   "property": "C68",
   "status": "partial",
   "theorems": [
    "C68_beyond_the_table",
    "C68_refuted",
    "C68_missing_refuted",
    "C68_declared_widths_partial"
   ],
   "note": "refuted: a character beyond U+FFFF makes Output panic (index out of range), and a font whose glyph 0 has width 0 gets no DW, so that characters without glyph are 1000 wide; partial: everything else"
  },
  {
   "property": "C69",
   "status": "partial",
   "theorems": [
    "C69_descriptor_partial",
    "C69_refuted",
    "C69_truncated"
   ],
   "note": "refuted: without OS/2 table and hhea heights the ascent and descent are scaled twice; partial: everything else; C69_truncated: the binary64 truncation is right up to one unit"
  },
  {
   "property": "C70",
   "status": "proved",
   "theorems": [
    "C70_settings",
    "C70_settings_new"
   ],
   "note": "for every program: the readers return the latest accepted setting of the history; C70_settings_new for a new document; the drawing state of lines likewise"
  },
  {
   "property": "C71",
   "status": "partial",
   "theorems": [
    "C71_catalog_partial",
    "C71_page_mode_refuted",
    "C71_metadata_refuted",
    "C71_name_tree_refuted",
    "C71_version_refuted"
   ],
   "note": "refuted: two /PageMode entries with bookmarks and an open layer pane; XMP metadata is written but nothing refers to it; attachment names unsorted from the tenth on; TwoPage layouts in a file that says 1.3. partial: the exact trailer references, the exact information dictionary (values of protected documents: only names and lengths, see C33), the exact catalog, and every reference in it leads to its object"
  },
  {
   "property": "C72",
   "status": "partial",
   "theorems": [
    "C72_cell_partial",
    "C72_spaced_partial",
    "C72_justified_partial",
    "C72_text_partial",
    "C72_word_spacing_refuted",
    "C72_zero_height_refuted",
    "C72_baseline_refuted",
    "C72_justified_underline_refuted"
   ],
   "note": "A viewer (reading string operands back, advancing glyph by glyph, applying Tw and TJ numbers) is run on the marks of the cell. Proved in exact reals for every ready document and text the font can show (C02, C04, C11 exclude the rest): frame, placement, decorations, colour, link area, recorded characters (C72_cell_partial, without word spacing), spacing of MultiCell in simple fonts, J in UTF-8 fonts within 1/1000 of the size, and Text. Refuted: SetWordSpacing is ignored by right alignment and centring, a zero height still prints although the documentation says it does not, 'A' puts the baseline 1% of the size above the bottom in standard fonts, the underline of a J line in a UTF-8 font is not stretched."
  },
  {
   "property": "C73",
   "status": "partial",
   "theorems": [
    "C73_clips_partial",
    "C73_near_partial",
    "C73_ellipse_partial",
    "C73_corners_partial",
    "C73_utf8_text_refuted",
    "C73_empty_polygon_refuted",
    "C73_interleaved_refuted"
   ],
   "note": "C73_clips_partial: for every nesting of shapes, gradients, clips and transformations the operators written make a viewer see exactly the drawing, within 1/100 pt; C73_near_partial: then every point of every curve is that near; C73_ellipse_partial, C73_corners_partial: ellipse and corner outlines deviate by at most 0.03 percent. Full statement false: C73_utf8_text_refuted (ClipText with a UTF-8 font writes the string as it is), C73_empty_polygon_refuted, C73_interleaved_refuted (ClipEnd inside an open transformation leaves the clip in force without an error)."
  },
  {
   "property": "C74",
   "status": "partial",
   "theorems": [
    "C74_values_partial",
    "C74_refuted",
    "C74_truncated_refuted",
    "C74_crash_refuted"
   ],
   "note": "C74_values_partial: for every complete font with at most 32768 glyphs TtfParse returns exactly the values of the tables, every advance width and the glyph of every character below U+FFFF. Full statement false: C74_refuted (glyphs from 32768 on reached by a difference are dropped from the map), C74_truncated_refuted (a file cut off inside its tables is accepted with zeros), C74_crash_refuted (a font without long metrics panics)."
  },
  {
   "property": "C75",
   "status": "partial",
   "theorems": [
    "C75_truetype_partial",
    "C75_refuted",
    "C75_short_name_refuted"
   ],
   "note": "C75_truetype_partial: for every complete font with at most 32768 glyphs and every encoding with characters below U+FFFF the definition has exactly the font's values and the width of every code. Full statement false: C75_refuted (a character above U+FFFF gets the width of another one, its number being cut to 16 bits), C75_short_name_refuted (a file name of less than three characters panics)."
  },
  {
   "property": "C76",
   "status": "proved",
   "theorems": [
    "C76_differences"
   ],
   "note": "Full."
  },
  {
   "property": "C77",
   "status": "partial",
   "theorems": [
    "C77_type1_partial",
    "C77_refuted",
    "C77_crash_refuted",
    "C77_truncated_refuted"
   ],
   "note": "C77_type1_partial: for every metrics file with whole numbers. Full statement false: C77_refuted (ItalicAngle -12.0, allowed by the format, is refused), C77_crash_refuted (a short C line panics), C77_truncated_refuted (a font cut off inside its second segment is accepted, with zeros)."
  },
  {
   "property": "C78",
   "status": "partial",
   "theorems": [
    "C78_encodings",
    "C78_encodings_once",
    "C78_keeps",
    "C78_first",
    "C78_utf8_first",
    "C78_reported",
    "C78_others",
    "C78_files_partial",
    "C78_selects",
    "C78_files_refuted",
    "C78_reported_refuted",
    "C78_first_error_refuted",
    "C78_default_name_refuted",
    "C78_no_encoding_refuted",
    "C78_others_refuted"
   ],
   "note": "Definitions, faces, encodings and selection proved for every history; files only while no later font names the same file. Refuted: C78_files_refuted (two definitions with one file name share the last contents), C78_reported_refuted (AddUTF8FontFromBytes with bytes that are no font registers nothing and reports nothing), C78_first_error_refuted (AddFont of a missing file replaces an earlier error), C78_default_name_refuted (default file name of a family with a space holds #20), C78_no_encoding_refuted (a number in a definition without differences is kept), C78_others_refuted (\"a b\" and \"a#20b\" are one family)."
  },
  {
   "property": "C79",
   "status": "partial",
   "theorems": [
    "C79_roundtrip_partial",
    "C79_numbered_refuted",
    "C79_names_refuted",
    "C79_repeated_refuted"
   ],
   "note": "Proved for every template that NewTpl/CreateTemplate and FromPage can build, where one image name means one image, images are as registered and different templates inside have different current pages. The gob byte format is not modelled: a wire value is the tree of the values passed to the encoder, in order; errors of the gob layer are not modelled. Without the conditions the full claim is false: an image already given an object number by Output comes back under another identifier (C79_numbered_refuted), image names are not kept (C79_names_refuted), a template used by two others comes back twice (C79_repeated_refuted)."
  },
  {
   "property": "C80",
   "status": "partial",
   "theorems": [
    "C80_first",
    "C80_keeps",
    "C80_dpi",
    "C80_reported",
    "C80_draws",
    "C80_known",
    "C80_drawn",
    "C80_origin",
    "C80_no_crash",
    "C80_mime",
    "C80_first_error_refuted"
   ],
   "note": "Proved for every history of the image calls, with file contents that may change between calls. JPEG and GIF decoding, zlib and the hash are parameters; PNG is PngModel.v. The value returned together with an error and errors of the page break inside Image are not modelled. Refuted: C80_first_error_refuted (RegisterImage/RegisterImageOptions of a file that cannot be opened replaces an earlier error)."
  },
  {
   "property": "C81",
   "status": "partial",
   "theorems": [
    "C81_last_value",
    "C81_imported_partial",
    "C81_protected_refuted"
   ],
   "note": "Proved for every history of ImportObjects/ImportObjPos/ImportTemplates and every map order. Premises: the objects end with endobj and line ends, their references do not overlap and go to imported objects (what gofpdi hands over; gofpdi itself is not in /repo). The dictionary part is under the conditions of C62. Refuted: C81_protected_refuted (in a protected document imported objects are written without encryption)."
  },
  {
   "property": "C82",
   "status": "partial",
   "theorems": [
    "C82_pages",
    "C82_new",
    "C82_page_size_partial",
    "C82_page_size_refuted",
    "C82_get_page_size_refuted",
    "C82_orientation_refuted",
    "C82_box_origin_refuted",
    "C82_font_size_refuted",
    "C82_scaled"
   ],
   "note": "C82_pages holds for any number type with decidable equality, C82_new, C82_page_size_partial and C82_scaled over the reals; how the sizes and boxes are printed is C63. Refuted: PageSize in a landscape document, GetPageSize after SetPage, an unknown orientation given to AddPageFormat, the origin of page boxes, GetFontSize before SetFont. Case mapping is ASCII."
  },
  {
   "property": "C83",
   "status": "partial",
   "theorems": [
    "C83_names_partial",
    "C83_images_partial",
    "C83_states_refuted",
    "C83_inherited_refuted",
    "C83_free_font_refuted",
    "C83_images_refuted"
   ],
   "note": "partial: fonts (of the same document), images and templates; refuted: transparency states, gradients, layers and spot colors are in no template dictionary, a spot color of the document leaks into a template drawn while it is selected, fonts of CreateTpl templates, and the image of the second of two templates with the same picture is never written"
  },
  {
   "property": "C84",
   "status": "partial",
   "theorems": [
    "C84_information_partial",
    "C84_view_partial",
    "C84_flags",
    "C84_refused_refuted"
   ],
   "note": "Proved for documents without protection and under the conditions of C71; texts within the BMP (C04), dates of the years 0 to 9999; Go's time package is not modelled beyond the six calendar numbers (the time zone is not written). Refuted: C84_refused_refuted (SetDisplayMode with a wrong layout is an error, but its zoom stays)."
  },
  {
   "property": "C85",
   "status": "partial",
   "theorems": [
    "C85_one_line_partial",
    "C85_default_width",
    "C85_text_partial",
    "C85_rows_refuted",
    "C85_words_refuted",
    "C85_centre_refuted",
    "C85_centre_breaks_refuted"
   ],
   "note": "Proved in exact rationals for single-byte fonts, without automatic page breaks: place of a line in a box (L, C, R), margins restored, no visible character lost. Full statement false: C85_rows_refuted (newlines and ends of lines do not begin a new row), C85_words_refuted (words of two lines are joined without space), C85_centre_refuted (centred text is the cell margin too far right), C85_centre_breaks_refuted (a line that fits is broken when it is centred). C85_default_width: width 0 is the space between the margins."
  },
  {
   "property": "C86",
   "status": "partial",
   "theorems": [
    "C86_kept",
    "C86_unprotected",
    "C86_every_schedule_partial",
    "C86_shared_partial",
    "C86_contents_partial",
    "C86_protected_refuted",
    "C86_same_document_refuted",
    "C86_raw_type1_refuted",
    "C86_at_once_refuted"
   ],
   "note": "Proved for every number of documents and every schedule of their steps: what no step may alter is as before (C86_kept, C86_unprotected), documents that share only such data come out as if alone (C86_every_schedule_partial, C86_shared_partial), and a document whose altered slices are used once says what was meant (C86_contents_partial). Steps are atomic; capacity of a slice = length. Refuted: C86_protected_refuted (a protected document encrypts the caller's font bytes, metadata, image data in place), C86_same_document_refuted, C86_raw_type1_refuted (unprotected), C86_at_once_refuted (object number in a shared image description)."
  },
  {
   "property": "C87",
   "status": "partial",
   "theorems": [
    "C87_read_back",
    "C87_alpha",
    "C87_spot_partial",
    "C87_position",
    "C87_spot_refuted"
   ],
   "note": "Proved for every history of setter calls from any state and any number type: margins, page break, cell margin, line width, font size, RGB colours (C87_read_back), transparency (C87_alpha, documents without error), position (C87_position). Partial for spot colors (C87_spot_partial); C87_spot_refuted: GetDrawSpotColor promises the most recently used spot color, but SetDrawColor makes it forget. No headers, page sizes other than the default: C23, C82."
  },
  {
   "property": "C88",
   "status": "partial",
   "theorems": [
    "C88_once",
    "C88_first_partial",
    "C88_total",
    "C88_file_partial",
    "C88_retry_refuted",
    "C88_close_refuted",
    "C88_overwritten_refuted"
   ],
   "note": "Proved for every history of Close, Output, OutputAndClose, OutputFileAndClose, SetError and ClearError with arbitrary writers and files: each byte of the document is handed out once and in order (C88_once), the first call is exact (C88_first_partial, C88_file_partial), a writer within its bounds never causes a panic (C88_total). Refuted: C88_retry_refuted (after a failed write a second try succeeds without the bytes already written), C88_close_refuted (the error of closing the file is dropped), C88_overwritten_refuted (an existing file is emptied before the document is known to be good). The document is a parameter (DocModel.v assembles it)."
  },
  {
   "property": "C89",
   "status": "partial",
   "theorems": [
    "C89_exact_partial",
    "C89_multicell_partial",
    "C89_fonts_partial",
    "C89_beyond_bmp_refuted"
   ],
   "note": "refuted: Write and SplitText crash on characters beyond U+FFFF, GetStringWidth on U+10000, and all but MultiCell when no font is selected; partial: the exact condition of a crash, and the fonts and texts without one"
  },
  {
   "property": "C90",
   "status": "proved",
   "theorems": [
    "C90_pages_read_back",
    "C90_exact_content"
   ],
   "note": "proved for finished well-formed documents below 10^10 bytes; the number formatter prints no delimiters, boxes have the names of page boxes, compression has an inverse; the decryption key is given to the reader"
  },
  {
   "property": "C91",
   "status": "partial",
   "theorems": [
    "C91_metadata_read_back_partial",
    "C91_metadata_refuted"
   ],
   "note": "partial: for documents without protection; refuted for protected ones, where the key stream continues from one string of the object to the next (C33)"
  },
  {
   "property": "C92",
   "status": "partial",
   "theorems": [
    "C92_bookmarks_read_back_partial",
    "C92_bookmarks_refuted",
    "C92_first_level_refuted"
   ],
   "note": "partial: for bookmarks whose levels are those of a tree (each at most one deeper than the one before, the first at 0); refuted for others: bookmarks are lost or the outline cannot be read at all"
  },
  {
   "property": "C93",
   "status": "partial",
   "theorems": [
    "C93_map_files_partial",
    "C93_descriptor_partial",
    "C93_long_line_refuted"
   ],
   "note": "partial: for names of less than 65000 characters; refuted beyond: the scanner stops at a line of 65536 bytes and its error is not looked at, so the entries after it are ignored silently"
  },
  {
   "property": "C94",
   "status": "partial",
   "theorems": [
    "C94_files_read_back_partial",
    "C94_name_refuted",
    "C94_second_document_refuted"
   ],
   "note": "C94_files_read_back_partial: read_files (ReadSpec.v), which uses nothing but the bytes of the file, returns for every finished document, encrypted or not, the list of attachments in order, each with its name as code points and its content, when no attachment was written to another document before and the names hold code points below 65536. The full statement is false of the code: C94_name_refuted (a name with a character outside the BMP is read back as another name) and C94_second_document_refuted (an attachment already written to another document cannot be read)."
  },
  {
   "property": "C95",
   "status": "proved",
   "theorems": [
    "C95_boxes_read_back"
   ],
   "note": "every finished document; the pages are those up to the current one (all of them unless SetPage went back, see C15); the numbers are printed without delimiters; the boxes of a page have different names among those SetPageBox accepts"
  },
  {
   "property": "C96",
   "status": "partial",
   "theorems": [
    "C96_links_read_back_partial",
    "C96_links_refuted"
   ],
   "note": "documents without protection and without attachments whose links lead to existing pages; missing: protected documents (the addresses are then encrypted) and documents with attachments, for which the full statement is refuted: with one attachment the link to page 3 leads to page 2 and the link to page 1 to no page (C16)"
  }
 ]
}
