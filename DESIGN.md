# Formal model of jung-kurt/gofpdf in Rocq (Coq 8.16.1)

The plan for C01 to C52 was written before the proofs; later properties were added as the model grew.

## Layout

`rocq/theories/<Area>Model.v` holds executable definitions only, each citing the file and lines of /repo it
models; `<Area>Spec.v` holds the independent specification (readers of PDF, PNG, TrueType, ... written from the
published formats, never calling the model); `<Area>Proofs.v` and the like hold lemmas; `<Area>Props.v` the property
theorems, each followed by `Print Assumptions`, with concrete cases (`Example`) that meet the hypotheses.
A false property is kept: `Cxx_..._refuted` proves the negation of the full statement by a concrete witness and
`Cxx_..._partial` proves what does hold, with the condition stated in terms of the input. The theorems do not
mention lemmas' helpers; what they mention is the model's entry point, the specification and plain list functions.

Areas: Text (strings, UTF-16, translators), Line (SplitLines, SplitText, MultiCell), Write, Doc (the writer of the
file: objects, streams, pages, outlines, resources, cross-reference), Outline, Res and Page (readers of the file
written), Api (the drawing state machine: pages, header and footer, errors, clips, layers, colors, cursor), Alias,
Protect and Crypto (RC4, passwords), Compare, KeyMap, Cid (W arrays), Ttf (table files, checksums, character map),
Cut (cutting a TrueType font), Html, Grid, Svg, Png, Draw (shapes), Trans (matrices), Size (images, units),
Tpl (templates: use), Ser (templates: bytes and back), Font, Make and Reg (font metrics, definition files, registration),
Width and Metric (widths of glyphs), Img and Imp (images, imported pages), Pg (page sizes and boxes), Use (names of
resources), Set (settings), Cell, Clip and Aln (what one cell, a clip or an aligned line draws), Cat (trailer,
information, catalog), Mem (shared slices), Get (getters), Out (Output and its files), Crash (panics on misuse), Read (a
reader that knows nothing but the bytes of the file: pages, metadata, bookmarks, attachments), Map (code page maps).

## Conventions

- Go `int` is `Z`: overflow is not modelled. Bytes and runes are `Z` (with `is_byte` where it matters).
- A Go panic (index out of range, nil dereference) is the outcome `Panic`, a loop without structural bound takes
  fuel and has the outcome `OutOfFuel`; theorems state which outcomes occur.
- Go map iteration is an arbitrary permutation, chosen anew at each place (`shuffle`).
- Floating point: where only the flow of numbers matters the arithmetic is a record `arith` of arbitrary
  operations and the theorem holds for all of them (so for binary64 too); where laws are needed the theorem is over
  the reals `R` (geometry) or over `Z`, and says so; NaN questions (C30) use the specification floats of the standard library.
- Formatting of numbers with `%.2f` is an arbitrary function of the number in such theorems, so a theorem never relies
  on rounding being absent; where a reader must find the number again the function is assumed to be injective or
  to produce no delimiters, as an explicit hypothesis.
- zlib, MD5, SHA-1, gob, image decoders, time and files are parameters of the theorems (explicit
  arguments), never axioms. RC4, decimal formatting, string replacement and the sort are executable.
- Slices that share memory are modelled where sharing shows (C32 attachments, C65 font data, C86 a heap of arrays).
- Rounding of binary64 is modelled where it decides the result (C67, with Flocq, in RoundProps.v).
- Concurrency does not occur in the library: an Fpdf is used from one goroutine.

## Trusted base

1. The Coq 8.16.1 kernel (`coqc`; `coqchk` is run by vcheck).
2. The axioms listed in Appendix A, all of the standard library. `coqchk` over the whole library also lists
   `Classical_Prop.classic` and the seven `Coq.ssr.ssrunder.Under_rel` module parameters, which come with the standard
   library's own files.
3. The model: that each definition says what the cited Go lines do (by reading; nothing is extracted or run), under the
   conventions above. Appendix B says which functions have a definition and which have none.
4. The specifications: the readers in `*Spec.v` are transcriptions of ISO 32000-1, PNG, OpenType, SVG and so on.

No axioms are added, no kernel check is switched off, there is no Admitted.

Not modelled at all: the encoding of single values by encoding/gob (C-properties about gob take the encoder as a pair of
inverse functions), the pixels of JPEG and GIF images, the parsing of imported pages inside gofpdi (what it hands over is
modelled), the file system beyond reading and writing whole files, the contrib directories, int overflow, memory limits.

## Properties: what is modelled and how it is proved

- **C01 Literal strings round-trip through a PDF reader** (proved) - bytes = list N; `escape` as four successive global replacements (as the code does); PDF literal-string reader as separate spec; theorem by induction for all strings and tails.
  Result: every byte string; reader of ISO 32000-1 7.3.4.2 defined in TextSpec.v
  Theorems: `C01_literal_string_roundtrip`, `C01_cell_utf8_operand`.
- **C02 Cell text in a single-byte font round-trips** (partial) - second escape function (CellFormat order: backslash, '(' , ')'); refuted for CR by witness, proved for strings with no CR (_partial).
  Result: full statement refuted (CR is not escaped by CellFormat); the partial theorem says exactly what is read
  Theorems: `C02_cell_operand_refuted`, `C02_cell_operand_partial`.
- **C03 Metadata and text in the Basic Multilingual Plane become correct UTF-16BE** (proved) - utf8toutf16 with Go byte indexing returning Panic on out of range; spec = UTF-8 encoder / UTF-16BE encoder; induction over text.
  Result: all BMP texts, with and without byte order mark
  Theorems: `C03_utf16_of_bmp_text`.
- **C04 Text outside the Basic Multilingual Plane becomes UTF-16 surrogate pairs** (partial) - same model; refuted by witness U+1F600 and by truncated input; complete description of the result for 4-byte characters as _partial.
  Result: full statement refuted (four-byte characters are mangled, a truncated sequence panics); partial: no panic on texts without truncated tails
  Theorems: `C04_supplementary_refuted`, `C04_no_panic_partial`.
- **C05 Code page translator** (partial) - line parser over code points; map as association list; theorem on repClosure for all texts, UnicodeTranslator error handling refuted by witness.
  Result: translator proved; reporting of malformed map lines refuted, partial theorem says which lines are reported
  Theorems: `C05_translator`, `C05_bad_line_reported_refuted`, `C05_bad_line_reported_partial`.
- **C06 Right-to-left text reversal** (proved) - reverseText on decoded runes; involution and width invariance.
  Result: every text of Unicode scalar values
  Theorems: `C06_reverse_text`.
- **C07 SplitLines loses nothing and respects the width** (proved) - SplitLines loop on explicit fuel; termination theorem (fuel 3*len+const suffices), reconstruction and width theorem.
  Result: termination, greedy filling, no loss, width, no newline, for every text covered by the width table
  Theorems: `C07_split_lines`.
- **C08 SplitText loses nothing and respects the width** (partial) - SplitText loop same way on runes; Chinese loss refuted by witness, theorem for texts without Chinese break points (_partial).
  Result: full statement refuted (a Chinese character is dropped at every automatic break); partial: everything else
  Theorems: `C08_split_text_refuted`, `C08_split_text_partial`.
- **C09 MultiCell prints the whole text** (partial) - MultiCell loop emitting line records; borders.
  Result: no-loss refuted for Chinese text; partial: termination, error exactly outside the table, greedy filling, width, borders
  Theorems: `C09_multi_cell_refuted`, `C09_multi_cell_partial`.
- **C10 Write prints the whole text** (partial) - write loop with remaining-width parameter.
  Result: width refuted when the cursor is barely right of the margin; no loss and termination unconditional, width under the stated room condition
  Theorems: `C10_write_refuted`, `C10_write_partial`.
- **C11 String width is the sum of glyph widths and never fails** (partial) - fold over runes with width table; panic outcome explicit.
  Result: refuted (index out of range when the character equals the table length; single-byte text stops at NUL); partial: sum of widths otherwise
  Theorems: `C11_width_refuted`, `C11_width_partial`.
- **C12 Every cross-reference entry points at its object** (proved) - document writer: buffer + object counter + offsets; every put function as an emission program over newobj/out; invariant `offset k is position of k 0 obj` by induction over programs, then xref table parse.
  Result: every document the writer model accepts, any number of objects and pages; the reader of the table is in DocSpec.v
  Theorems: `C12_cross_reference_table`.
- **C13 Object numbers are unique and every object is closed** (proved) - same writer; well-bracketed obj/endobj invariant; numbering.
  Result: numbers 1..n each defined and closed once; references of catalog, trailer, page tree, annotations and outlines resolve
  Theorems: `C13_objects_numbered_and_closed`.
- **C14 Stream Length equals the number of bytes in the stream** (proved) - stream emission with Section variables for compress and RC4 (length preserving, proved for the concrete RC4).
  Result: all stream emitters, with and without compression and encryption
  Theorems: `C14_stream_lengths`.
- **C15 Page tree lists each page once, in order** (partial) - putpages over the page list; parse of Kids.
  Result: refuted: after SetPage to an earlier page only the pages up to the current one are written; partial: documents that end on their last page, plus the exact description otherwise
  Theorems: `C15_page_tree_partial`, `C15_pages_up_to_current`, `C15_refuted`.
- **C16 Internal links and bookmarks point at the page the caller named** (partial) - page p object number; refuted with attachments, proved without.
  Result: refuted: with attachments the page objects move but the destination numbers written for links, bookmarks and OpenAction are computed as if they were the first objects; partial: without attachments
  Theorems: `C16_destinations_partial`, `C16_refuted`.
- **C17 Bookmarks form the outline tree the caller described** (proved) - putbookmarks loop with the lru table; spec = nearest previous item relations; proof by prefix invariant.
  Result: all bookmark lists whose level starts at 0 and grows by at most one, by a prefix invariant
  Theorems: `C17_outline_tree`.
- **C18 Life cycle of a document** (partial) - state machine over AddPage/SetPage/Close/Output/draw.
  Result: refuted: drawing after Close, AddPage after Close and a clip left open in a footer; partial theorems for closing, closing twice and output once
  Theorems: `C18_close_partial`, `C18_close_idempotent_partial`, `C18_output_once_partial`, `C18_nothing_after_close_refuted`, `C18_reopened_refuted`, `C18_idempotent_refuted`.
- **C19 The first error wins** (partial) - error latch over op histories; refuted for ops that assign err directly; proved for guarded ops.
  Result: refuted: calls that assign the error directly (listed in ApiModel) replace it; partial: all guarded calls
  Theorems: `C19_first_error_wins_partial`, `C19_first_error_wins_refuted`.
- **C20 No document is written after an error** (partial) - Output over Close over assembly that may fail at any point; refuted by witness.
  Result: refuted: an error found while the document is assembled leaves bytes in the output; silence after an earlier error proved
  Theorems: `C20_silent_after_error`, `C20_failing_output_partial`, `C20_no_bytes_refuted`, `C20_failed_assembly_refuted`.
- **C21 Graphics state save/restore operators are balanced** (partial) - op stream of q/Q with counters; invariant over all histories.
  Result: refuted by ClipRoundedRect, by an automatic page break and by a footer inside a clip; partial: all other histories
  Theorems: `C21_balanced_partial`, `C21_current_depth`, `C21_misuse_is_an_error`, `C21_rounded_rectangle_refuted`, `C21_page_break_refuted`, `C21_footer_refuted`.
- **C22 Layer marked-content sections are balanced** (partial) - layer state machine per page.
  Result: refuted by SetPage and by BeginLayer before the first page; partial: other histories
  Theorems: `C22_layers_balanced_partial`, `C22_set_page_refuted`, `C22_before_first_page_refuted`.
- **C23 A page break does not change the drawing state** (partial) - AddPageFormat on a style record with arbitrary header/footer state transformers.
  Result: refuted for font size 0, no font, dash pattern and transparency; partial: the rest of the state, whatever header and footer do
  Theorems: `C23_state_kept_partial`, `C23_content_agrees_partial`, `C23_zero_size_refuted`, `C23_no_font_refuted`, `C23_line_style_refuted`, `C23_transparency_refuted`, `C23_content_refuted`.
- **C24 Header and footer run once per page** (proved) - trace of header/footer calls.
  Result: header, footer and last-page footer, for every program built with AddPage
  Theorems: `C24_header_and_footer_once_per_page`.
- **C25 Automatic page break** (partial) - CellFormat / imageOut page-break decision over an arbitrary number type with an arbitrary comparison (so binary64 included).
  Result: cell and flowing image decisions exact; SetWordSpacing is lost at a page break (refuted)
  Theorems: `C25_cell`, `C25_flowing_image`, `C25_set_word_spacing_refuted`.
- **C26 Cursor movement** (proved) - cursor functions over an arbitrary number type.
  Result: all cursor functions over an arbitrary number type; CellFormat for each value of ln
  Theorems: `C26_movements`, `C26_cell`, `C26_row`.
- **C27 Alias substitution** (partial) - strings.Replace model, page list fold over alias list in any order.
  Result: refuted for an alias that contains a parenthesis and for aliases that contain one another; partial: exact replacement otherwise
  Theorems: `C27_aliases_partial`, `C27_ascii_partial`, `C27_determined`, `C27_page_count`, `C27_parenthesis_refuted`, `C27_order_refuted`.
- **C28 RGB color components are clamped and reported back** (proved) - integer model; all three setters.
  Result: all integers
  Theorems: `C28_clamped`, `C28_text_color`, `C28_gray`.
- **C29 Spot colors** (partial) - spot color table state machine.
  Result: refuted: SetTextSpotColor does not switch the text color flag; the rest proved
  Theorems: `C29_table`, `C29_add`, `C29_select`, `C29_in_force`, `C29_text_refuted`.
- **C30 Transparency states** (partial) - blend table state machine keyed by the formatted strings.
  Result: refuted: the empty blend mode is kept as a key, NaN is accepted; the rest proved
  Theorems: `C30_select`, `C30_invalid`, `C30_table`, `C30_empty_mode_refuted`, `C30_nan_refuted`.
- **C31 Links** (proved) - links slice and page link lists.
  Result: all histories of link calls
  Theorems: `C31_add`, `C31_set`, `C31_link`, `C31_kept`.
- **C32 Attachments are embedded** (partial) - heap of attachments with object number field; refuted across documents.
  Result: refuted: the object number stays in the attachment after a first document; partial: attachments not used before
  Theorems: `C32_embedded_partial`, `C32_refuted`.
- **C33 Encrypted streams and strings decrypt to the original** (partial) - RC4 executable, involution; cipher reuse refuted.
  Result: refuted: the second string of an object is encrypted with a cipher already used; partial: streams and first strings; RC4 is executable
  Theorems: `C33_decrypt_partial`, `C33_refuted`.
- **C34 Password verification data** (proved) - protect.go with MD5 an arbitrary function (an executable MD5 runs the examples); reader algorithms from the PDF specification.
  Result: RC4 executable, MD5 an arbitrary function; readers written from the PDF specification
  Theorems: `C34_passwords`.
- **C35 Deterministic output on request** (partial) - resource dictionary emission with iteration order an arbitrary permutation; sorted case deterministic, unsorted refuted.
  Result: refuted: spot colors are written in map order; partial: documents with at most one spot color, page box and the like; map orders are arbitrary permutations
  Theorems: `C35_same_file_partial`, `C35_refuted`.
- **C36 PNG alpha separation** (partial) - png row loops.
  Result: refuted: an empty chunk stops the scan; partial: all other files
  Theorems: `C36_alpha_partial`, `C36_empty_chunk_refuted`.
- **C37 Templates are written after the templates they use** (proved) - template graph, sortTemplates.
  Result: every acyclic template graph
  Theorems: `C37_template_order`.
- **C38 Font selection** (partial) - style string normalisation.
  Result: refuted: the flags change although the font is undefined, Symbol selects ZapfDingbats; the rest proved
  Theorems: `C38_spelling`, `C38_standard`, `C38_known`, `C38_added`, `C38_names`, `C38_undefined_partial`, `C38_flags_refuted`, `C38_symbol_refuted`.
- **C39 TrueType table checksums** (partial) - generateChecksum/calcInt32 on bytes and halves; refuted borrow.
  Result: refuted: the subtraction forgets a borrow; partial: exact adjustment otherwise; table checksums proved
  Theorems: `C39_refuted`, `C39_adjustment_partial`, `C39_table_checksums`.
- **C40 Subset character map** (proved) - format 4 cmap generation and reader.
  Result: all maps of characters below U+10000 and glyph numbers; reader of format 4 in TtfSpec.v
  Theorems: `C40_character_map`, `C40_deterministic`.
- **C41 Widths array of a UTF-8 font** (proved) - generateCIDFontMap and W array reader.
  Result: all width tables; reader of the W array in CidSpec.v
  Theorems: `C41_widths_array`, `C41_width_found`.
- **C42 SVG path absolutization** (partial) - absolutizePath vs SVG semantics; z refuted.
  Result: refuted: a relative command after z starts from the wrong point, repeated arguments beginning with . or + are rejected; partial: the other paths. The geometry of Q is wrong in SVGBasicWrite because Curve uses the operator v (C57)
  Theorems: `C42_paths_partial`, `C42_close_refuted`, `C42_repeat_refuted`.
- **C43 Basic HTML tokenizer** (partial) - tokenizer on strings.
  Result: refuted: attribute values with spaces or empty are lost, the style is not restored; partial: tokens, text, order
  Theorems: `C43_tokens_partial`, `C43_cut`, `C43_attributes_refuted`, `C43_drawing`, `C43_text_drawn`, `C43_balanced_partial`, `C43_style_restored_refuted`.
- **C44 Grid coordinate maps** (partial) - axis maps and Tickmarks over the reals; non-termination by a binary64 witness.
  Result: refuted: Tickmarks does not end for some ranges; the maps, ends and spacing proved over the reals
  Theorems: `C44_tickmarks`, `C44_no_range`, `C44_x_axis`, `C44_y_axis`, `C44_extent`, `C44_laid_out`, `C44_terminates_refuted`.
- **C45 CompareBytes detects every difference** (partial) - CompareBytes loop; refuted; exact characterisation of what it compares.
  Result: refuted: only part of the bytes is compared, the comparison of readers always panics and an unreadable second file passes as equal; partial: the exact condition for the bytes and what holds for files
  Theorems: `C45_compare_partial`, `C45_same_length_partial`, `C45_equal_is_nil_partial`, `C45_refuted`, `C45_readers_refuted`, `C45_files_partial`, `C45_files_refuted`.
- **C46 Transformations have the stated geometry** (proved) - matrices over R.
  Result: over the reals, every centre, factor and angle
  Theorems: `C46_scale`, `C46_rotate`, `C46_skew`, `C46_translate`, `C46_fixed`, `C46_rigid`, `C46_mirrors`, `C46_mirror_line`, `C46_refused`.
- **C47 Image size and place** (proved) - image size decision over the reals.
  Result: over the reals
  Theorems: `C47_size`, `C47_extent`, `C47_place`.
- **C48 Cursor, size and style are restored by SubWrite** (partial) - SubWrite over state with arbitrary write behaviour.
  Result: restored proved; a superscript above the top edge counts from the bottom (refuted)
  Theorems: `C48_restored`, `C48_top_refuted`.
- **C49 Units** (proved) - conversions over the reals.
  Result: over the reals
  Theorems: `C49_inverse`, `C49_page`, `C49_same_page`, `C49_refused`.
- **C50 TrueType subset file directory** (proved) - assembleTables.
  Result: all lists of tables; reader of the directory in TtfSpec.v
  Theorems: `C50_table_directory`.
- **C51 Template pages and nesting** (partial) - template.go records.
  Result: refuted: FromPage with a negative page panics, an image of a template that equals one of the document keeps object number 0; partial otherwise
  Theorems: `C51_images_partial`, `C51_shared_image_refuted`, `C51_pages_partial`, `C51_negative_refuted`, `C51_registered`.
- **C52 Ordered key map** (proved) - untypedKeyMap as list of key/value.
  Result: every sequence of operations
  Theorems: `C52_ordered_map`.
- **C53 Justified lines fill the width** (partial) - the justification branch of MultiCell over the line model; extra space per gap compared with the exact quotient.
  Result: refuted: integer division loses up to one em; partial: exact bound
  Theorems: `C53_justify_refuted`, `C53_justify_partial`.
- **C54 SplitText predicts MultiCell** (partial) - SplitText and MultiCell run on the same text; lines compared by the greedy characterisation proved for both.
  Result: refuted (tab); partial for texts with spaces and newlines only
  Theorems: `C54_prediction_refuted`, `C54_prediction_partial`.
- **C55 Names used in page contents are defined** (partial) - resources named by Tf and gs operators in the content as read back, against the font and transparency tables, as an invariant over all programs of the API model.
  Result: refuted: SetFontSize before any font, and an image registered under a name UseTemplate makes up; partial: all other programs; C55_all_names_partial covers fonts, images, templates, transparency states, gradients, layers and spot colors
  Theorems: `C55_resources_partial`, `C55_no_font_refuted`, `C55_all_names_partial`, `C55_image_name_refuted`.
- **C56 Grid lines and plots** (partial) - grid.go drawing loops over the reals; lines and points drawn compared with the sequence the documentation describes.
  Result: refuted: Plot asks the function beyond the last value by rounding; the rest proved
  Theorems: `C56_grid_lines`, `C56_plot`, `C56_range_refuted`.
- **C57 Shapes and paths** (partial) - drawing calls produce operators; a path reader written from the PDF specification turns them into segments which are compared with the documented shape.
  Result: refuted: Curve and CurveTo are not quadratic, Beziergon is left open; partial: the other shapes C57_styles_partial: every style string of the table (D, F, FD, f*, ...) gives the path operator of that meaning, anything else is taken for an operator itself.
  Theorems: `C57_shapes_partial`, `C57_paths_partial`, `C57_rounded_partial`, `C57_quadratic_refuted`, `C57_beziergon_refuted`, `C57_styles_partial`.
- **C58 Header of the subset character map** (partial) - search parameters and length field of the format 4 subtable against the OpenType specification.
  Result: refuted: the length field is too small; partial: the search parameters
  Theorems: `C58_search_partial`, `C58_length_refuted`.
- **C59 PNG without alpha** (partial) - png.go chunk loop on bytes with the PNG specification as separate reader.
  Result: refuted: only the first fully transparent palette entry is masked, an empty chunk stops the scan; partial otherwise
  Theorems: `C59_opaque_partial`, `C59_transparent_partial`, `C59_palette_refuted`, `C59_empty_chunk_refuted`.
- **C60 Damaged PNG files** (partial) - the same loop with reads outside the data as explicit panic; fuel is the length of the data.
  Result: refuted: truncated and malformed files panic; partial: it always ends, and what is not a PNG is an error C60_accepted_partial: every file accepted begins with the signature and a header of at most 8 bits per sample, a known color type and no interlacing, and an indexed one has a palette.
  Theorems: `C60_ends_partial`, `C60_not_png_partial`, `C60_accepted_partial`, `C60_crash_refuted`.
- **C61 Arcs, ellipses and circles** (partial) - Arc and ArcTo over the reals with the standard sine and cosine; distance of the Bezier curves from the ellipse bounded analytically.
  Result: refuted: ArcTo with a rotation writes q and cm inside the path, clockwise arcs are drawn with two curves; partial otherwise; over the reals
  Theorems: `C61_arc_partial`, `C61_near_partial`, `C61_circle_partial`, `C61_arcto_partial`, `C61_rotated_arcto_refuted`, `C61_backward_refuted`.
- **C62 Every name of the resource dictionary leads to its object** (partial) - reader of the resource dictionary and of the objects (ResSpec.v), applied to the file assembled by the writer model.
  Result: refuted: a Type1 file that was not compressed, a font not embedded; partial: all other documents, imported pages included (their objects: C81)
  Theorems: `C62_resource_names_partial`, `C62_raw_type1_refuted`, `C62_not_embedded_refuted`.
- **C63 Each page object says exactly what was set for the page** (proved) - reader of the page objects (PageSpec.v) applied to the same file.
  Result: every page of every document
  Theorems: `C63_page_objects`.
- **C64 A cut-down UTF-8 font shows the same glyphs** (proved) - utf8fontfile.go as functions on the bytes of the font with every read checked; reader of glyf, loca, hmtx, maxp and cmap in CutSpec.v; closure by induction on the recursion of getSymbols.
  Result: every sound font; if GenerateCutFont returns. That it returns is C66
  Theorems: `C64_subset_font`.
- **C65 Cutting a font leaves the font data alone and keeps side bearings** (partial) - the aliasing append of getMetrics is modelled as a write into the font file; witness font and exact frame.
  Result: refuted: getMetrics appends into the font data; partial: exact set of glyphs and bytes affected
  Theorems: `C65_refuted`, `C65_bearings_refuted`, `C65_bearings_partial`.
- **C66 Embedding a UTF-8 font always ends with a font** (partial) - the same functions; progress of every read from the completeness of the font, fuel from a rank on glyphs; refuted by a font with a circle for which every fuel runs out.
  Result: refuted: a glyph that is a component of itself makes getSymbols recurse forever; partial: every complete font without such a circle, for all sets of characters
  Theorems: `C66_cut_partial`, `C66_circle_refuted`.
- **C67 Character widths of a UTF-8 font** (partial) - parseTables and all it calls over the font bytes (WidthModel), floating point in four parameters; loop invariant of the width table against an independent reading of hmtx/cmap; the parameters are justified by a Flocq proof about binary64.
  Result: refuted: an advance width of 32768 or more is taken as 0; partial: all other well-formed fonts; C67_nearest_width: the binary64 computation gives a nearest integer (Flocq)
  Theorems: `C67_nearest_width`, `C67_refuted`, `C67_widths_partial`.
- **C68 Widths in the document agree with the embedded font** (partial) - the models of parseTables, GenerateCutFont, generateCIDFontMap and of the CIDToGIDMap put together; C41, C64 and C67 compose.
  Result: refuted: a character beyond U+FFFF makes Output panic (index out of range), and a font whose glyph 0 has width 0 gets no DW, so that characters without glyph are 1000 wide; partial: everything else
  Theorems: `C68_beyond_the_table`, `C68_refuted`, `C68_missing_refuted`, `C68_declared_widths_partial`.
- **C69 Font descriptor of a UTF-8 font** (partial) - the same model; each field against the offsets of the OpenType tables.
  Result: refuted: without OS/2 table and hhea heights the ascent and descent are scaled twice; partial: everything else; C69_truncated: the binary64 truncation is right up to one unit
  Theorems: `C69_descriptor_partial`, `C69_refuted`, `C69_truncated`.
- **C70 Margins and line style** (proved) - the API state machine of ApiModel.v; a small specification folds the history of setting calls; induction over programs with hooks.
  Result: for every program: the readers return the latest accepted setting of the history; C70_settings_new for a new document; the drawing state of lines likewise
  Theorems: `C70_settings`, `C70_settings_new`.
- **C71 Information dictionary and catalog** (partial) - the document assembly of DocModel.v; the text of the last two objects is computed line by line from the state in which they are printed, whose table is related to the objects written before; four concrete documents refute the rest.
  Result: refuted: two /PageMode entries with bookmarks and an open layer pane; XMP metadata is written but nothing refers to it; attachment names unsorted from the tenth on; TwoPage layouts in a file that says 1.3. partial: the exact trailer references, the exact information dictionary (values of protected documents: only names and lengths, see C33), the exact catalog, and every reference in it leads to its object
  Theorems: `C71_catalog_partial`, `C71_page_mode_refuted`, `C71_metadata_refuted`, `C71_name_tree_refuted`, `C71_version_refuted`.
- **C72 What a cell draws** (partial) - CellFormat after the page break, Text and their helpers over the real numbers as a list of marks; a small viewer (CellSpec.v) turns marks into ink in the coordinates of the caller; string operands through the reader of C01; TJ arrays by induction over the words.
  Result: A viewer (reading string operands back, advancing glyph by glyph, applying Tw and TJ numbers) is run on the marks of the cell. Proved in exact reals for every ready document and text the font can show (C02, C04, C11 exclude the rest): frame, placement, decorations, colour, link area, recorded characters (C72_cell_partial, without word spacing), spacing of MultiCell in simple fonts, J in UTF-8 fonts within 1/1000 of the size, and Text. Refuted: SetWordSpacing is ignored by right alignment and centring, a zero height still prints although the documentation says it does not, 'A' puts the baseline 1% of the size above the bottom in standard fonts, the underline of a J line in a UTF-8 font is not stretched.
  Theorems: `C72_cell_partial`, `C72_spaced_partial`, `C72_justified_partial`, `C72_text_partial`, `C72_word_spacing_refuted`, `C72_zero_height_refuted`, `C72_baseline_refuted`, `C72_justified_underline_refuted`.
- **C73 Clipping and gradients** (partial) - Modelled: ClipSpec.v (viewer with clips, shadings, text modes; drawings as trees and what they show), ClipModel.v (the operators of ClipRect, ClipText, ClipRoundedRectExt, ClipEllipse, ClipPolygon, ClipEnd, gradients and transformation contexts, over the reals with rounding within half a unit of the last printed digit). Proved by induction over the tree of the drawing; the curve bounds by algebra with sqrt 2.
  Result: C73_clips_partial: for every nesting of shapes, gradients, clips and transformations the operators written make a viewer see exactly the drawing, within 1/100 pt; C73_near_partial: then every point of every curve is that near; C73_ellipse_partial, C73_corners_partial: ellipse and corner outlines deviate by at most 0.03 percent. Full statement false: C73_utf8_text_refuted (ClipText with a UTF-8 font writes the string as it is), C73_empty_polygon_refuted, C73_interleaved_refuted (ClipEnd inside an open transformation leaves the clip in force without an error).
  Theorems: `C73_clips_partial`, `C73_near_partial`, `C73_ellipse_partial`, `C73_corners_partial`, `C73_utf8_text_refuted`, `C73_empty_polygon_refuted`, `C73_interleaved_refuted`.
- **C74 Reading font metrics** (partial) - Modelled: FontSpec.v (the tables of a TrueType font, advance widths, the Windows Unicode map, PostScript names, complete_font), FontModel.v (TtfParse and all its parsers, reads past the end giving 0 as binary.Read leaves it). Proved by following the parser over the tables: induction over records, segments and characters.
  Result: C74_values_partial: for every complete font with at most 32768 glyphs TtfParse returns exactly the values of the tables, every advance width and the glyph of every character below U+FFFF. Full statement false: C74_refuted (glyphs from 32768 on reached by a difference are dropped from the map), C74_truncated_refuted (a file cut off inside its tables is accepted with zeros), C74_crash_refuted (a font without long metrics panics).
  Theorems: `C74_values_partial`, `C74_refuted`, `C74_truncated_refuted`, `C74_crash_refuted`.
- **C75 Definition of a TrueType font** (partial) - Modelled: MakeSpec.v (encoding files, the meaning of Differences, Adobe metrics files as items with their text, segments of binary Type1 fonts), MakeModel.v (MakeFont, loadMap, getInfoFromTrueType, getInfoFromType1, segmentRead, makeFontDescriptor, makeFontEncoding, makeDefinitionFile over a file system; rounding, fmt.Sscanf on encoding lines and the path of the reference encoding are parameters; JSON and zlib output not modelled). Proved from C74 by following the conversion; the encoding by induction over its lines.
  Result: C75_truetype_partial: for every complete font with at most 32768 glyphs and every encoding with characters below U+FFFF the definition has exactly the font's values and the width of every code. Full statement false: C75_refuted (a character above U+FFFF gets the width of another one, its number being cut to 16 bits), C75_short_name_refuted (a file name of less than three characters panics).
  Theorems: `C75_truetype_partial`, `C75_refuted`, `C75_short_name_refuted`.
- **C76 Differences of an encoding** (proved) - Modelled: MakeSpec.v (encoding files, the meaning of Differences, Adobe metrics files as items with their text, segments of binary Type1 fonts), MakeModel.v (MakeFont, loadMap, getInfoFromTrueType, getInfoFromType1, segmentRead, makeFontDescriptor, makeFontEncoding, makeDefinitionFile over a file system; rounding, fmt.Sscanf on encoding lines and the path of the reference encoding are parameters; JSON and zlib output not modelled). Proved by induction over the codes with the run of the last written code as invariant, and over the words of the text.
  Result: Full.
  Theorems: `C76_differences`.
- **C77 Definition of a Type1 font** (partial) - Modelled: MakeSpec.v (encoding files, the meaning of Differences, Adobe metrics files as items with their text, segments of binary Type1 fonts), MakeModel.v (MakeFont, loadMap, getInfoFromTrueType, getInfoFromType1, segmentRead, makeFontDescriptor, makeFontEncoding, makeDefinitionFile over a file system; rounding, fmt.Sscanf on encoding lines and the path of the reference encoding are parameters; JSON and zlib output not modelled). Proved by induction over the lines of the metrics file, with one invariant per value.
  Result: C77_type1_partial: for every metrics file with whole numbers. Full statement false: C77_refuted (ItalicAngle -12.0, allowed by the format, is refused), C77_crash_refuted (a short C line panics), C77_truncated_refuted (a font cut off inside its second segment is accepted, with zeros).
  Theorems: `C77_type1_partial`, `C77_refuted`, `C77_crash_refuted`, `C77_truncated_refuted`.
- **C78 Registered fonts** (partial) - Modelled: RegModel.v (AddFont, AddUTF8Font, AddFontFromBytes, AddUTF8FontFromBytes, AddFontFromReader, addFont, addFontFromBytes, loadfont, getFontKey, SetFont as far as it selects and loads, SetFontLocation, SetFontLoader; JSON, SHA-1 of the definition, TrueType reading, the disk and path.Join are parameters), RegSpec.v (faces, what a call reads, own encoding and file). Proved by classifying the effect of one call on the tables and induction over the history.
  Result: Definitions, faces, encodings and selection proved for every history; files only while no later font names the same file. Refuted: C78_files_refuted (two definitions with one file name share the last contents), C78_reported_refuted (AddUTF8FontFromBytes with bytes that are no font registers nothing and reports nothing), C78_first_error_refuted (AddFont of a missing file replaces an earlier error), C78_default_name_refuted (default file name of a family with a space holds #20), C78_no_encoding_refuted (a number in a definition without differences is kept), C78_others_refuted ("a b" and "a#20b" are one family).
  Theorems: `C78_encodings`, `C78_encodings_once`, `C78_keeps`, `C78_first`, `C78_utf8_first`, `C78_reported`, `C78_others`, `C78_files_partial`, `C78_selects`, `C78_files_refuted`, `C78_reported_refuted`, `C78_first_error_refuted`, `C78_default_name_refuted`, `C78_no_encoding_refuted`, `C78_others_refuted`.
- **C79 Templates survive serialization** (partial) - Model GobEncode/GobDecode of templates (childrenImages, childrensTemplates, first-class filter, image identifiers recomputed on decode) as functions between templates and a wire tree; prove by induction on the size of the template that decoding an encoding gives a template related by an inductive "same".
  Result: Proved for every template that NewTpl/CreateTemplate and FromPage can build, where one image name means one image, images are as registered and different templates inside have different current pages. The gob byte format is not modelled: a wire value is the tree of the values passed to the encoder, in order; errors of the gob layer are not modelled. Without the conditions the full claim is false: an image already given an object number by Output comes back under another identifier (C79_numbered_refuted), image names are not kept (C79_names_refuted), a template used by two others comes back twice (C79_repeated_refuted).
  Theorems: `C79_roundtrip_partial`, `C79_numbered_refuted`, `C79_names_refuted`, `C79_repeated_refuted`.
- **C80 Registered images** (partial) - Model the image table (RegisterImage*, GetImageInfo, Image*, ImageTypeFromMime, SetDpi, parsejpg, parsepng, parsegif) as a state machine over a table of names and a list of image objects; prove an invariant (names stand for distinct objects, every object was read from contents, everything drawn is registered) by induction on the calls.
  Result: Proved for every history of the image calls, with file contents that may change between calls. JPEG and GIF decoding, zlib and the hash are parameters; PNG is PngModel.v. The value returned together with an error and errors of the page break inside Image are not modelled. Refuted: C80_first_error_refuted (RegisterImage/RegisterImageOptions of a file that cannot be opened replaces an earlier error).
  Theorems: `C80_first`, `C80_keeps`, `C80_dpi`, `C80_reported`, `C80_draws`, `C80_known`, `C80_drawn`, `C80_origin`, `C80_no_crash`, `C80_mime`, `C80_first_error_refuted`.
- **C81 Imported pages arrive complete** (partial) - Model the three import calls as maps with replacement and putImportedTemplates inside the writer model; prove that the maps hold the last values, that the 40-byte fields are patched without touching anything else, and read the objects and the resource dictionary back from the file.
  Result: Proved for every history of ImportObjects/ImportObjPos/ImportTemplates and every map order. Premises: the objects end with endobj and line ends, their references do not overlap and go to imported objects (what gofpdi hands over; gofpdi itself is not in /repo). The dictionary part is under the conditions of C62. Refuted: C81_protected_refuted (in a protected document imported objects are written without encryption).
  Theorems: `C81_last_value`, `C81_imported_partial`, `C81_protected_refuted`.
- **C82 Page sizes, orientation and boxes** (partial) - Model fpdfNew, beginpage, AddPage(Format), automatic breaks, SetPage, SetPageBox as a state machine; relate it by an invariant to a specification that records the sheet asked for each page and the log of the boxes set; named papers compared with ISO 216 and US sizes over the reals.
  Result: C82_pages holds for any number type with decidable equality, C82_new, C82_page_size_partial and C82_scaled over the reals; how the sizes and boxes are printed is C63. Refuted: PageSize in a landscape document, GetPageSize after SetPage, an unknown orientation given to AddPageFormat, the origin of page boxes, GetFontSize before SetFont. Case mapping is ASCII.
  Theorems: `C82_pages`, `C82_new`, `C82_page_size_partial`, `C82_page_size_refuted`, `C82_get_page_size_refuted`, `C82_orientation_refuted`, `C82_box_origin_refuted`, `C82_font_size_refuted`, `C82_scaled`.
- **C83 A template's resource dictionary defines the names its content uses** (partial) - UseModel.v models a heap of documents, shared font maps and templates with the calls that name resources; invariants by induction over the history (UseProofs.v); theorems and refutations in UseProps.v.
  Result: partial: fonts (of the same document), images and templates; refuted: transparency states, gradients, layers and spot colors are in no template dictionary, a spot color of the document leaks into a template drawn while it is selected, fonts of CreateTpl templates, and the image of the second of two templates with the same picture is never written
  Theorems: `C83_names_partial`, `C83_images_partial`, `C83_states_refuted`, `C83_inherited_refuted`, `C83_free_font_refuted`, `C83_images_refuted`.
- **C84 What the caller sets is what the file says** (partial) - SetModel.v models the setters and package-level defaults; a reader of dictionaries of strings, text strings and dates (SetSpec.v) is applied to the information dictionary given by C71; the last call of each kind wins, by induction over the history.
  Result: Proved for documents without protection and under the conditions of C71; texts within the BMP (C04), dates of the years 0 to 9999; Go's time package is not modelled beyond the six calendar numbers (the time zone is not written). Refuted: C84_refused_refuted (SetDisplayMode with a wrong layout is an error, but its zoom stays).
  Theorems: `C84_information_partial`, `C84_view_partial`, `C84_flags`, `C84_refused_refuted`.
- **C85 Aligned flowing text** (partial) - AlnModel.v composes the models of SplitLines/SplitText (C07, C08), GetStringWidth (C11) and Write (C10) with rational coordinates; theorems by composition of C07, C10 and C11.
  Result: Proved in exact rationals for single-byte fonts, without automatic page breaks: place of a line in a box (L, C, R), margins restored, no visible character lost. Full statement false: C85_rows_refuted (newlines and ends of lines do not begin a new row), C85_words_refuted (words of two lines are joined without space), C85_centre_refuted (centred text is the cell margin too far right), C85_centre_breaks_refuted (a line that fits is broken when it is centred). C85_default_width: width 0 is the space between the margins.
  Theorems: `C85_one_line_partial`, `C85_default_width`, `C85_text_partial`, `C85_rows_refuted`, `C85_words_refuted`, `C85_centre_refuted`, `C85_centre_breaks_refuted`.
- **C86 The caller's data is left alone** (partial) - MemModel.v models arrays behind slices and the object number in image descriptions as memory, and the steps of Output that touch them (putstream in place when protected, append into the font, patching of imported objects). MemProps.v: frame property and non-interference for arbitrary interleavings of any number of documents by induction on the schedule; refutations by concrete runs.
  Result: Proved for every number of documents and every schedule of their steps: what no step may alter is as before (C86_kept, C86_unprotected), documents that share only such data come out as if alone (C86_every_schedule_partial, C86_shared_partial), and a document whose altered slices are used once says what was meant (C86_contents_partial). Steps are atomic; capacity of a slice = length. Refuted: C86_protected_refuted (a protected document encrypts the caller's font bytes, metadata, image data in place), C86_same_document_refuted, C86_raw_type1_refuted (unprotected), C86_at_once_refuted (object number in a shared image description).
  Theorems: `C86_kept`, `C86_unprotected`, `C86_every_schedule_partial`, `C86_shared_partial`, `C86_contents_partial`, `C86_protected_refuted`, `C86_same_document_refuted`, `C86_raw_type1_refuted`, `C86_at_once_refuted`.
- **C87 What is set is read back** (partial) - GetModel.v: the drawing parameters as a record, setters and getters function by function. GetProps.v: the specification is the value of the last call that sets a parameter (a fold over the history); induction on the history.
  Result: Proved for every history of setter calls from any state and any number type: margins, page break, cell margin, line width, font size, RGB colours (C87_read_back), transparency (C87_alpha, documents without error), position (C87_position). Partial for spot colors (C87_spot_partial); C87_spot_refuted: GetDrawSpotColor promises the most recently used spot color, but SetDrawColor makes it forget. No headers, page sizes other than the default: C23, C82.
  Theorems: `C87_read_back`, `C87_alpha`, `C87_spot_partial`, `C87_position`, `C87_spot_refuted`.
- **C88 Interrupted output** (partial) - OutModel.v: bytes.Buffer.WriteTo, the output calls and a disk, with writers as arbitrary functions (bytes taken, error) and files whose creation and closing may fail. OutProps.v: invariant (bytes handed out ++ buffer = bytes assembled) by induction on the history; counterexamples computed.
  Result: Proved for every history of Close, Output, OutputAndClose, OutputFileAndClose, SetError and ClearError with arbitrary writers and files: each byte of the document is handed out once and in order (C88_once), the first call is exact (C88_first_partial, C88_file_partial), a writer within its bounds never causes a panic (C88_total). Refuted: C88_retry_refuted (after a failed write a second try succeeds without the bytes already written), C88_close_refuted (the error of closing the file is dropped), C88_overwritten_refuted (an existing file is emptied before the document is known to be good). The document is a parameter (DocModel.v assembles it).
  Theorems: `C88_once`, `C88_first_partial`, `C88_total`, `C88_file_partial`, `C88_retry_refuted`, `C88_close_refuted`, `C88_overwritten_refuted`.
- **C89 No text crashes the program** (partial) - Over LineModel and WriteModel: each loop is compared with its run over an extended table that covers the text (which ends), and every character is shown to be looked up; so a panic happens exactly when a character is beyond the table.
  Result: refuted: Write and SplitText crash on characters beyond U+FFFF, GetStringWidth on U+10000, and all but MultiCell when no font is selected; partial: the exact condition of a crash, and the fonts and texts without one
  Theorems: `C89_exact_partial`, `C89_multicell_partial`, `C89_fonts_partial`, `C89_beyond_bmp_refuted`.
- **C90 An independent reader gets the pages back** (proved) - ReadSpec.v: an executable reader over bytes (startxref from the end, table, trailer, catalog, flat page tree, dictionary scanner with strings and nesting). ReadProofs.v: the scanner passes over every piece of text a page object can contain (PageSpec), by induction over literal strings and lists. ReadProps.v: composition with the cross-reference theorem of C12.
  Result: proved for finished well-formed documents below 10^10 bytes; the number formatter prints no delimiters, boxes have the names of page boxes, compression has an inverse; the decryption key is given to the reader
  Theorems: `C90_pages_read_back`, `C90_exact_content`.
- **C91 An independent reader gets the metadata back** (partial) - ReadInfoProps.v: the reader of ReadSpec.v over the information dictionary of C71, by induction over its entries; the scanner passes over strings whose content reads back (C03). Counterexample for protected documents computed.
  Result: partial: for documents without protection; refuted for protected ones, where the key stream continues from one string of the object to the next (C33)
  Theorems: `C91_metadata_read_back_partial`, `C91_metadata_refuted`.
- **C92 An independent reader gets the bookmarks back** (partial) - ReadSpec.v: the reader follows /Outlines, /First and /Next. ReadOutline.v: walking first-child and next-sibling links of OutlineSpec visits the items in their order, by induction on the fuel over the subtree intervals. ReadOutlineProps.v: every bookmark object is scanned (title string, optional links, destination), the catalog is scanned past view, layout, layers, script and attachments; composition with C12 and C17. Counterexamples computed.
  Result: partial: for bookmarks whose levels are those of a tree (each at most one deeper than the one before, the first at 0); refuted for others: bookmarks are lost or the outline cannot be read at all
  Theorems: `C92_bookmarks_read_back_partial`, `C92_bookmarks_refuted`, `C92_first_level_refuted`.
- **C93 Code page maps are read from text** (partial) - MapModel.v: the line scanner with its limit, TrimSpace, fmt.Sscanf with the format of the code, the lookup of descriptors. MapProps.v: every rendered entry parses back (case analysis on digits, induction on names and files), then C05; counterexample for long lines computed.
  Result: partial: for names of less than 65000 characters; refuted beyond: the scanner stops at a line of 65536 bytes and its error is not looked at, so the entries after it are ignored silently
  Theorems: `C93_map_files_partial`, `C93_descriptor_partial`, `C93_long_line_refuted`.
- **C94 An independent reader extracts the attachments** (partial) - The reader of ReadSpec.v is extended by read_files: from the end of the file to the cross-reference table, the trailer, the catalog, the name tree /EmbeddedFiles, the file specification of each name, its UTF-16 name and the stream of the embedded file, with decompression and decryption as parameters. DocParts.v gives the two objects of an attachment to the letter (file_dict, att_exact), DocLayout.v where they stand, CatProofs.v the catalog; the proof follows the reader through them by the seek lemmas of ReadProofs.v.
  Result: C94_files_read_back_partial: read_files (ReadSpec.v), which uses nothing but the bytes of the file, returns for every finished document, encrypted or not, the list of attachments in order, each with its name as code points and its content, when no attachment was written to another document before and the names hold code points below 65536. The full statement is false of the code: C94_name_refuted (a name with a character outside the BMP is read back as another name) and C94_second_document_refuted (an attachment already written to another document cannot be read).
  Theorems: `C94_files_read_back_partial`, `C94_name_refuted`, `C94_second_document_refuted`.
- **C95 An independent reader gets the size and the boxes of every page** (proved) - ReadSpec.v: read_boxes follows the trailer, the catalog and the page tree and looks the box up in the dictionary of each page, and, if it is inheritable and missing there, in the tree. ReadBoxProps.v: the reader passes over boxes of other names, resources, links and attachments (brackets and strings nested deeper), finds the box or the end of the dictionary; independence of the order of the map of boxes; case analysis on the five names.
  Result: every finished document; the pages are those up to the current one (all of them unless SetPage went back, see C15); the numbers are printed without delimiters; the boxes of a page have different names among those SetPageBox accepts
  Theorems: `C95_boxes_read_back`.
- **C96 An independent reader gets the links of every page** (partial) - ReadSpec.v: read_links follows the trailer, the catalog and the page tree, walks over the annotations of each page one dictionary at a time and takes rectangle, action or destination of those that are links; a destination is turned into the number of the page by its place in the page tree. ReadLinkProps.v: the reader passes over literal strings with arbitrary bytes (past_literal), reads one link (link_read), by induction all links of a page, and finds the annotations after boxes and resources; arithmetic of the page object numbers.
  Result: documents without protection and without attachments whose links lead to existing pages; missing: protected documents (the addresses are then encrypted) and documents with attachments, for which the full statement is refuted: with one attachment the link to page 3 leads to page 2 and the link to page 1 to no page (C16)
  Theorems: `C96_links_read_back_partial`, `C96_links_refuted`.

## Findings that are not theorems

Seen while modelling, outside of the statements above or not formalised: generateChecksum may pad into memory behind an
aliased table; template resources list neither transparency states nor gradients nor color spaces nor layers; ClosePath
leaves the current point; the first call of SetFontSize in the constructor comes before the scale factor is set; a write
error in Output replaces the error of Close; the bookmark destination uses the height of the last page;
SetDisplayMode TwoPageLeft/Right raises the version after the header is written; output before the first page comes before
the header; RegisterAlias with an empty alias inserts the replacement everywhere; two templates with equal content share an
identifier; an unreadable font file leaves an object open; putstream encrypts the caller's slice in place; the catalog
sort does not cover page boxes and imported templates, and sorts images by width only; ImageInfoType's GobDecode
loses errors; ComparePDFs with nil buffers panics; Grid() leaves automatic page breaks off; UTF8CutFont overwrites widths.

## Tests of the theorems against wrong programs

`seeded/LOG.jsonl` has one line per edit of the model (a copy outside /verif, rebuilt up to the property files): the
definition, the edit, the claim it breaks, the theorems that failed and those that were tightened after an edit went
through.

## Appendix A: Print Assumptions

Every theorem not listed here is "Closed under the global context". The others list only axioms of the standard library:

- `ClassicalDedekindReals.sig_forall_dec`, `ClassicalDedekindReals.sig_not_dec`, `Classical_Prop.classic`, `FunctionalExtensionality.functional_extensionality_dep`:
  C44_tickmarks, C44_no_range, C44_extent, C44_laid_out, C67_nearest_width, C69_truncated
- `ClassicalDedekindReals.sig_forall_dec`, `ClassicalDedekindReals.sig_not_dec`, `FunctionalExtensionality.functional_extensionality_dep`:
  C44_x_axis, C44_y_axis, C56_grid_lines, C56_plot, C56_range_refuted, C46_scale, C46_rotate, C46_skew, C46_translate, C46_fixed, C46_rigid, C46_mirrors, C46_mirror_line, C46_refused, C47_size, C47_extent, C47_place, C48_restored, C49_page, C49_same_page, C49_refused, C61_arc_partial, C61_near_partial, C61_circle_partial, C61_arcto_partial, C61_rotated_arcto_refuted, C61_backward_refuted, C73_clips_partial, C73_ellipse_partial, C73_corners_partial, C73_utf8_text_refuted, C73_empty_polygon_refuted, C73_interleaved_refuted
- `ClassicalDedekindReals.sig_forall_dec`, `FunctionalExtensionality.functional_extensionality_dep`:
  C49_inverse, C57_shapes_partial, C57_paths_partial, C57_rounded_partial, C57_quadratic_refuted, C57_beziergon_refuted, C72_cell_partial, C72_spaced_partial, C72_justified_partial, C72_text_partial, C72_word_spacing_refuted, C72_zero_height_refuted, C72_baseline_refuted, C72_justified_underline_refuted, C73_near_partial, C82_new, C82_page_size_partial, C82_page_size_refuted, C82_get_page_size_refuted, C82_orientation_refuted, C82_box_origin_refuted, C82_scaled

## Appendix B: functions of the source and the model

Computed from the citations in the theories. "Modelled" means that a definition cites at least four fifths of the lines of the function.
One-line getters and setters are often modelled inside the definition of the call that uses them.

- **attachments.go**: modelled 6: writeCompressedFileObject, embed, putAttachments, getEmbeddedFiles, putAnnotationsAttachments, putAttachmentAnnotationLinks. No citation: checksum, SetAttachments, AddAttachmentAnnotation.
- **compare.go**: modelled 4: checkBytes, CompareBytes, ComparePDFs, ComparePDFFiles. No citation: Len, Less, Swap, gensort, writeBytes.
- **def.go**: modelled 11: XY, generateImageID, GobEncode, GobDecode, PointConvert, PointToUnitConvert, UnitToPointConvert, Width, Height, SetDpi, generateFontID. No citation: Extent.
- **embedded.go**: modelled 0. No citation: coreFontReader.
- **font.go**: modelled 9: baseNoExt, loadMap, getInfoFromTrueType, segmentRead, getInfoFromType1, makeFontDescriptor, makeFontEncoding, makeDefinitionFile, MakeFont.
- **fpdf.go**: modelled 196: fpdfNew, ClearError, SetErrorf, SetError, GetPageSize, GetMargins, SetMargins, SetLeftMargin, GetCellMargin, SetCellMargin, SetPageBoxRec, SetPageBox, SetPage, SetFontLocation, SetFontLoader, SetHeaderFuncMode, SetHeaderFunc, SetFooterFunc, SetFooterFuncLpi, SetTopMargin, SetRightMargin, GetAutoPageBreak, SetAutoPageBreak, SetDisplayMode, SetDefaultCompression, SetCompression, SetProducer, SetTitle, SetSubject, SetAuthor, SetKeywords, SetCreator, Close, PageSize, AddPageFormat, AddPage, colorComp, rgbColorValue, setDrawColor, GetDrawColor, SetFillColor, setFillColor, GetFillColor, SetTextColor, setTextColor, GetTextColor, GetStringWidth, GetStringSymbolWidth, SetLineWidth, setLineWidth, GetLineWidth, SetLineCapStyle, SetLineJoinStyle, SetDashPattern, Line, fillDrawOp, Rect, RoundedRectExt, Circle, Ellipse, Polygon, Beziergon, point, curve, Curve, CurveCubic, CurveBezierCubic, Arc, GetAlpha, SetAlpha, gradientClipStart, gradientClipEnd, gradient, LinearGradient, RadialGradient, ClipRect, ClipText, clipArc, ClipRoundedRect, ClipRoundedRectExt, roundedRectPath, ClipEllipse, ClipCircle, ClipPolygon, ClipEnd, AddFont, AddUTF8Font, addFont, AddFontFromBytes, AddUTF8FontFromBytes, addFontFromBytes, getFontKey, AddFontFromReader, GetFontDesc, SetFont, SetFontStyle, SetFontSize, SetFontUnitSize, GetFontSize, AddLink, SetLink, newLink, Link, LinkString, Bookmark, Text, SetWordSpacing, SetTextRenderingMode, SetAcceptPageBreakFunc, CellFormat, reverseText, SplitLines, MultiCell, write, WriteAligned, Ln, ImageTypeFromMime, imageOut, Image, ImageOptions, RegisterImageReader, RegisterImageOptionsReader, RegisterImage, RegisterImageOptions, GetImageInfo, ImportObjects, ImportObjPos, putImportedTemplates, UseImportedTemplate, ImportTemplates, GetConversionRatio, GetXY, GetX, SetX, GetY, SetY, SetHomeXY, SetXY, OutputAndClose, OutputFileAndClose, Output, getpagesizestr, GetPageSizeStr, _getpagesize, beginpage, endpage, loadfont, escape, textstring, blankCount, dounderline, dostrikeout, newImageInfo, parsejpg, parsepng, readBeInt32, readByte, parsegif, newobj, putstream, out, RawWriteStr, outf, SetDefaultCatalogSort, SetDefaultCreationDate, SetDefaultModificationDate, replaceAliases, putpages, putfonts, generateCIDFontMap, implode, arrayCountValues, putimages, putimage, putxobjectdict, putresourcedict, putBlendModes, putGradients, putjavascript, putresources, timeOrNow, putinfo, putcatalog, putheader, puttrailer, putxmp, putbookmarks, enddoc, MoveTo, LineTo, CurveTo, CurveBezierCubicTo, ClosePath, DrawPath, ArcTo, arc. Partly: NewCustom. No citation: printf, New, Ok, Err, String, Error, PageCount, SetXmpMetadata, AliasNbPages, RTL, LTR, open, PageNo, SetDrawColor, outputDashPattern, RoundedRect, makeSubsetRange, Cell, Cellf, Write, Writef, WriteLinkString, WriteLinkID, SetProtection, SetUnderlineThickness, bufEqual, be16, outbuf, RawWriteBuf, SetCatalogSort, SetCreationDate, SetModificationDate, SetJavascript, RegisterAlias, loadFontFile.
- **fpdftrans.go**: modelled 18: TransformBegin, TransformScaleX, TransformScaleY, TransformScaleXY, TransformScale, TransformMirrorHorizontal, TransformMirrorVertical, TransformMirrorPoint, TransformMirrorLine, TransformTranslateX, TransformTranslateY, TransformTranslate, TransformRotate, TransformSkewX, TransformSkewY, TransformSkew, Transform, TransformEnd.
- **grid.go**: modelled 17: linear, linearTickmark, NewGrid, WdAbs, Wd, XY, Pos, X, Ht, Y, TickmarksContainX, TickmarksContainY, extent, TickmarksExtentX, TickmarksExtentY, Grid, Plot. No citation: unused, StateGet, Put, defaultFormatter, HtAbs, XRange, YRange, lineAttr.
- **htmlbasic.go**: modelled 2: HTMLBasicTokenize, Write. No citation: HTMLBasicNew.
- **label.go**: modelled 3: niceNum, TickmarkPrecision, Tickmarks.
- **layer.go**: modelled 7: AddLayer, BeginLayer, EndLayer, layerEndDoc, layerPutLayers, layerPutResourceDict, layerPutCatalog. No citation: layerInit, OpenLayerPane.
- **png.go**: modelled 2: pngColorSpace, parsepngstream.
- **protect.go**: modelled 5: rc4, objectKey, oValueGen, uValueGen, setProtection.
- **splittext.go**: modelled 1: SplitText.
- **spotcolor.go**: modelled 12: byteBound, AddSpotColor, getSpotColor, SetDrawSpotColor, SetFillSpotColor, SetTextSpotColor, returnSpotColor, GetDrawSpotColor, GetTextSpotColor, GetFillSpotColor, putSpotColors, spotColorPutResourceDict.
- **subwrite.go**: modelled 1: SubWrite.
- **svgbasic.go**: modelled 3: init, absolutizePath, pathParse. No citation: SVGBasicParse, SVGBasicFileParse.
- **svgwrite.go**: modelled 1: SVGBasicWrite.
- **template.go**: modelled 9: CreateTemplate, CreateTemplateCustom, CreateTpl, UseTemplate, UseTemplateScaled, templateFontCatalog, putTemplates, sortTemplates, templateChainDependencies. No citation: CreateTemplate, templateKeyList.
- **template_impl.go**: modelled 14: newTpl, ID, Size, Bytes, FromPage, FromPages, NumPages, Serialize, DeserializeTemplate, childrenImages, childrensTemplates, GobEncode, GobDecode, loadParamsFromFpdf. No citation: Images, Templates.
- **ttfparser.go**: modelled 15: TtfParse, ParseComponents, ParseHead, ParseHhea, ParseMaxp, ParseHmtx, ParseCmap, ParseName, ParseOS2, ParsePost, Seek, ReadStr, ReadUShort, ReadShort, ReadULong. No citation: Skip.
- **utf8fontfile.go**: modelled 34: Read, parseFile, generateTableDescriptions, readUint16, readUint32, calcInt32, generateChecksum, SeekTable, readInt16, getUint16, splice, insertUint16, getTableData, setOutTable, parseNAMETable, parseHEADTable, parseHHEATable, parseOS2Table, parsePOSTTable, parseTables, generateCMAP, parseSymbols, generateCMAPTable, GenerateCutFont, getSymbols, parseHMTXTable, getMetrics, parseLOCATable, generateSCCSDictionaries, assembleTables, unpackUint16, packHeader, packUint32, packUint16. No citation: seek, newUTF8Font, readTableName, seek, skip, seekTable, getRange, arrayKeys, inArray, parseCMAPTable, max, unpackUint16Array, unpackUint32Array, pack2Uint16, pack2Uint32, keySortStrings, keySortInt, keySortArrayRangeMap, UTF8CutFont.
- **util.go**: modelled 21: round, sliceCompress, sliceUncompress, utf8toutf16, repClosure, UnicodeTranslator, UnicodeTranslatorFromFile, UnicodeTranslatorFromDescriptor, Orientation, ScaleBy, ScaleToWidth, ScaleToHeight, getIndex, put, delete, get, pop, arrayMerge, remove, isChinese, fontFamilyEscape. No citation: sprintf, fileExist, fileSize, bufferFromReader, slicesEqual, intIf, strIf, doNothing, Transform.
