{"id": "C01", "title": "Literal strings round-trip through a PDF reader", "statement": "Whatever bytes a caller passes as document metadata, bookmark title, link URI or Text() content, the literal string written to the file, read back by the literal-string rules of the PDF specification (ISO 32000-1, 7.3.4.2), yields exactly those bytes, and the reader stops exactly at the closing parenthesis that was written.", "quantifier": "every finite byte string (including parentheses, backslashes, CR, NUL and unbalanced or adversarial input) and every continuation of the file after it", "why_tests_cant": "the set of byte strings is infinite and the failures sit in rare byte combinations (backslash at the end, CR next to LF, nested parentheses)", "anchors": ["fpdf.go: escape, textstring, Text, putlinks/putinfo users"]}
{"id": "C02", "title": "Cell text in a single-byte font round-trips", "statement": "The bytes given to Cell/CellFormat/MultiCell with a core or other single-byte font are the bytes a PDF reader shows from the emitted Tj operand.", "quantifier": "every byte string and every suffix of the page content", "why_tests_cant": "only strings with particular bytes (CR) are affected; a sample of ordinary text never shows it", "anchors": ["fpdf.go: CellFormat (non-UTF-8 branch)"]}
{"id": "C03", "title": "Metadata and text in the Basic Multilingual Plane become correct UTF-16BE", "statement": "For every text made of Unicode scalar values below U+10000, the bytes produced from its UTF-8 encoding are the UTF-16BE encoding of the same text, preceded by FE FF exactly when a byte order mark is requested, and the conversion never goes out of bounds.", "quantifier": "every finite sequence of scalar values below U+10000, with and without byte order mark", "why_tests_cant": "the domain is all texts; boundaries at 0x7F/0x80, 0x7FF/0x800 and all multi-byte alignments must hold at once", "anchors": ["util.go: utf8toutf16"]}
{"id": "C04", "title": "Text outside the Basic Multilingual Plane becomes UTF-16 surrogate pairs", "statement": "The conversion used for metadata and UTF-8 fonts turns every valid UTF-8 text into the UTF-16BE encoding of that text, or rejects it; it never panics.", "quantifier": "every valid Unicode text; every byte string for the no-panic part", "why_tests_cant": "needs the quantifier over all texts; a finding is a witness", "anchors": ["util.go: utf8toutf16"]}
{"id": "C05", "title": "Code page translator", "statement": "The function returned by UnicodeTranslator maps every character that the map file lists to its single byte, every ASCII character to itself, every other character to '.', and keeps the character count and order; every well-formed map file is accepted.", "quantifier": "every map descriptor content and every input text", "why_tests_cant": "ranges over all map files and all texts", "anchors": ["util.go: UnicodeTranslator, repClosure, UnicodeTranslatorFromDescriptor"]}
{"id": "C06", "title": "Right-to-left text reversal", "statement": "In RTL mode the string written is the character-wise reversal of the argument: same characters, opposite order, applying it twice gives the original text, and the measured width is unchanged.", "quantifier": "every valid text", "why_tests_cant": "all texts, all multi-byte alignments", "anchors": ["util.go: reverseText", "fpdf.go: CellFormat, Text, GetStringSymbolWidth"]}
{"id": "C07", "title": "SplitLines loses nothing and respects the width", "statement": "SplitLines terminates on every input; the returned lines in order are the input (carriage returns and trailing newline removed) with only break spaces/newlines removed; every line that is broken automatically fits in the requested width unless it is a single character; lines contain no newline.", "quantifier": "every byte string, every width table and every width (including zero and negative)", "why_tests_cant": "the interaction of separators, explicit newlines and over-long words has unboundedly many shapes", "anchors": ["fpdf.go: SplitLines"]}
{"id": "C08", "title": "SplitText loses nothing and respects the width", "statement": "SplitText terminates; the returned lines in order contain every character of the text other than the white space or newline at which a break was taken; automatically broken lines fit in the width unless a single character.", "quantifier": "every text, width table and width", "why_tests_cant": "all texts; Chinese characters as break points change what is consumed", "anchors": ["splittext.go: SplitText", "util.go: isChinese"]}
{"id": "C09", "title": "MultiCell prints the whole text", "statement": "MultiCell terminates, and the lines it hands to the cell printer, in order, contain every character of the text except the separators at which it broke lines; each automatically broken line fits the cell width unless it is a single character; borders L/R/T/B are drawn so that the first line has the top and the last line the bottom border.", "quantifier": "every text, width, width table, border and alignment specification", "why_tests_cant": "unbounded text; the loop has several interacting indices", "anchors": ["fpdf.go: MultiCell"]}
{"id": "C10", "title": "Write prints the whole text", "statement": "Write terminates and the chunks printed, in order, contain every character except separators at line breaks; each chunk fits into the space remaining on its line unless it is a single character on a fresh line.", "quantifier": "every text, starting position, margins and width table", "why_tests_cant": "unbounded text and continuous starting positions", "anchors": ["fpdf.go: write, Write, WriteLinkString, WriteLinkID"]}
{"id": "C11", "title": "String width is the sum of glyph widths and never fails", "statement": "GetStringSymbolWidth of a concatenation is the sum of the widths of the parts, it depends only on the font in use, and it returns for every character of every text.", "quantifier": "every text and every width table", "why_tests_cant": "all texts including characters at and beyond the end of the width table", "anchors": ["fpdf.go: GetStringSymbolWidth, GetStringWidth"]}
{"id": "C12", "title": "Every cross-reference entry points at its object", "statement": "In every document that Output writes without error, the file begins with the header, startxref is the offset of the xref keyword, the table has one 20-byte entry for each object number 0..n, entry k is the byte offset at which the text 'k 0 obj' starts, and the trailer Size is n+1.", "quantifier": "every document history (any pages, fonts, images, links, bookmarks, attachments, templates, encryption, compression)", "why_tests_cant": "offsets depend on every byte emitted before; only a proof over all histories excludes a drift", "anchors": ["fpdf.go: newobj, out, outf, put, outbuf, enddoc, putheader"]}
{"id": "C13", "title": "Object numbers are unique and every object is closed", "statement": "The numbers of the indirect objects written are exactly 1..n, each defined once, each followed by endobj before the next one starts; references written by the catalog, trailer, page tree and annotations are to objects that exist.", "quantifier": "every document history", "why_tests_cant": "as C12", "anchors": ["fpdf.go: newobj, putpages, putresources, putinfo, putcatalog, puttrailer"]}
{"id": "C14", "title": "Stream Length equals the number of bytes in the stream", "statement": "For every page, font, image, template, attachment and metadata stream the Length entry equals the number of bytes between the stream and endstream keywords, with and without compression and encryption.", "quantifier": "every stream content, every compression result", "why_tests_cant": "data dependent lengths", "anchors": ["fpdf.go: putstream, putpages, putimage, putxmp", "attachments.go: writeCompressedFileObject", "template.go: putTemplates"]}
{"id": "C15", "title": "Page tree lists each page once, in order", "statement": "Kids lists exactly one reference per page in page order, each resolving to a page object whose contents are the content written on that page, and Count is the number of pages.", "quantifier": "every number and format of pages, with or without attachments, links and templates", "why_tests_cant": "all page counts and histories", "anchors": ["fpdf.go: putpages, AddPageFormat, beginpage, PageCount"]}
{"id": "C16", "title": "Internal links and bookmarks point at the page the caller named", "statement": "The destination written for an internal link or bookmark to page p is the object of page p.", "quantifier": "every document history with internal links or bookmarks, attachments included", "why_tests_cant": "depends on all objects written before the pages", "anchors": ["fpdf.go: putpages (annotation Dest), putbookmarks, putcatalog (OpenAction)", "attachments.go: putAttachments"]}
{"id": "C17", "title": "Bookmarks form the outline tree the caller described", "statement": "For a sequence of bookmarks whose level starts at 0 and increases by at most one, each item's parent is the nearest earlier item with the next lower level (the root for level 0), prev/next link the siblings in order, and first/last of each parent are its first and last child.", "quantifier": "every well-formed bookmark sequence of any length and depth", "why_tests_cant": "unbounded trees; stack-like bookkeeping with a level-indexed table", "anchors": ["fpdf.go: Bookmark, putbookmarks"]}
{"id": "C18", "title": "Life cycle of a document", "statement": "Whatever sequence of AddPage, SetPage, Close and Output calls is made: Close with no pages produces one page, Close is idempotent, nothing is appended after Close, Output closes first and then writes the whole document once.", "quantifier": "every call history", "why_tests_cant": "histories are unbounded", "anchors": ["fpdf.go: Close, Output, AddPageFormat, SetPage, open, endpage, enddoc"]}
{"id": "C19", "title": "The first error wins", "statement": "Once an error is recorded it is the error reported by Error(), Output and OutputFileAndClose until ClearError; later calls do not replace it.", "quantifier": "every history of API calls after the first error", "why_tests_cant": "all call histories and all methods", "anchors": ["fpdf.go: SetError, SetErrorf, Ok, Err, Error", "fpdftrans.go", "fpdf.go: SetPageBoxRec, AddFont, RegisterImageOptionsReader"]}
{"id": "C20", "title": "No document is written after an error", "statement": "If an error was recorded at any time before or during Output, Output writes no bytes and returns the error.", "quantifier": "every history ending in Output, with an error at any point including while the document is assembled", "why_tests_cant": "error may come at any point of assembly", "anchors": ["fpdf.go: Output, Close, enddoc, putresources"]}
{"id": "C21", "title": "Graphics state save/restore operators are balanced", "statement": "In a document Output writes without error every q written by clipping and transformation calls has its Q, properly nested, with Q never before q; an unbalanced ClipEnd/TransformEnd or an unclosed context at Close is an error.", "quantifier": "every sequence of clip, transform and drawing calls", "why_tests_cant": "all interleavings", "anchors": ["fpdf.go: ClipRect/ClipText/ClipRoundedRect/ClipEllipse/ClipPolygon/ClipEnd, Close, RoundedRect", "fpdftrans.go: TransformBegin/Transform/TransformEnd"]}
{"id": "C22", "title": "Layer marked-content sections are balanced", "statement": "On every page the BDC and EMC operators written by BeginLayer/EndLayer and page ends are balanced and not nested, and name an existing layer.", "quantifier": "every sequence of layer and page calls", "why_tests_cant": "all interleavings", "anchors": ["layer.go: BeginLayer, EndLayer, layerEndDoc", "fpdf.go: endpage"]}
{"id": "C23", "title": "A page break does not change the drawing state", "statement": "After AddPage (explicit or automatic), whatever the header and footer functions did, font family, style, size, underline, line width, draw, fill and text color seen by the next drawing operation are those in force before the break, and the new page's content re-establishes them.", "quantifier": "every state before the break and every header/footer behaviour", "why_tests_cant": "header and footer functions are arbitrary code", "anchors": ["fpdf.go: AddPageFormat"]}
{"id": "C24", "title": "Header and footer run once per page", "statement": "On a document built with AddPage, the header function runs exactly once per page at its start and the footer function exactly once per page at its end, and the footer with last-page indicator is told true for exactly the last page.", "quantifier": "every number of pages, explicit and automatic breaks", "why_tests_cant": "all histories", "anchors": ["fpdf.go: AddPageFormat, Close, SetHeaderFunc*, SetFooterFunc*"]}
{"id": "C25", "title": "Automatic page break", "statement": "A cell or flowing image is moved to a new page exactly when it does not fit above the bottom margin, auto page break is on (or the accept function agrees) and no header or footer is running; the horizontal position and word spacing survive the break.", "quantifier": "every position, height and mode", "why_tests_cant": "continuous positions, all modes", "anchors": ["fpdf.go: CellFormat, imageOut, SetAutoPageBreak, SetAcceptPageBreakFunc"]}
{"id": "C26", "title": "Cursor movement", "statement": "SetX/SetY/SetXY with a negative argument count from the right/bottom edge, Ln returns to the left margin and moves down by its argument or by the last cell height, CellFormat leaves the cursor right of, below or at the next line of the cell as ln says.", "quantifier": "every position, page size and margin", "why_tests_cant": "continuous domain", "anchors": ["fpdf.go: SetX, SetY, SetXY, SetHomeXY, Ln, CellFormat, SetMargins, SetLeftMargin"]}
{"id": "C27", "title": "Alias substitution", "statement": "Each occurrence of a registered alias in the content of any page is replaced by its replacement when the document is closed and everything else is unchanged; the {nb} alias is replaced by the number of pages.", "quantifier": "every page content, alias and replacement", "why_tests_cant": "all texts; overlapping aliases", "anchors": ["fpdf.go: RegisterAlias, AliasNbPages, replaceAliases"]}
{"id": "C28", "title": "RGB color components are clamped and reported back", "statement": "SetDrawColor/SetFillColor/SetTextColor with any integers use each component clamped to 0..255; the getters return the clamped components; gray output is used exactly when the three are equal.", "quantifier": "every triple of integers", "why_tests_cant": "infinite domain", "anchors": ["fpdf.go: colorComp, rgbColorValue, SetDrawColor, GetDrawColor and siblings"]}
{"id": "C29", "title": "Spot colors", "statement": "AddSpotColor gives each new name the next id, refuses a second definition, clamps components to 0..100; SetDrawSpotColor/SetFillSpotColor/SetTextSpotColor select that color for subsequent drawing, filling and text, and an undefined name is an error that leaves the colors unchanged.", "quantifier": "every sequence of definitions and selections", "why_tests_cant": "all histories", "anchors": ["spotcolor.go"]}
{"id": "C30", "title": "Transparency states", "statement": "SetAlpha with an alpha in [0,1] and a valid blend mode selects a graphics state that has exactly that alpha and mode; equal requests share a state; invalid values are an error that changes nothing; the document lists one graphics state object per distinct request.", "quantifier": "every sequence of SetAlpha calls", "why_tests_cant": "all histories", "anchors": ["fpdf.go: SetAlpha, putBlendModes, putresourcedict"]}
{"id": "C31", "title": "Links", "statement": "AddLink returns a fresh id each time, SetLink changes only that id's destination, and every Link/LinkString region is recorded on the page where it was called with its own rectangle.", "quantifier": "every sequence of link calls", "why_tests_cant": "all histories", "anchors": ["fpdf.go: AddLink, SetLink, newLink, Link, LinkString"]}
{"id": "C32", "title": "Attachments are embedded", "statement": "Every attachment given to SetAttachments or AddAttachmentAnnotation appears in every document written with it, embedded once per document with its content, length and checksum.", "quantifier": "every sequence of documents and attachments, shared or not", "why_tests_cant": "aliasing across documents", "anchors": ["attachments.go"]}
{"id": "C33", "title": "Encrypted streams and strings decrypt to the original", "statement": "With SetProtection, applying the standard security handler's decryption (RC4, 40 bit, key from object number) to any stream or string of the file returns the original bytes.", "quantifier": "every key, object number and byte string; any number of strings in an object", "why_tests_cant": "all data; cipher state carried between strings of an object", "anchors": ["protect.go: rc4, objectKey", "fpdf.go: putstream, textstring"]}
{"id": "C34", "title": "Password verification data", "statement": "A reader that follows the standard security handler (revision 2) accepts the user password, recovers the user password from the owner password, and reads the permissions the caller asked for.", "quantifier": "every password pair and permission byte", "why_tests_cant": "all passwords of any length", "anchors": ["protect.go: setProtection, generateEncryptionKey, userPass, ownerPass, padding"]}
{"id": "C35", "title": "Deterministic output on request", "statement": "With SetCatalogSort(true) and fixed dates, two runs of the same program write the same bytes whatever order the runtime iterates maps in.", "quantifier": "every document history and every pair of map iteration orders", "why_tests_cant": "iteration order is chosen by the runtime", "anchors": ["fpdf.go: putimages, putfonts, putresourcedict, putTemplates users", "spotcolor.go", "util.go: keySortStrings, keySortInt"]}
{"id": "C36", "title": "PNG alpha separation", "statement": "For a PNG with alpha, the color stream and mask stream obtained hold, row by row, the filter byte followed by the color samples, respectively the alpha samples, of the original, for gray and RGB; so a reader that undoes the PNG filters of the two streams gets the color and the alpha of every pixel of the original.", "quantifier": "every width, height, filters, pixel content and division into chunks", "why_tests_cant": "all sizes and contents", "anchors": ["png.go: parsepngstream"]}
{"id": "C37", "title": "Templates are written after the templates they use", "statement": "The order in which templates are written lists each template reachable from the page exactly once and each after the templates it includes.", "quantifier": "every acyclic template graph and every map order", "why_tests_cant": "all graphs", "anchors": ["template.go: sortTemplates, templateChainDependencies, putTemplates"]}
{"id": "C38", "title": "Font selection", "statement": "SetFont with any order and case of the letters B, I, U, S and any case of the family selects the same font; Courier, Helvetica (also called Arial), Times, Symbol and ZapfDingbats select the standard font of that name; a font added under a family and style is selected by them and by no other name; underline and strike-out follow the style string; an undefined font is an error that leaves the current font unchanged.", "quantifier": "every family and style string, font table and state", "why_tests_cant": "all strings", "anchors": ["fpdf.go: SetFont", "SetFontStyle", "AddFont", "getFontKey", "fontFamilyEscape"]}
{"id": "C39", "title": "TrueType table checksums", "statement": "The checksum computed for a table is the sum of its big-endian 32-bit words modulo 2^32, and the whole-file adjustment written to head makes the file sum to 0xB1B0AFBA.", "quantifier": "every byte string", "why_tests_cant": "arithmetic with carries over all data", "anchors": ["utf8fontfile.go: generateChecksum, calcInt32, assembleTables"]}
{"id": "C40", "title": "Subset character map", "statement": "The cmap written in a subset font maps each used character to the glyph number it was assigned and every other character to the missing glyph.", "quantifier": "every finite character to glyph map", "why_tests_cant": "delta/range encoding over all maps", "anchors": ["utf8fontfile.go: generateCMAPTable"]}
{"id": "C41", "title": "Widths array of a UTF-8 font", "statement": "The W array written for a composite font, decoded by the PDF rules, gives every used character its width and nothing wrong for the others.", "quantifier": "every set of used characters and every width table", "why_tests_cant": "run-length and range merging state machine over unbounded data", "anchors": ["fpdf.go: generateCIDFontMap", "util.go: untypedKeyMap, arrayMerge"]}
{"id": "C42", "title": "SVG path absolutization", "statement": "For every path, the absolute segments computed draw the same geometry as the relative ones under the SVG rules for the supported commands.", "quantifier": "every segment list", "why_tests_cant": "unbounded paths", "anchors": ["svgbasic.go: absolutizePath, pathParse"]}
{"id": "C43", "title": "Basic HTML tokenizer", "statement": "The token list contains every character of text outside tags in order, each tag with its attributes once, and no token is invented; style levels return to their start after balanced tags.", "quantifier": "every input string", "why_tests_cant": "all strings", "anchors": ["htmlbasic.go: HTMLBasicTokenize, Write"]}
{"id": "C44", "title": "Grid coordinate maps", "statement": "The axis maps send the data range to the drawing range linearly, with the ends at the ends, and inverse maps invert; tick marks cover the data range and are evenly spaced.", "quantifier": "every nondegenerate range", "why_tests_cant": "continuous domain", "anchors": ["grid.go: linear, linearTickmark, NewGrid, X, Y, Wd, Ht", "label.go: Tickmarks, niceNum"]}
{"id": "C45", "title": "CompareBytes detects every difference", "statement": "CompareBytes returns nil exactly when the two byte strings are equal; ComparePDFs does the same for what two readers deliver; ComparePDFFiles returns nil exactly when the first file is read and the second is missing or holds the same bytes.", "quantifier": "every pair of byte strings, of readers and of files, with every error of reading", "why_tests_cant": "all lengths and positions of difference", "anchors": ["compare.go: CompareBytes", "compare.go: ComparePDFs", "compare.go: ComparePDFFiles"]}
{"id": "C46", "title": "Transformations have the stated geometry", "statement": "TransformScale/Rotate/Mirror/Skew about (x,y) leave (x,y) fixed; the matrix emitted acts as the named transformation in page coordinates, for every angle, factor and center.", "quantifier": "every center, factor, angle and page height", "why_tests_cant": "continuous domain", "anchors": ["fpdftrans.go"]}
{"id": "C47", "title": "Image size and place", "statement": "An image placed with one dimension zero keeps its aspect ratio; with both zero it is rendered at 96 dpi; a dimension of -1 uses the resolution of the image and another negative dimension is a resolution in dpi; the image fills exactly the rectangle with its upper left corner at the position given.", "quantifier": "every image, every pair of dimensions, unit and resolution", "why_tests_cant": "real arithmetic over all arguments", "anchors": ["fpdf.go: imageOut", "def.go: Width", "def.go: Height"]}
{"id": "C48", "title": "Cursor, size and style are restored by SubWrite", "statement": "After SubWrite the font size and the baseline are those in force before it.", "quantifier": "every position, size and offset", "why_tests_cant": "continuous domain", "anchors": ["subwrite.go"]}
{"id": "C49", "title": "Units", "statement": "PointConvert/PointToUnitConvert and UnitToPointConvert are inverse, and page size options given by any unit produce the same page in points.", "quantifier": "every unit and value", "why_tests_cant": "continuous domain", "anchors": ["fpdf.go: PointConvert, UnitToPointConvert, fpdfNew"]}
{"id": "C50", "title": "TrueType subset file directory", "statement": "The table directory written for a subset font lists the tables in order with offsets and lengths under which each table's bytes are found in the file, each aligned to four bytes.", "quantifier": "every set of tables with any contents", "why_tests_cant": "data dependent offsets", "anchors": ["utf8fontfile.go: assembleTables"]}
{"id": "C51", "title": "Template pages and nesting", "statement": "A Template created from drawing calls reports every page drawn; FromPage(k) returns a template with exactly what was drawn on page k for every page there is, and an error otherwise; FromPages lists them in order; UseTemplate draws the template, registers it and everything it depends on (templates at any depth and images), and forgets nothing registered before.", "quantifier": "every template, every sequence of drawing calls, every nesting", "why_tests_cant": "unbounded call sequences and nesting depth", "anchors": ["template.go: UseTemplateScaled", "template_impl.go: newTpl", "template_impl.go: FromPage", "template_impl.go: FromPages"]}
{"id": "C52", "title": "Ordered key map", "statement": "The ordered map used to assemble font width data behaves as a map with insertion order: get after put, overwrite keeps position, delete removes, and other keys are untouched.", "quantifier": "every sequence of operations", "why_tests_cant": "all histories", "anchors": ["util.go: untypedKeyMap"]}
{"id": "C53", "title": "Justified lines fill the width", "statement": "MultiCell with alignment J stretches every automatically broken line that has at least one gap so that the text exactly fills the line, the extra space being divided equally among the gaps.", "quantifier": "every text, width table, width and border", "why_tests_cant": "depends on the rounding of every line width; tests look at a few", "anchors": ["fpdf.go:MultiCell"]}
{"id": "C54", "title": "SplitText predicts MultiCell", "statement": "The lines returned by SplitText for a text and width are the lines MultiCell prints for the same text and width, so that a caller can compute the height of a cell in advance.", "quantifier": "every text, width table and width", "why_tests_cant": "two independent loops with different separators and width conventions must agree on every input", "anchors": ["fpdf.go:MultiCell", "splittext.go:SplitText"]}
{"id": "C55", "title": "Names used in page contents are defined", "statement": "Every font, image, template, transparency state, gradient, layer and spot color that an operator of a page content names is in the tables from which the resource dictionary of the document is written, for every program.", "quantifier": "all programs of API calls, all pages", "why_tests_cant": "a dangling name appears only for particular orders of calls; tests try a few orders", "anchors": ["fpdf.go:SetFont", "fpdf.go:SetFontSize", "fpdf.go:SetAlpha", "fpdf.go:putresourcedict", "fpdf.go:putxobjectdict", "template.go:UseTemplateScaled", "layer.go:BeginLayer", "spotcolor.go:SetDrawSpotColor"]}
{"id": "C56", "title": "Grid lines and plots", "statement": "A grid draws one main line at each tick mark and, between two tick marks, lines that divide the distance in the number of parts asked for, each across the whole graph; Plot joins the points of the function at evenly spaced values from the first to the last value given, and asks the function only for values in that range.", "quantifier": "every grid, subdivision count, range, segment count and function", "why_tests_cant": "continuous data and every count", "anchors": ["grid.go: Grid, Plot"]}
{"id": "C57", "title": "Shapes and paths", "statement": "Line, Rect, RoundedRect, Polygon, Curve, CurveCubic, CurveBezierCubic, Beziergon and the path calls MoveTo, LineTo, CurveTo, CurveBezierCubicTo, ClosePath and DrawPath draw exactly the straight lines and Bezier curves of their documentation through the points given, scaled to points and measured from the bottom of the page, and paint them with the operator the style asks for; documented quadratic curves are quadratic and documented closed figures are closed.", "quantifier": "all coordinates, all lists of points, all sequences of path calls, all styles", "why_tests_cant": "continuous parameters and unbounded sequences; the meaning of the operators is in the PDF standard, not in the program's output", "anchors": ["fpdf.go: Line", "fpdf.go: Rect", "fpdf.go: RoundedRectExt", "fpdf.go: Polygon", "fpdf.go: Curve", "fpdf.go: CurveBezierCubic", "fpdf.go: Beziergon", "fpdf.go: MoveTo", "fpdf.go: DrawPath"]}
{"id": "C58", "title": "Header of the subset character map", "statement": "In the character map of the font subset written to the document the search parameters describe the number of segments and the length field gives the length of the subtable.", "quantifier": "all sets of characters and glyphs", "why_tests_cant": "unbounded sets of characters; font readers that trust the fields need them right for every set", "anchors": ["utf8fontfile.go: generateCMAPTable"]}
{"id": "C59", "title": "PNG without alpha", "statement": "For a PNG without alpha channel the image data, size, depth, color space and palette put in the document are those of the file and the decoding parameters describe the data; the color that the transparency chunk names, and in an image with a palette the entries it makes fully transparent, are masked, and nothing else is.", "quantifier": "every PNG file of the supported kinds", "why_tests_cant": "all sizes, chunk sequences and contents", "anchors": ["png.go: parsepngstream"]}
{"id": "C60", "title": "Damaged PNG files", "statement": "Reading any sequence of bytes as a PNG image ends, and either gives an image or sets the error of the document; it never crashes the program.", "quantifier": "every sequence of bytes", "why_tests_cant": "unbounded input space", "anchors": ["png.go: parsepngstream", "util.go: sliceUncompress"]}
{"id": "C61", "title": "Arcs, ellipses and circles", "statement": "Arc, Ellipse, Circle and ArcTo draw connected curves that start and end at the angles given, measured counter-clockwise from 3 o'clock around the given centre and turned by the given rotation, and never leave a narrow band around the ellipse; ArcTo first draws a line to the start of the arc unless the path is already there and leaves the position at the end of the arc.", "quantifier": "all centres, radii, rotations, start and end angles", "why_tests_cant": "continuous parameters, and nearness must hold at every point of every curve", "anchors": ["fpdf.go: arc", "fpdf.go: Arc", "fpdf.go: ArcTo", "fpdf.go: Ellipse", "fpdf.go: Circle"]}
{"id": "C62", "title": "Every name of the resource dictionary leads to its object", "statement": "When a document is written, its resource dictionary (object 2) lists exactly the fonts, images, templates, transparency states, gradients, layers and spot colors of the document under the names page content uses, and the object each name refers to describes that very resource: the image with its data, color space, palette and soft mask; the font with its widths, encoding, descriptor and embedded program; the template with its content and the names of its own fonts, images and inner templates; the blend mode, gradient, layer name and ink.", "quantifier": "all finished documents whose font files are embedded compressed (or are TrueType), with any number of fonts, images, nested templates and other resources, encrypted or not, any map iteration order", "why_tests_cant": "the references are numbers chosen while writing; whether each is right depends on the whole combination of resources, and unit tests compare a few reference files", "anchors": ["fpdf.go:putresources", "fpdf.go:putresourcedict", "fpdf.go:putxobjectdict", "fpdf.go:putimages", "fpdf.go:putimage", "fpdf.go:putfonts", "template.go:putTemplates", "layer.go:layerPutLayers", "spotcolor.go:putSpotColors"]}
{"id": "C63", "title": "Each page object says exactly what was set for the page", "statement": "In the file written by Output, the page tree carries the default page size, and the object of each page carries its own size if it was given one, every page box set for it exactly once, and one annotation per link and per attachment annotation of that page, in order, with the given rectangle and the given URI, destination or attached file; a transparency group appears exactly when the file's version is above 1.3.", "quantifier": "every document history with any pages, page sizes, page boxes, links, attachments and protection, for which Output succeeds", "why_tests_cant": "depends on every combination of per-page settings and on the object numbers of everything written before", "anchors": ["fpdf.go: putpages", " AddPageFormat", " SetPageBox", " Link", " LinkString", "attachments.go: putAttachmentAnnotationLinks", " AddAttachmentAnnotation"]}
{"id": "C64", "title": "A cut-down UTF-8 font shows the same glyphs", "statement": "When a UTF-8 font is embedded, the font written contains exactly the glyphs needed to draw the characters used (and the glyphs these are composed of), each once and with the glyph for unknown characters first. Each of them is drawn by the same data, with component references renumbered, and has the same advance width as in the original font; the character map of the new font leads from every character used to its glyph and from every other character to the unknown glyph; the other tables kept are those of the original.", "quantifier": "every well-formed TrueType font, every set of characters used", "why_tests_cant": "glyph closure, renumbering of components, loca format and table patching interact; the claim ranges over all fonts (any number of glyphs, any depth of composition) and all sets of characters", "anchors": ["utf8fontfile.go GenerateCutFont", "utf8fontfile.go parseSymbols", "utf8fontfile.go getSymbols", "utf8fontfile.go getMetrics", "utf8fontfile.go generateSCCSDictionaries", "utf8fontfile.go assembleTables"]}
{"id": "C65", "title": "Cutting a font leaves the font data alone and keeps side bearings", "statement": "Embedding a UTF-8 font does not change the font data kept in memory (so that a second Output and a font shared between documents give the same result), and every glyph of the font written has the left side bearing it has in the original.", "quantifier": "every well-formed TrueType font, every set of characters used", "why_tests_cant": "needs fonts with fewer long metrics than glyphs and composites that reach back to the last long metric; the fault shows only for particular orders of glyphs", "anchors": ["utf8fontfile.go getMetrics", "utf8fontfile.go GenerateCutFont"]}
{"id": "C66", "title": "Embedding a UTF-8 font always ends with a font", "statement": "For every TrueType font whose tables are complete, and every set of characters used, the font written with the document is produced: writing it neither crashes nor runs forever.", "quantifier": "every complete TrueType font, every set of characters", "why_tests_cant": "termination and absence of panics must hold for every font, any depth of composition; the failing fonts have to be crafted", "anchors": ["utf8fontfile.go GenerateCutFont", "utf8fontfile.go getSymbols"]}
{"id": "C67", "title": "Character widths of a UTF-8 font", "statement": "After AddUTF8Font the width used for each character from U+0001 to U+FFFE is the advance width the font's cmap, hmtx and hhea tables give its glyph, in thousandths of the em, rounded to nearest; characters without a glyph have none and fall back on the width of glyph 0.", "quantifier": "every well-formed TrueType font (any tables, any number of glyphs, any character map of format 4), every units-per-em value and every character", "why_tests_cant": "The table is built from binary tables of arbitrary size with a shared last metric; tests check a handful of fonts.", "anchors": ["utf8fontfile.go:parseTables", "utf8fontfile.go:parseHMTXTable", "utf8fontfile.go:generateSCCSDictionaries", "fpdf.go:addFont"]}
{"id": "C68", "title": "Widths in the document agree with the embedded font", "statement": "For every UTF-8 font and every set of characters used in the text, Output does not panic, and for each character the width declared in the W array or DW is the width of the glyph that the CIDToGIDMap selects in the embedded subset font.", "quantifier": "every well-formed TrueType font and every set of characters in use", "why_tests_cant": "The W array, the glyph map and the subset are produced by different code from the same sets; an inconsistency shows only for particular combinations of font and characters.", "anchors": ["fpdf.go:generateCIDFontMap", "fpdf.go:putfonts", "utf8fontfile.go:GenerateCutFont", "utf8fontfile.go:parseHMTXTable"]}
{"id": "C69", "title": "Font descriptor of a UTF-8 font", "statement": "The descriptor of an added UTF-8 font carries the bounding box, ascent, descent, cap height, italic angle, underline and flags of the font's head, hhea, OS/2 and post tables, in thousandths of the em.", "quantifier": "every well-formed TrueType font with or without an OS/2 table", "why_tests_cant": "Each value depends on which tables are present and on table versions; a test fixes one font.", "anchors": ["utf8fontfile.go:parseHEADTable", "utf8fontfile.go:parseHHEATable", "utf8fontfile.go:parseOS2Table", "utf8fontfile.go:parsePOSTTable", "fpdf.go:addFont"]}
{"id": "C70", "title": "Margins and line style", "statement": "GetMargins, GetCellMargin and GetAutoPageBreak return, and the line cap style, line join style and dash pattern used for drawing are, at any point exactly what the latest SetMargins, SetLeftMargin, SetTopMargin, SetRightMargin, SetCellMargin, SetAutoPageBreak, SetLineCapStyle, SetLineJoinStyle and SetDashPattern calls made them, or the defaults of a new document; a negative right margin given to SetMargins stands for the left one. Pages, page breaks, headers, footers, cells, errors and output in between have no influence.", "quantifier": "all programs of API calls, all registered header, footer and page break functions that do not themselves make one of these calls, all arithmetic", "why_tests_cant": "a history of any length with page breaks and registered functions in between; tests try a few", "anchors": ["fpdf.go:SetMargins", "fpdf.go:SetLeftMargin", "fpdf.go:SetTopMargin", "fpdf.go:SetRightMargin", "fpdf.go:SetCellMargin", "fpdf.go:SetAutoPageBreak", "fpdf.go:GetMargins", "fpdf.go:GetCellMargin", "fpdf.go:GetAutoPageBreak", "fpdf.go:SetLineCapStyle", "fpdf.go:SetLineJoinStyle", "fpdf.go:SetDashPattern"]}
{"id": "C71", "title": "Information dictionary and catalog", "statement": "The trailer of a finished file names the information dictionary, which holds exactly the non-empty ones of the producer, title, subject, author, keywords and creator set by the caller and the two dates, and the catalog, whose entries are exactly the display mode, the page layout, the bookmarks, all layers (the hidden ones switched off), the script and the attachments set by the caller; every reference in the catalog leads to the object with that content, no key occurs twice, XMP metadata is referred to, and the attachment names are sorted as a name tree requires.", "quantifier": "all documents, all environments (fonts, images, map iteration orders, compression)", "why_tests_cant": "a test looks at a few documents; the numbers in the catalog depend on everything written before", "anchors": ["fpdf.go:putinfo", "fpdf.go:putcatalog", "fpdf.go:puttrailer", "fpdf.go:putjavascript", "layer.go:layerPutCatalog", "attachments.go:getEmbeddedFiles", "fpdf.go:SetDisplayMode", "fpdf.go:SetXmpMetadata"]}
{"id": "C72", "title": "What a cell draws", "statement": "A cell written with CellFormat shows exactly its background and the border sides asked for, along the edges of the rectangle from the current position with the given width (up to the right margin if zero) and height; nothing for a zero height. Its text, in full and in the order of the writing direction, starts at the inner margin, is centred, or ends at the inner margin, and its character box is at the top, middle or bottom of the cell, or its baseline on the bottom, as the alignment says; underline and strike-out run exactly along the text, the area of a link is exactly the area of the text; text and decorations have the text colour; a justified line fills the cell. Text does the same at a point. Word spacing set by the caller is taken into account.", "quantifier": "every position, page size, scale, font with any widths, size, margins, word spacing, style flags, text, border, alignment, fill and link", "why_tests_cant": "the geometry combines the width of the text, scaling, a flipped axis, two text operators and two encodings over infinitely many texts and sizes; examples compare recorded files and do not read the page as a viewer does", "anchors": ["fpdf.go:CellFormat", "fpdf.go:dounderline", "fpdf.go:dostrikeout", "fpdf.go:Text", "fpdf.go:SetWordSpacing", "fpdf.go:blankCount"]}
{"id": "C73", "title": "Clipping and gradients", "statement": "Whatever is drawn between a ClipXxx call (rectangle, text, rounded rectangle, ellipse, circle, polygon) and its ClipEnd is shown only inside that shape and inside the clips around it, and what is drawn after ClipEnd is not confined by it; LinearGradient and RadialGradient paint exactly their rectangle, with the gradient coordinates (0,0)-(1,1) stretched over it, the colors given (clamped to 0..255), within the open clips; all at the requested place up to the rounding of printed numbers, also under nested transformations.", "quantifier": "all drawings: all nestings of clips, transformations, gradients and shapes, all coordinates, radii, colors and texts", "why_tests_cant": "tests compare a few sample files; nesting depth, coordinates and the interplay of clips, gradients and transformations are unbounded", "anchors": ["fpdf.go:ClipRect", "fpdf.go:ClipText", "fpdf.go:ClipRoundedRectExt", "fpdf.go:ClipEllipse", "fpdf.go:ClipPolygon", "fpdf.go:ClipEnd", "fpdf.go:LinearGradient", "fpdf.go:RadialGradient", "fpdf.go:gradient", "fpdftrans.go:Transform"]}
{"id": "C74", "title": "Reading font metrics", "statement": "TtfParse returns for every well formed TrueType font what is in the font's tables: units per em, box, PostScript name, whether embedding is allowed and the font is bold or of fixed pitch, angle, heights, underline, for every glyph its advance width, and for every character below U+FFFF the glyph that the Windows Unicode map gives it; a character without a glyph is not in the map.", "quantifier": "all TrueType font files: any number and order of tables, any number of glyphs, segments of the map and names", "why_tests_cant": "fonts have unboundedly many table layouts, segment arrays and metrics; tests read two sample fonts", "anchors": ["ttfparser.go:TtfParse", "ttfparser.go:ParseCmap", "ttfparser.go:ParseHmtx", "ttfparser.go:ParseName", "ttfparser.go:ParseOS2", "ttfparser.go:ParsePost"]}
{"id": "C75", "title": "Definition of a TrueType font", "statement": "MakeFont writes for every well formed TrueType font and every encoding file a definition with the font's own values in thousandths of the em: name, heights, box, angle, underline, flags, stem width, the width of glyph 0 for missing characters, and for each of the 256 codes the advance width of the glyph of its character (or the missing width if the code is undefined or the font has no such glyph); with embed, the file compressed is the whole font and its size is recorded, and fonts whose license forbids embedding are refused.", "quantifier": "all TrueType fonts, all encoding files, all file names, embedding or not", "why_tests_cant": "fonts and encodings are unbounded; the tests convert one font", "anchors": ["font.go:MakeFont", "font.go:getInfoFromTrueType", "font.go:makeFontDescriptor", "font.go:makeDefinitionFile", "font.go:loadMap", "ttfparser.go:TtfParse"]}
{"id": "C76", "title": "Differences of an encoding", "statement": "The differences MakeFont puts into a font definition, applied by a PDF reader to the reference encoding (cp1252), give for every code from 32 to 255 the glyph name of the chosen encoding, and change no other code.", "quantifier": "all pairs of encodings with glyph names of regular characters", "why_tests_cant": "there are 256 codes with unboundedly many names and 2^224 patterns of runs of differing codes", "anchors": ["font.go:makeFontEncoding", "font.go:loadMap", "font.go:makeDefinitionFile"]}
{"id": "C77", "title": "Definition of a Type1 font", "statement": "MakeFont accepts every binary Type1 font with its Adobe metrics file and writes a definition with the values of the metrics file: name, heights, box, angle, underline, flags, stem width, and for each code the width declared for its glyph name (or that of .notdef); with embed, the data compressed are those of the first two segments, and the segment lengths are recorded.", "quantifier": "all metrics files and fonts of the format, all encodings", "why_tests_cant": "metrics files have any number of lines in any order; the tests convert one font", "anchors": ["font.go:MakeFont", "font.go:getInfoFromType1", "font.go:segmentRead", "font.go:makeFontDescriptor"]}
{"id": "C78", "title": "Registered fonts", "statement": "The first call that registers a face (a family and a bold/italic style, in any spelling) decides: AddFont, AddFontFromBytes, AddFontFromReader, AddUTF8Font and AddUTF8FontFromBytes make exactly the definition they read available to SetFont and GetFontDesc under every spelling of the face, later calls and core fonts never change it or any other face, its encoding differences are the ones its number names, its font file has the lengths of its definition and the contents given, and a call that registers nothing reports an error.", "quantifier": "every history of registration, selection, directory and loader calls; every definition, font file, family and style", "why_tests_cant": "the tables are shared by all fonts and filled in call order; a test fixes the order, the spellings and the file names", "anchors": ["fpdf.go: AddFont", "fpdf.go: AddUTF8Font", "fpdf.go: AddFontFromBytes", "fpdf.go: AddUTF8FontFromBytes", "fpdf.go: AddFontFromReader", "fpdf.go: addFont", "fpdf.go: addFontFromBytes", "fpdf.go: getFontKey", "fpdf.go: loadfont", "fpdf.go: SetFont", "util.go: fontFamilyEscape"]}
{"id": "C79", "title": "Templates survive serialization", "statement": "Serialize followed by DeserializeTemplate gives a template with the same corner, size, pages, current page, identifier and page count, the same images (by the identifiers the pages draw) and, recursively, the same used templates, so drawing it gives the same document.", "quantifier": "every template built by CreateTemplate/CreateTpl/FromPage from any drawing calls, images and nested templates, and every map iteration order", "why_tests_cant": "Tests serialize one or two fixed templates; nesting depth, sharing, image names and map orders are unbounded.", "anchors": ["template.go:CreateTpl", "template.go:DeserializeTemplate", "template_impl.go:FpdfTpl.Serialize", "template_impl.go:FpdfTpl.GobEncode", "template_impl.go:FpdfTpl.GobDecode", "template_impl.go:FpdfTpl.childrenImages", "template_impl.go:FpdfTpl.childrensTemplates", "def.go:ImageInfoType.GobEncode", "def.go:ImageInfoType.GobDecode"]}
{"id": "C80", "title": "Registered images", "statement": "The first successful call that names an image (RegisterImage, RegisterImageOptions, RegisterImageReader, RegisterImageOptionsReader, Image, ImageOptions) decides what the name stands for: the image its contents hold, of the type it says in any case or of the file's extension, with the JPEG data as given. Later calls, other names and other contents never change it; SetDpi changes only the resolution of the image it is called on; Image draws the image of the name as it is then, and everything drawn stays in the document under the same identifier; a call that fails reports an error, registers nothing and draws nothing; no call replaces an earlier error.", "quantifier": "every history of image calls with any names, types, options and contents, and files that change between calls", "why_tests_cant": "the table is shared by all calls and filled in call order; tests fix the order, the names and the files", "anchors": ["fpdf.go: RegisterImageOptionsReader", "fpdf.go: RegisterImageOptions", "fpdf.go: RegisterImage", "fpdf.go: RegisterImageReader", "fpdf.go: ImageOptions", "fpdf.go: Image", "fpdf.go: GetImageInfo", "fpdf.go: ImageTypeFromMime", "fpdf.go: parsejpg", "fpdf.go: parsegif", "def.go: SetDpi"]}
{"id": "C81", "title": "Imported pages arrive complete", "statement": "Every object handed over with ImportObjects is in the file exactly under its own number, byte for byte except that each 40-byte place named by ImportObjPos holds the number of the object it refers to; different objects have different numbers; every name given with ImportTemplates is in the resource dictionary with the number of its object; for repeated keys the last value counts; in a protected document the imported streams are encrypted like all others.", "quantifier": "all histories of import calls, all map orders, all documents they are used in", "why_tests_cant": "Go visits maps in random order, so numbers differ from run to run; tests import one file and look at one order.", "anchors": ["fpdf.go:ImportObjects", "fpdf.go:ImportObjPos", "fpdf.go:ImportTemplates", "fpdf.go:putImportedTemplates", "fpdf.go:putxobjectdict", "contrib/gofpdi/gofpdi.go:getTemplateID"]}
{"id": "C82", "title": "Page sizes, orientation and boxes", "statement": "New and NewCustom accept exactly the documented units, orientations and paper names (in any case) and make pages of that paper size; every page of the finished document has the size and orientation asked for when it was added (AddPage: the default; AddPageFormat: its arguments, an unknown orientation being refused as in New; an automatic break: like the page before); GetPageSize reports the current page and PageSize the page named; every page has for each kind the box last set before it was added or while it was current, at the place given; SizeType scaling keeps the proportions; GetFontSize reports the size in points and units.", "quantifier": "all arguments of New, all histories of page calls, all page numbers and box kinds", "why_tests_cant": "Which size a page gets depends on the whole history of sizes, orientations and SetPage calls; tests use a few documents, mostly portrait.", "anchors": ["fpdf.go:fpdfNew", "fpdf.go:AddPageFormat", "fpdf.go:beginpage", "fpdf.go:PageSize", "fpdf.go:GetPageSize", "fpdf.go:SetPageBoxRec", "fpdf.go:getpagesizestr", "fpdf.go:putpages", "util.go:Orientation", "util.go:ScaleBy"]}
{"id": "C83", "title": "A template's resource dictionary defines the names its content uses", "statement": "For every history of calls on documents and templates: every font, image, template, transparency state, gradient, layer and spot color that the content of a template names is in the resource dictionary written with that template, and the images among them are written in the document that uses the template.", "quantifier": "all histories of calls on any number of documents, templates and templates in templates, all pages of all templates", "why_tests_cant": "the dictionary and the content are built by different functions at different times; whether a name dangles depends on the order of creation, registration and use over the whole history", "anchors": ["template.go:UseTemplateScaled", "template.go:putTemplates", "template_impl.go:newTpl", "template_impl.go:loadParamsFromFpdf", "fpdf.go:SetAlpha", "spotcolor.go:SetFillSpotColor"]}
{"id": "C84", "title": "What the caller sets is what the file says", "statement": "After any history of SetProducer, SetTitle, SetSubject, SetAuthor, SetKeywords, SetCreator, SetDisplayMode, SetCreationDate, SetModificationDate, SetCompression, SetCatalogSort, SetJavascript and the SetDefault functions, a reader of the written file finds in the information dictionary exactly the text of the last call for each field (Unicode text if isUTF8, the bytes otherwise), the dates of the last call or default or the present, the view of the last SetDisplayMode, and the last script; a call that is refused changes nothing.", "quantifier": "all histories of these calls before and after New, all strings and dates, all documents", "why_tests_cant": "last-call-wins and the round trip through UTF-16, escaping and the dictionary must hold for every order of calls and every text", "anchors": ["fpdf.go:SetTitle", "fpdf.go:SetDisplayMode", "fpdf.go:SetCreationDate", "fpdf.go:SetDefaultCreationDate", "fpdf.go:SetJavascript", "fpdf.go:putinfo", "fpdf.go:putcatalog"]}
{"id": "C85", "title": "Aligned flowing text", "statement": "WriteAligned prints every visible character of the text, leaves the margins as they were, and puts each line of the text on a row of its own, aligned left, centred or right in the box of the given width that begins at the left margin.", "quantifier": "all texts, widths, alignments, fonts and cursor positions", "why_tests_cant": "line breaking, the moved margins and the flow of Write interact for every combination of widths", "anchors": ["fpdf.go:WriteAligned", "fpdf.go:Write", "fpdf.go:SplitLines", "fpdf.go:SetLeftMargin"]}
{"id": "C86", "title": "The caller's data is left alone", "statement": "After Output the byte slices given to a document (zFileBytes of AddFontFromBytes, SetXmpMetadata, attachment contents, template bytes, images inside templates, ImportObjects) hold what they held before, so that the same data serves any number of documents, one after another or at the same time, and each of them is the document it would be alone.", "quantifier": "all settings (protection, compression), all data, any number of documents and every interleaving of the steps of their Output", "why_tests_cant": "a test produces one document, or two in a fixed order, from a few inputs; damage to shared arrays shows only in a later document, and a race only under some schedules", "anchors": ["fpdf.go:putstream", "protect.go:rc4", "fpdf.go:putfonts", "fpdf.go:putimage", "template.go:putTemplates", "fpdf.go:putImportedTemplates", "fpdf.go:putxmp", "attachments.go:writeCompressedFileObject"]}
{"id": "C87", "title": "What is set is read back", "statement": "The getters (GetMargins, GetAutoPageBreak, GetCellMargin, GetXY, GetDrawColor, GetFillColor, GetTextColor, the spot color getters, GetLineWidth, GetAlpha, GetFontSize) return what the last call that sets the value gave - colour components bounded to 0..255, tints of inks to 100, negative positions counted from the other edge, a negative right margin meaning the left one, sizes converted between points and units - whatever other setters were called before or after.", "quantifier": "all histories of setter calls, all values", "why_tests_cant": "a test sets a value and reads it at once; interference between setters appears only in particular histories", "anchors": ["fpdf.go:SetMargins", "fpdf.go:GetMargins", "fpdf.go:SetLeftMargin", "fpdf.go:SetAutoPageBreak", "fpdf.go:SetX", "fpdf.go:SetY", "fpdf.go:SetXY", "fpdf.go:SetHomeXY", "fpdf.go:SetDrawColor", "fpdf.go:SetAlpha", "fpdf.go:SetFontUnitSize", "spotcolor.go:returnSpotColor", "spotcolor.go:AddSpotColor"]}
{"id": "C88", "title": "Interrupted output", "statement": "Output, OutputAndClose and OutputFileAndClose report no error exactly when their writer or file has received the whole document, whatever byte the writer fails at; otherwise it has received the beginning of the document and nothing else. A failed attempt leaves other files and, if nothing was written, the old file as they were, and can be repeated.", "quantifier": "all documents, all writers (any number of bytes taken, any error, at any call), all histories of output calls with errors set and cleared in between", "why_tests_cant": "tests write to memory or to a healthy disk; the byte at which a writer fails, and what was called before, range over infinitely many cases", "anchors": ["fpdf.go:Output", "fpdf.go:OutputAndClose", "fpdf.go:OutputFileAndClose", "fpdf.go:Close"]}
{"id": "C89", "title": "No text crashes the program", "statement": "Printing, splitting or measuring a text never crashes the program, whatever the text and the current font: a call returns or sets the error of the document.", "quantifier": "every font (single byte or UTF-8, every width table, none selected), every text and width, each of SplitLines, SplitText, MultiCell, Write and GetStringWidth", "why_tests_cant": "a crash depends on one character in an unbounded text and on the size of the font's table", "anchors": ["fpdf.go: GetStringSymbolWidth", "fpdf.go: SplitLines", "fpdf.go: MultiCell", "fpdf.go: write", "splittext.go: SplitText"]}
{"id": "C90", "title": "An independent reader gets the pages back", "statement": "A reader that knows nothing but the bytes of a finished file - it follows startxref, the cross-reference table, the trailer, the catalog, the page tree, the page dictionaries and the stream lengths, and passes over strings and inner dictionaries - recovers the content of every page up to the current one, in order, compressed or not, encrypted or not, whatever links, boxes, attachments and metadata the document has.", "quantifier": "every finished document of a size below 10^10 bytes (any pages, sizes, boxes, links, attachments, compression, encryption), every compression with an inverse", "why_tests_cant": "a delimiter or a key in a link address, an attachment's description or binary data may mislead a reader; tests open a few files in a few viewers", "anchors": ["fpdf.go: putpages", "fpdf.go: putcatalog", "fpdf.go: puttrailer", "fpdf.go: enddoc", "fpdf.go: putstream", "fpdf.go: put", "fpdf.go: outf"]}
{"id": "C91", "title": "An independent reader gets the metadata back", "statement": "The reader of C90, following the trailer to the information dictionary, finds for each of producer, title, subject, author, keywords and creator exactly the bytes that were set, no entry where nothing was set, and the two dates - whatever delimiters, parentheses, line ends or names of other entries the values contain, and whether or not the document is protected.", "quantifier": "every finished document below 10^10 bytes and all values of the eight entries", "why_tests_cant": "a value may look like the end of its string or like another entry; tests set ordinary titles", "anchors": ["fpdf.go: putinfo", "fpdf.go: textstring", "fpdf.go: escape", "fpdf.go: puttrailer", "fpdf.go: SetTitle", "fpdf.go: SetAuthor"]}
{"id": "C92", "title": "An independent reader gets the bookmarks back", "statement": "The reader of C90, going from the catalog to the outline and following the first-child and next-sibling links with decryption of the titles, gets exactly the bookmarks that were added, in their order, each with its level and its text; none is lost, repeated or moved below another one; without bookmarks there is no outline.", "quantifier": "every finished document below 10^10 bytes and every sequence of bookmarks with any levels and texts", "why_tests_cant": "the links are computed from the whole sequence of levels; a test checks a sequence or two", "anchors": ["fpdf.go: Bookmark", "fpdf.go: putbookmarks", "fpdf.go: putcatalog", "fpdf.go: textstring", "fpdf.go: puttrailer"]}
{"id": "C93", "title": "Code page maps are read from text", "statement": "For every map text with one line per entry (byte, character and glyph name, in upper or lower case hexadecimal digits, with LF or CR LF line ends), the translator is made without error and maps every text character by character: ASCII to itself, a character listed for a byte of the upper half to the byte of its last entry, every other to a period. A descriptor name is looked up among the embedded maps first and in the font directory next, cp1252 if empty; a file that cannot be opened is reported and nothing is translated; every entry of a map counts.", "quantifier": "every list of entries, both line ends, every text, every set of embedded maps and files", "why_tests_cant": "map files and texts are unbounded; tests use the maps of the package", "anchors": ["util.go: UnicodeTranslator", "util.go: UnicodeTranslatorFromFile", "util.go: UnicodeTranslatorFromDescriptor", "util.go: repClosure"]}
{"id": "C94", "title": "An independent reader extracts the attachments", "statement": "A program that knows only the bytes of the output and follows the PDF structure (cross-reference table, trailer, catalog, tree of embedded files, file specifications, embedded streams) finds every file given to SetAttachments, in order, under its file name and with exactly its content, after decompression and, in a protected document, decryption with the document's key.", "quantifier": "every finished document: all lists of attachments with arbitrary names and contents (including ones that hold PDF delimiters and the keys the reader looks for), pages, fonts, images, layers, bookmarks and metadata, with and without protection", "why_tests_cant": "the reader has to find its way through every possible document around the attachments; tests compare a few outputs with reference files and never extract a file", "anchors": ["attachments.go:writeCompressedFileObject", "attachments.go:embed", "attachments.go:getEmbeddedFiles", "fpdf.go:putcatalog"]}
{"id": "C95", "title": "An independent reader gets the size and the boxes of every page", "statement": "A program that knows only the bytes of the output finds, for every page in order, the media box with the size of that page (its own, or the default one inherited from the page tree) and exactly the crop, bleed, trim and art boxes set for it, with their printed coordinates, and no others.", "quantifier": "every finished document: all pages with arbitrary sizes, boxes, links, attachments and content, every order in which Go may iterate over the map of boxes, with and without protection, and each of the five box names", "why_tests_cant": "the reader has to find its way through every possible page dictionary, link address and attachment text; tests compare whole files of a few examples with references", "anchors": ["fpdf.go:putpages", "fpdf.go:SetPageBoxRec", "fpdf.go:beginpage", "fpdf.go:putAnnotationsLinks"]}
{"id": "C96", "title": "An independent reader gets the links of every page", "statement": "A program that knows only the bytes of the output finds on every page exactly the links put there, in order, each with its rectangle and with the address, or the number of the page and the position, it was given.", "quantifier": "every finished document: all pages with arbitrary links, addresses (any bytes), boxes and content, all targets among its pages", "why_tests_cant": "the reader has to find its way through every possible address text and every number of pages and objects; tests compare whole files of a few examples with references", "anchors": ["fpdf.go:putpages", "fpdf.go:newLink", "fpdf.go:AddLink", "fpdf.go:SetLink", "attachments.go:putAttachments"]}
