{"id": "C01", "title": "Serialised PDF objects read back as the same value", "statement": "The bytes the PDF writer emits for any object value (integers, decimal reals, names, strings, arrays, dictionaries including chained ones, references, the alpha graphics-state dictionary) are read by a reader that follows ISO 32000-1 section 7.3 as exactly the same value, and the reader stops exactly at the end of the emitted bytes whatever follows. The side conditions are precisely the ones named in C02 (no '#' escape inside names), C03 (no CR inside literal strings) and C04 (reals not in exponent notation).", "quantifier": "every object value of any nesting depth and size; every continuation of the output", "why_tests_cant": "Objects nest without bound and the separators between tokens matter only for particular neighbours; finitely many samples cannot show unambiguity of the whole output language.", "anchors": ["victor/src/pdf/object.rs: Object::write, Dictionary::write, Dictionary::write_pairs, write_name, write_hex, KIND"]}
{"id": "C02", "title": "Exactly which PDF names survive", "statement": "A name object written by the PDF writer is read back unchanged if and only if the name contains no '#' followed by two hexadecimal digits. In particular every name without '#' survives (spaces, delimiters and NUL are escaped), and there are names (such as 'A#42') for which a reader sees a different name.", "quantifier": "every byte string used as a name (dictionary keys, font names, resource names)", "why_tests_cant": "A font's PostScript name is arbitrary input; tests only try clean names, so the missing escape of '#' is never seen.", "anchors": ["victor/src/pdf/object.rs: write_name, KIND"]}
{"id": "C03", "title": "PDF strings carry arbitrary bytes", "statement": "A hexadecimal string object is read back as exactly the bytes it was made from; a literal string object is read back as its bytes with every end-of-line sequence (CR, CRLF) turned into LF, hence unchanged if and only if it contains no CR. Unbalanced parentheses and backslashes are always preserved.", "quantifier": "every byte string", "why_tests_cant": "Escaping bugs show only on particular byte adjacencies.", "anchors": ["victor/src/pdf/object.rs: Object::write (LiteralString, HexString), write_hex"]}
{"id": "C04", "title": "PDF reals are PDF numbers", "statement": "A finite decimal value is written as a token a PDF reader accepts as a real number of exactly that value if and only if its decimal exponent lies in the range where the number formatter prints plain decimals (1e-6 <= |x| < 1e21, or zero); outside, exponent notation is emitted, which is not PDF syntax.", "quantifier": "every finite decimal value (sign, digits, exponent)", "why_tests_cant": "Only extreme magnitudes (very small coordinates produced by rounding, very large ones) reach the failing branch.", "anchors": ["victor/src/pdf/object.rs: Object::write (Float via dtoa)"]}
{"id": "C05", "title": "Streams deliver their exact contents", "statement": "A stream added to a document is read back, using its dictionary's Length, as exactly the bytes given, whatever they are (including text that looks like 'endstream' or 'endobj'), and its dictionary as the given entries followed by Length.", "quantifier": "every stream dictionary and every content byte string", "why_tests_cant": "Contents are arbitrary binary data (fonts); delimiters inside the data only matter for rare inputs.", "anchors": ["victor/src/pdf/syntax.rs: PdfFile::add_stream"]}
{"id": "C06", "title": "Every cross-reference entry points at its object", "statement": "In every generated file smaller than 4 GiB, starting from the end of the file a reader finds startxref, the cross-reference table and the trailer; the table has exactly one 20-byte entry per object number 0..Size-1, and the entry for object n is the exact byte offset at which 'n 0 obj' begins, followed by the object's bytes and 'endobj'. Every file, of any size, starts with the version and a comment of four bytes that are not ASCII.", "quantifier": "every history of streams, dictionaries and raw objects added to a document, of any number and size (total below 2^32 bytes)", "why_tests_cant": "Offsets depend on the lengths of everything before; off-by-one errors can cancel on small samples.", "anchors": ["victor/src/pdf/syntax.rs: PdfFile::write, itoa_zero_padded, CountingWrite"]}
{"id": "C07", "title": "Object numbers are unique and denote what was added", "statement": "Each addition to a document returns an object number never returned before and distinct from the reserved page tree, catalog and info numbers, and in the file finally written that number denotes exactly the object that addition supplied, whatever is added afterwards.", "quantifier": "every sequence of additions, every later continuation, every final write", "why_tests_cant": "Needs all histories: ids are implicit positions, so any reordering or skipped id corrupts references made earlier.", "anchors": ["victor/src/pdf/syntax.rs: add_stream, add_dictionary, add_indirect_object, write"]}
{"id": "C08", "title": "Files of 4 GiB and more get wrong offsets", "statement": "The 4 GiB bound in C06 is necessary: there are documents for which the written cross-reference offset of an object differs from the position of that object (offsets are truncated to 32 bits) and no error is reported.", "quantifier": "existence of a document, proved symbolically", "why_tests_cant": "A test would have to write more than 4 GiB.", "anchors": ["victor/src/pdf/syntax.rs: PdfFile::write (bytes_written as u32)"]}
{"id": "C09", "title": "The page tree lists the pages in order", "statement": "After any history of pages being created, drawn on (including calls that fail) and closed, the written page tree's Count equals the number of closed pages, its Kids are references to distinct page objects in the order of closing, each of which has Type Page, Parent the page tree, Contents a stream holding exactly the operations of that page, and a MediaBox that starts at 0 0 and whose width and height, read as f32, are the f32 nearest to three quarters of the f32 nearest to those asked for.", "quantifier": "every history of page creations and drawing calls", "why_tests_cant": "Needs all interleavings of shared-resource creation (fonts, alpha states) with page objects.", "anchors": ["victor/src/pdf/convert.rs: InProgressDoc::write, Drop for InProgressPage, InProgressPage::new", "victor/src/pdf/mod.rs: Document::add_page, write_to_pdf"]}
{"id": "C10", "title": "A content stream draws exactly what was asked", "statement": "Interpreting a page's content stream with the PDF imaging model (initial graphics state, operators cm rg gs re f BT ET Tf Tm Tj) paints exactly the sequence of rectangles and text runs requested through the API, in order, each with the requested geometry, the colour of the last colour request before it (black opaque initially), the requested font and exactly the requested glyph codes; the writer's elision of redundant colour operators is never observable. Opacity is the requested opacity clamped to [0,1] up to at most 1/64000.", "quantifier": "every sequence of colour, rectangle and text calls on every page of every document", "why_tests_cant": "The elision of redundant state changes depends on the whole history of calls.", "anchors": ["victor/src/pdf/convert.rs: set_color, set_alpha, paint_rectangle, show_text, op!"]}
{"id": "C11", "title": "Every resource name used is defined, once, correctly", "statement": "In the written document, every font or graphics-state name used by a page's content stream is a key of the inherited Resources dictionary; keys are pairwise distinct; a font name denotes the font object created for that very font; the same font object is embedded at most once, and two different fonts never share a name.", "quantifier": "every history of drawing calls over all pages, with any set of fonts, including failing ones", "why_tests_cant": "Name allocation is shared over pages and depends on the history, including failed additions.", "anchors": ["victor/src/pdf/convert.rs: add_font, set_alpha, InProgressDoc::write"]}
{"id": "C12", "title": "The text-extraction map of an embedded font is complete", "statement": "The ToUnicode CMap written for a font, read by a CMap reader, contains exactly the (glyph, character) pairs enumerated from the font, in order, in blocks whose declared count matches and never exceeds 100; characters outside the BMP are written as UTF-16 surrogate pairs that decode to the character.", "quantifier": "every list of (character, glyph) pairs", "why_tests_cant": "Block boundaries at multiples of 100 and supplementary-plane characters are rare in samples.", "anchors": ["victor/src/pdf/convert.rs: add_font (write_bfchar)"]}
{"id": "C13", "title": "Font reading never leaves the file", "statement": "Whatever the bytes, every primitive read of a font file either returns the big-endian value of the bytes at that very position or one of the two out-of-range errors; it succeeds exactly when the position plus the size of the value lies within the file.", "quantifier": "every byte string, every position, every field type", "why_tests_cant": "Memory safety against hostile fonts must hold for all files.", "anchors": ["victor/src/fonts/parsing.rs: Position::read_from, byte_arrays!, Slice::read_from", "proc-macros/src/lib.rs: derive SfntTable"]}
{"id": "C14", "title": "Binary search finds what is there", "statement": "Over any sequence on which the comparison is monotone (Less, then Equal, then Greater), the search returns an index whose comparison is Equal if one exists and none otherwise; it always terminates, probes only indices below the size, and for any comparison whatsoever an index it returns compares Equal.", "quantifier": "every size, every comparison function including failing ones", "why_tests_cant": "Boundary errors show only for particular sizes and positions.", "anchors": ["victor/src/fonts/parsing.rs: binary_search, Slice::binary_search_by_key"]}
{"id": "C15", "title": "Tables are found by tag", "statement": "In a font whose table directory is sorted by tag, looking up a table succeeds exactly when an entry with that tag exists and yields that entry's offset.", "quantifier": "every table directory, every tag", "why_tests_cant": "The number and order of tables vary over fonts.", "anchors": ["victor/src/fonts/mod.rs: find_table"]}
{"id": "C16", "title": "Character lookup in format 4 maps follows the OpenType definition", "statement": "For every well-formed format 4 character map (segments sorted and disjoint, offsets in range) and every code point, the glyph found is the one the OpenType specification assigns: none outside all segments or above U+FFFF, (code + idDelta) mod 65536 when idRangeOffset is zero, otherwise the glyph array entry plus idDelta mod 65536, zero meaning missing.", "quantifier": "every format 4 table, every code point", "why_tests_cant": "65536 code points times all tables.", "anchors": ["victor/src/fonts/cmap.rs: Format4::parse, get, glyph_id"]}
{"id": "C17", "title": "Character lookup in format 12 maps follows the OpenType definition", "statement": "For every format 12 map with sorted disjoint groups and every code point, the glyph found is startGlyphID + (code - startCharCode) for the group containing it when that fits in 16 bits and none otherwise.", "quantifier": "every format 12 table, every code point", "why_tests_cant": "Same.", "anchors": ["victor/src/fonts/cmap.rs: Format12::parse, get"]}
{"id": "C18", "title": "Enumerating a font's characters agrees with looking them up", "statement": "For a well-formed map, the (character, glyph) pairs enumerated are exactly the characters whose lookup yields a glyph other than 0, each once, in increasing order, with the same glyph; this is false in general for format 12 maps with glyph numbers above 65535, where enumeration reports truncated glyph numbers that lookup calls missing.", "quantifier": "every format 4 and format 12 table", "why_tests_cant": "Agreement of two traversals over all tables.", "anchors": ["victor/src/fonts/cmap.rs: Cmap::each_code_point, Format4::each_code_point, Format12::each_code_point"]}
{"id": "C19", "title": "Backward iteration over font records", "statement": "Iterating a record sequence forwards yields records 0..n-1. Iterating backwards is expected to yield n-1..0; the code instead yields n..1, so that a font whose only supported character map is the first encoding record is rejected or read from bytes outside the record array.", "quantifier": "every record count and position; existence of a rejected valid font", "why_tests_cant": "Fonts in the test-suite have their supported map last.", "anchors": ["victor/src/fonts/parsing.rs: SliceIter::next, SliceIter::next_back", "victor/src/fonts/cmap.rs: Cmap::parse"]}
{"id": "C20", "title": "Glyph widths", "statement": "The width of glyph g is the advance of its own metrics record when g is below the number of long metrics, and of the last record otherwise; it fails exactly when there are no metrics or the record lies outside the file. As a number of ems it is the advance divided by the units per em, to 24 bits. The width written in the PDF file is that in thousandths, rounded down, or one less when the thousandths are a whole number; it is exactly rounded down if the units per em are a power of two.", "quantifier": "every metrics table, glyph and number of units per em", "why_tests_cant": "Monospaced fonts rely on the last-record rule; the boundary depends on the font.", "anchors": ["victor/src/fonts/mod.rs: glyph_width, to_ems", "victor/src/pdf/object.rs: From<Length<f32, Em>>"]}
{"id": "C21", "title": "The document is always a tree", "statement": "After any sequence of parser-driven tree operations (creating nodes, appending, inserting before, detaching, reparenting) in which no node is inserted under itself or its descendants, the links between nodes form a well-formed ordered forest: sibling links are mutually inverse, every child list runs from the first to the last child exactly once, every child points to its parent, and no node is its own ancestor.", "quantifier": "every finite sequence of operations, of any length", "why_tests_cant": "Pointer structures break after particular sequences of moves only.", "anchors": ["victor/src/dom/mod.rs: push_node, detach, append, insert_before", "victor/src/dom/html.rs: Sink"]}
{"id": "C22", "title": "Tree operations do what the DOM says", "statement": "Detach removes exactly the node (with its subtree) from its parent's child list; append makes it the last child; insert-before makes it the immediate predecessor of the sibling; all other child lists, and all node data, are unchanged.", "quantifier": "every well-formed document and node arguments", "why_tests_cant": "Frame conditions quantify over all other nodes.", "anchors": ["victor/src/dom/mod.rs: detach, append, insert_before"]}
{"id": "C23", "title": "Document-order traversal visits every node of the document exactly once", "statement": "The document iterator yields exactly the document node and its descendants, each once, every node before its descendants and following siblings (depth-first pre-order), and terminates.", "quantifier": "every document reachable by tree operations", "why_tests_cant": "Trees of all shapes and depths.", "anchors": ["victor/src/dom/mod.rs: nodes, next_in_tree_order, node_and_ancestors"]}
{"id": "C24", "title": "Adjacent text is coalesced", "statement": "When text is inserted through the parser interface next to an existing text node (at the end of a parent, or before a sibling), it is appended to that node's contents and no node is created; otherwise one new text node with exactly that text is inserted at that place. The concatenated text of the parent's children equals the old text with the inserted text spliced at that point.", "quantifier": "every document, place and text", "why_tests_cant": "Depends on the neighbours at the insertion point.", "anchors": ["victor/src/dom/html.rs: append_common, append, append_before_sibling, append_based_on_parent_node"]}
{"id": "C25", "title": "Moving all children to a new parent", "statement": "Reparenting a node's children is expected to move all of them, in order, to the end of the new parent. The code moves only the first child: the full claim is refuted and the exact effect proved.", "quantifier": "every document and pair of nodes", "why_tests_cant": "Only malformed HTML (adoption agency algorithm) triggers it, and only with two or more children.", "anchors": ["victor/src/dom/html.rs: reparent_children"]}
{"id": "C26", "title": "XML documents mirror their events", "statement": "Parsing a balanced XML event stream builds exactly the tree it describes: elements nest as their start/end tags, attributes and names are kept, text runs are merged, comments dropped, and the parser never fails on balanced input.", "quantifier": "every balanced event sequence of any length and depth", "why_tests_cant": "Unbounded nesting.", "anchors": ["victor/src/dom/xml.rs: parse_xml"]}
{"id": "C27", "title": "Merging attributes never overwrites", "statement": "Adding attributes 'if missing' keeps every existing attribute with its value, adds exactly the given attributes whose name is absent, and looking up an attribute yields the first one of that name without namespace.", "quantifier": "every attribute list", "why_tests_cant": "Duplicate names and namespaces are rare in samples.", "anchors": ["victor/src/dom/html.rs: add_attrs_if_missing", "victor/src/dom/mod.rs: get_attr"]}
{"id": "C28", "title": "The cascade picks the right declaration", "statement": "For every property of every element the value that takes effect is the one of the declaration that is greatest in the CSS cascade order: importance and origin (user-agent normal < author normal < author important < user-agent important), then the style attribute, then specificity, then order of appearance; if no declaration applies, the inherited or initial value.", "quantifier": "every pair of style sheets, style attribute, element and property", "why_tests_cant": "The order is a lexicographic order over unboundedly many declarations.", "anchors": ["victor/src/style/cascade.rs: MatchingDeclarations::cascade, StyleSetBuilder::finish, push_matching, style_for_element", "victor/src/style/declaration_block.rs: cascade"]}
{"id": "C29", "title": "Rule sorting is stable and complete", "statement": "Finishing a style set yields a permutation of all (selector, block) pairs in which specificity never decreases and pairs of equal specificity keep document order.", "quantifier": "every list of rules", "why_tests_cant": "Stability is invisible unless ties are tested in all arrangements.", "anchors": ["victor/src/style/cascade.rs: StyleSetBuilder::add_stylesheet, finish"]}
{"id": "C30", "title": "Font-relative lengths use the right font size", "statement": "An em length in any property other than font-size is resolved against the element's own final font size, and in font-size against the parent's, no matter in which order or blocks the declarations appear; the product is that of IEEE 754 binary32.", "quantifier": "every declaration list and parent style", "why_tests_cant": "Order-independence over all permutations of declarations.", "anchors": ["victor/src/style/properties/macros.rs: ComputedValues::new, if_early_cascade_into, if_late_cascade_into", "victor/src/style/values/length.rs", "victor/src/style/values/fonts.rs"]}
{"id": "C31", "title": "inherit, initial and unset", "statement": "A winning 'inherit' gives the parent's computed value, 'initial' the initial value, 'unset' the parent's value for inherited properties and the initial value for the others; with no winning declaration the result equals that of 'unset'.", "quantifier": "every property, parent style and declaration list", "why_tests_cant": "All properties times all contexts.", "anchors": ["victor/src/style/properties/macros.rs: cascade_css_wide_keyword_into, ComputedValues::new"]}
{"id": "C32", "title": "Four-value shorthands", "statement": "margin, padding and border-* shorthands with one, two or three values expand as CSS defines; with four values CSS order is top, right, bottom, left but the code assigns the second value to the left side and the fourth to the right: the claim is refuted for four values and proved for one to three.", "quantifier": "every list of component values", "why_tests_cant": "Symmetric four-value samples hide the swap.", "anchors": ["victor/src/style/values/generic.rs: FourSides"]}
{"id": "C33", "title": "Border and display fix-ups", "statement": "After the cascade, a border side whose style is none has width zero and all others keep their width; floated or absolutely positioned elements have a block-level display while the originally specified display is remembered; everything else is untouched. That the root element becomes block-level too, as CSS demands, is refuted.", "quantifier": "every combination of computed values", "why_tests_cant": "Combinations of properties.", "anchors": ["victor/src/style/properties/mod.rs: post_cascade_fixups", "victor/src/style/values/border.rs: fixup", "victor/src/style/values/box_.rs: blockify, fixup"]}
{"id": "C34", "title": "Selector matching walks the document correctly", "statement": "The element relations used to match selectors (parent element, previous and next sibling element, emptiness, root) agree with the document tree: nearest element sibling skipping text and comments, parent only if it is an element, empty exactly when there is no element child and no non-empty text child.", "quantifier": "every document tree and element", "why_tests_cant": "Trees with all mixes of node kinds.", "anchors": ["victor/src/style/selectors.rs: parent_element, prev_sibling_element, next_sibling_element, is_empty, is_root"]}
{"id": "C35", "title": "Class selectors", "statement": "A class selector must match an element whose class attribute contains the class among its whitespace-separated words. The code compares the whole attribute: refuted for attributes with several classes, proved for single-class attributes.", "quantifier": "every class attribute value and class name", "why_tests_cant": "Tests use single classes.", "anchors": ["victor/src/style/selectors.rs: has_class"]}
{"id": "C36", "title": "Hostile fonts cannot crash a release build", "statement": "For every byte string, parsing it as a font, enumerating its characters, looking up any character and asking for any glyph's width end without panic in a build with wrapping arithmetic (in particular all loops terminate within their expected number of steps); a build with overflow checks returns the same results or panics, and there are files for which it panics.", "quantifier": "every byte string, every character and every glyph number", "why_tests_cant": "Hostile inputs are unbounded; overflow needs offsets near 2^32.", "anchors": ["victor/src/fonts/mod.rs: parse_without_loading_glyphs, each_code_point, glyph_id, glyph_width", "victor/src/fonts/cmap.rs", "victor/src/fonts/parsing.rs"]}
{"id": "C37", "title": "Font metrics are those of the file", "statement": "If a font file with a sorted table directory is accepted, then its signature is one of the two supported ones and the glyph count, units per em, bounding box, ascender, descender, number of horizontal metrics and location of the metrics are the values stored at the places OpenType assigns to them in the tables maxp, head, hhea and hmtx.", "quantifier": "every font file accepted", "why_tests_cant": "Fields could be mixed up in ways samples with equal values hide.", "anchors": ["victor/src/fonts/mod.rs: parse_without_loading_glyphs", "victor/src/fonts/tables.rs", "proc-macros/src/lib.rs"]}
{"id": "C38", "title": "Which style sheets a document has", "statement": "After any valid sequence of parser calls, the recorded style elements are exactly the HTML style elements ever created, in creation order; collecting the style sheets never panics and yields, in that order, the concatenated text of each such element whose type attribute is absent or text/css in any letter case. In XML documents no style element is ever recorded: the same claim for them is refuted.", "quantifier": "every sequence of parser calls; every XML document", "why_tests_cant": "Depends on moved, removed and half-built style elements.", "anchors": ["victor/src/dom/mod.rs: parse_stylesheets", "victor/src/dom/html.rs: create_element", "victor/src/dom/xml.rs: parse_xml"]}
{"id": "C39", "title": "Root element and link elements", "statement": "The root element is found exactly when the document node has one element child and otherwise only doctypes, comments and processing instructions; text at the top level makes it panic. The list of links has, in document order, rel and href of each HTML link element in the document having both.", "quantifier": "every document", "why_tests_cant": "Mixes of node kinds at the top level.", "anchors": ["victor/src/dom/mod.rs: root_element, html_link_elements"]}
{"id": "C40", "title": "Declaration blocks", "statement": "A block keeps exactly the declarations with a known property name, a value and an optional !important, expanded to longhands, in order and with their importance; declarations with unknown names or values, and malformed items, are ignored; the per-block summary of phases and importances is complete for what the block holds. Parsing panics exactly if some value is followed by further tokens, where CSS ignores the declaration (refuted).", "quantifier": "every list of declarations and every parser of colours", "why_tests_cant": "Sheets with every mix of valid and invalid declarations.", "anchors": ["victor/src/style/declaration_block.rs: parse, parse_value"]}
{"id": "C41", "title": "Property names", "statement": "A property name, in any letter case, is known if and only if it is the CSS name of one of the 32 longhands or 7 shorthands, with one exception: border-right-color is not known and border-color-right is (refuted).", "quantifier": "every byte string", "why_tests_cant": "The table has 39 entries; a typo in one is invisible unless all are tried.", "anchors": ["victor/src/style/properties/definitions.rs", "victor/src/style/properties/macros.rs: property_data_by_name"]}
{"id": "C42", "title": "Property values", "statement": "The value of each longhand, colours apart, is one token, and it is accepted with the meaning CSS gives it, if it is written in lower case, is not negative where CSS forbids that, and is not a percentage for a border width; each of the three conditions is necessary (three refutations).", "quantifier": "every longhand and every token", "why_tests_cant": "All properties times all tokens.", "anchors": ["victor/src/style/values", "proc-macros/src/style.rs: derive_parse"]}
{"id": "C43", "title": "Writing modes and boxes", "statement": "In every writing mode and direction the start and end sides of a box are the physical sides CSS Writing Modes names, sizes are exchanged exactly when lines are vertical and converting there and back changes nothing, and growing a rectangle moves each of its edges outwards by the width of that side, so that the border box of a fragment is its content box with padding and border around it.", "quantifier": "every combination of writing mode and direction, every rectangle and widths, negative ones included", "why_tests_cant": "Ten modes times unbounded values; the tests cover one mode.", "anchors": ["victor/src/geom.rs: Sides::to_flow_relative, Vec2::size_to_physical, Rect::inflate", "victor/src/layout/fragments.rs: BoxFragment::border_rect"]}
{"id": "C44", "title": "Collapsing margins", "statement": "However many adjoining margins are combined, in whatever order and grouping, the result is the greatest positive one plus the least negative one, as CSS 2 §8.3.1 demands, and it depends only on which margins there are.", "quantifier": "every finite tree of adjoining margins", "why_tests_cant": "Any number of margins in any grouping; which grouping happens depends on the tree and on the order of layout.", "anchors": ["victor/src/layout/fragments.rs: CollapsedMargin"]}
{"id": "C45", "title": "Widths and horizontal positions in normal flow", "statement": "In the layout of every document each block in normal flow has the paddings, borders and margins that its style gives relative to the width of its containing block, the width of its style or all the room there is, the auto margins CSS 2 §10.3.3 asks for, the place that follows from them and its relative offset, and its children are laid out in its content width; line boxes have the width of their container. The seven values add up to the width of the containing block when the margin the code leaves out of the sum is zero, and not otherwise; negative auto margins, negative widths and relative percentages are wrong as well (three refutations).", "quantifier": "every box tree, viewport, font and schedule", "why_tests_cant": "Trees of any depth with arbitrary styles.", "anchors": ["victor/src/layout/flow/mod.rs: layout_in_flow_non_replaced_block_level", "victor/src/layout/mod.rs: relative_adjustement"]}
{"id": "C46", "title": "Heights and vertical positions in normal flow", "statement": "In the layout of every document each block is below everything before it in its container, at the distance given by the heights and collapsed margins in between, where margins collapse with those of parents, children and siblings exactly when no padding, border, height or formatting context separates them; auto heights are the distance from the first to the last thing inside; lines are stacked without gaps; relatively positioned boxes are moved without moving anything else. A given height of zero keeps margins apart although CSS lets them collapse (refutation).", "quantifier": "every box tree, viewport, font and schedule", "why_tests_cant": "Margins collapse across any number of levels and siblings.", "anchors": ["victor/src/layout/flow/mod.rs: layout_block_level_children, place_block_level_fragment, layout_in_flow_non_replaced_block_level"]}
{"id": "C47", "title": "Used values of absolutely positioned boxes", "statement": "The offsets, margins, padding, borders and size of every absolutely positioned box satisfy the equations and rules of CSS 2 §10.3.7 and §10.6.4, except that an auto width takes all the room instead of shrinking to fit, and that widths and heights are mixed up where the containing block is not a square: heights add up to its width, and boxes placed by their right edge are counted from its height (two refutations).", "quantifier": "every style, contents, static position and containing block", "why_tests_cant": "Thirty-two combinations of auto values times arbitrary lengths and percentages.", "anchors": ["victor/src/layout/positioned.rs: AbsolutelyPositionedFragment::layout"]}
{"id": "C48", "title": "Containing blocks and static positions", "statement": "Every absolutely positioned box is laid out exactly once, in tree order, among the fragments of its nearest ancestor that is a positioned block, or of the document if there is none, with the padding box of that ancestor or the viewport as containing block; its static position is its place in normal flow, found by adding up the positions of the content boxes in between. The static position is off by the padding of the containing block, and positioned inline boxes are passed over (two refutations).", "quantifier": "every box tree, viewport, font and schedule", "why_tests_cant": "The box may be any number of levels below its containing block, which the code tracks by indices adjusted at every level.", "anchors": ["victor/src/layout/positioned.rs", "victor/src/layout/flow/mod.rs"]}
{"id": "C49", "title": "Parallel layout is deterministic", "statement": "The fragments of a document do not depend on how the parallel iterators split the work.", "quantifier": "every pair of schedules of every parallel iterator, every box tree and viewport", "why_tests_cant": "The schedules are chosen by a thread pool.", "anchors": ["victor/src/layout/flow/mod.rs: layout_block_level_children", "victor/src/layout/flow/mod.rs:197-225"]}
{"id": "C50", "title": "Layout does not panic", "statement": "If the font has a glyph and a width for every character, layout of every box tree in which absolutely positioned boxes have a display that generates boxes ends without a panic, and every loop over the text of a line ends.", "quantifier": "every such box tree, viewport and schedule", "why_tests_cant": "The assertions are reached with arbitrary combinations of margins, trees and texts; a loop that does not end cannot be observed by a test.", "anchors": ["victor/src/layout"]}
{"id": "C51", "title": "The border-top and background shorthands", "statement": "border-top accepts one or more of a line style, a colour and a line width, each at most once and in any order; it sets each longhand to the given component and those without one to their initial value. background accepts one colour.", "quantifier": "every sequence of tokens, every colour syntax that differs from styles and widths", "why_tests_cant": "All orders and subsets of components, times all values.", "anchors": ["victor/src/style/values/border.rs: parse_one_or_more!", "victor/src/style/values/background.rs", "victor/src/style/properties/mod.rs"]}
{"id": "C52", "title": "Lines of text", "statement": "A text alone in a container is broken into lines at spaces only: a line ends before the first word that does not fit any more, and a word that does not fit a line of its own is alone on it. These rules determine the lines; the lines with single spaces between them are the text, up to one trailing space; every line has one text fragment with the glyphs of its characters, at the start of the line, as wide as their advance widths, and 1.2 em high. The room on later lines is taken to be that of the first, and text is never broken between two inline boxes (two refutations).", "quantifier": "every text, style, container width and font", "why_tests_cant": "Texts of any length with words of any width; the code goes back to saved positions of two iterators.", "anchors": ["victor/src/layout/flow/inline.rs: TextRun::layout", "victor/src/text.rs: ShapedSegment"]}
{"id": "C53", "title": "Inline boxes on lines", "statement": "In every inline formatting context each inline box has one fragment on every line it is on; the first and the last have the start and end edges the box tree asks for and the others none; each fragment contains the fragments of the children of the box on that line, in order, starts where the one before it ends, or at the edge of the line, and has the paddings, borders, margins and offset of its style; a line is as high as the tallest fragment on it, and so is the first fragment of a box. The text of the boxes comes in order on the lines and nothing of it is lost but spaces. Widths of nested or relatively positioned boxes, the offset and the heights on later lines are wrong (four refutations).", "quantifier": "every tree of inline boxes, container width, font and schedule", "why_tests_cant": "Any depth of nesting and any number of line breaks, at each of which all open boxes are closed and opened again.", "anchors": ["victor/src/layout/flow/inline.rs"]}
{"id": "C54", "title": "The box tree of a document", "statement": "The text and elements under an element, without comments and display: none and with display: contents replaced by the contents, determine its boxes uniquely: runs of inline-level content form paragraphs, wrapped in anonymous blocks (which inherit) beside block-level siblings; block-level elements form blocks, flow-roots and out-of-flow elements formatting contexts of their own; inline-level out-of-flow elements stay in their paragraph; a context records whether floats are in it. Construction yields just these boxes, and panics just where an inline element holds block-level content (refutation: a well-formed document does that).", "quantifier": "every document tree, every style sheet, every assignment of styles to elements", "why_tests_cant": "Any nesting of elements, displays, positions and floats; the builder keeps stacks of open inline boxes and pending text.", "anchors": ["victor/src/layout/flow/construct.rs", "victor/src/layout/dom_traversal.rs", "victor/src/layout/flow/root.rs: construct_for_root_element"]}
{"id": "C55", "title": "The text of a paragraph", "statement": "Paragraphs of the content and inline formatting contexts correspond both ways; the text of the context is that of the paragraph with white space collapsed, with none at its start and none at the start of an inline element. If no inline element starts with white space that is what CSS asks for; otherwise a space is lost (refuted).", "quantifier": "every document and every assignment of styles", "why_tests_cant": "Texts of any length, split between elements in any way, with comments and hidden elements between.", "anchors": ["victor/src/layout/flow/construct.rs: handle_text, handle_collapsible_whitespace"]}
{"id": "C56", "title": "No text is lost in box construction", "statement": "The characters other than white space in the boxes of an element are those of the document in document order.", "quantifier": "every document and every assignment of styles", "why_tests_cant": "Texts and trees of any size.", "anchors": ["victor/src/layout/flow/construct.rs"]}
{"id": "C57", "title": "Box trees are tidy", "statement": "In a box tree, two text runs are never adjacent, no text run and no paragraph is empty, inline boxes have both edges, and the white space in the text of a paragraph consists of single U+0020 characters, none at the start. Text in an element with display: contents is merged with the text before it and so takes its style (refuted: the style is that of the element).", "quantifier": "every document and every assignment of styles", "why_tests_cant": "The runs are merged across comments, hidden elements and display: contents.", "anchors": ["victor/src/layout/flow/construct.rs"]}
{"id": "C58", "title": "From documents to fragments without a panic", "statement": "For every document and its style sheets, if no inline element displays a block and the font has a glyph and a width for every character, box construction and layout, for every schedule and page size, end without a panic; the storage of boxes in elements, which layout does not read, is left aside here and is C59.", "quantifier": "every document, style sheet, schedule and page size", "why_tests_cant": "All stages together on all documents.", "anchors": ["victor/src/layout", "victor/src/style"]}
{"id": "C59", "title": "Storage of boxes in elements", "statement": "While boxes are built, the boxes of displayed elements are stored in the elements by threads that may run in any order. If every element of display none that is looked at has a next sibling, then in every order no borrow fails, all threads end after boundedly many steps, every displayed element then has a box, the storage of all other elements is unchanged and nothing is borrowed. That condition is exactly what is needed: unset_boxes_in_subtree on an element without a next sibling never returns, whatever other threads do, and so construction of a document with one (such as a script element at the end of a body) never ends; what happens meanwhile depends on the order of the threads, which may panic or remove boxes of other elements (refutations).", "quantifier": "every document, every assignment of styles, every interleaving of the threads", "why_tests_cant": "The number of interleavings is exponential in the size of the document, and a test that hangs proves nothing about other schedules.", "anchors": ["victor/src/layout/dom_traversal.rs: BoxSlot, unset_boxes_in_subtree", "victor/src/layout/element_data.rs", "victor/src/layout/flow/construct.rs: finish"]}
{"id": "C60", "title": "What the page of a document shows", "statement": "The PDF file made from a list of fragments, read back, is one page of 450 by 600 points that shows just the backgrounds of boxes that are not fully transparent, as the rectangle of the border box at the sum of the positions of the fragments they are in, and the glyphs of each text in its colour, upright, of the font size, with the baseline one ascent below the top of the text, in the order of the tree; numbers are exact up to 1/3000000 of them. Painting panics just if some fragment is not upright or there is text and the font cannot be embedded. All fragments of a document are upright, so that every document whose boxes can be built becomes a file without a panic, and the same file however layout is scheduled. Text is painted before the backgrounds of later blocks (refuted: CSS 2 appendix E).", "quantifier": "every list of fragments, every document and its style sheets, every schedule, every rounding of numbers to 24 bits", "why_tests_cant": "Positions are sums over nested fragments of any depth; a picture comparison covers one document.", "anchors": ["victor/src/paint.rs", "victor/src/pdf/convert.rs", "victor/src/layout/flow/root.rs", "victor/src/layout/positioned.rs", "victor/src/primitives.rs"]}
{"id": "C61", "title": "The text of a document is on its page", "statement": "The glyphs on the page of a document, in the order they are shown, are the glyphs of its text, apart from white space: text in normal flow in document order, that of absolutely positioned elements after the rest of the text of the block they are positioned in, and no text of floats. So if nothing floats each character but white space is shown just once, and if nothing is absolutely positioned either they are in document order. The text of floats is lost (refuted: all text is shown).", "quantifier": "every document and its style sheets, every schedule, every rounding of numbers to 24 bits", "why_tests_cant": "Text passes through box construction, line breaking, parallel layout and the PDF writer; which is lost or moved depends on all of them.", "anchors": ["victor/src/paint.rs", "victor/src/layout/flow/construct.rs", "victor/src/layout/flow/inline.rs", "victor/src/layout/flow/mod.rs", "victor/src/layout/positioned.rs", "victor/src/layout/flow/root.rs"]}
{"id": "C62", "title": "Plain text is set in lines and pages", "statement": "A plain text is cut at its line break opportunities; each piece goes on the current line if it fits in the content width or nothing before it takes space, a line ends after a piece with a forced break or before one that does not fit, and a page ends when the next line would start below the bottom of the content area. In the file each piece is one text run in upright black glyphs at the position of its line, with the space left on a line that is not the last of its paragraph shared out between the words when justifying, so that its last word ends at the right margin. If the text ends with a forced break every piece is on a page, once and in order. Layout always ends without panicking, and fails just if a character has no glyph, or the font cannot be embedded. Text can be in the bottom margin, the last page can be blank, and the space after a word counts when it is tested whether the word fits (refuted: text stays in the content area; pages are not blank; trailing spaces hang).", "quantifier": "every text, every sequence of break opportunities in it, every style and font, every rounding of numbers to 24 bits", "why_tests_cant": "Which words are on a line or page depends on all widths before; the loops end only because a word put back is always taken by the next line.", "anchors": ["victor/src/text_plain.rs", "victor/src/text.rs", "victor/src/pdf/convert.rs"]}
{"id": "C63", "title": "PNG streams: errors and panics", "statement": "Reading or writing a PNG image through a Rust stream: a panic of the stream goes on in the caller after cairo returned, an error of the stream is returned, otherwise the result is what cairo made of the contents; after an error the stream is not used again, and after any failure if cairo gives up then. Without failures a stream gets exactly the bytes that cairo wrote, and reading a file in memory gives what cairo makes of it or the error that it is too short. When writing to a file is said to have succeeded, the file has what cairo wrote as far as there was room, at most 8192 bytes less than all (refuted: all of it, as errors of the last flush are ignored; refuted: a stream is never used after it panicked, as that depends on cairo).", "quantifier": "every stream, every behaviour of cairo during the calls, every contents", "why_tests_cant": "Failures can come at any of the calls cairo makes, and cairo may react in any way.", "anchors": ["lester/src/cairo.rs: callback, with_c_callback!, read_from_png, write_to_png, write_to_png_file", "lester/src/errors.rs"]}
{"id": "C64", "title": "C objects are used while they are owned and released once", "statement": "Whatever safe code does with lester's interface, including after panics of streams and errors of any C function, every C object is used and released only while it is owned (no use after release, no double release), and the references owned at any moment are just those of the values that are left, so that nothing leaks. Null pointers are never used nor released.", "quantifier": "every sequence of operations of the interface, every behaviour of the C libraries that keeps to their documentation about null pointers, every stream", "why_tests_cant": "It depends on every early return and unwinding path; a test sees those of one run.", "anchors": ["lester/src/cairo.rs", "lester/src/poppler.rs", "lester/src/errors.rs"]}
{"id": "C65", "title": "Iterating over pages", "statement": "The iterator over the pages of a document is a queue of the page numbers open at both ends: next, next_back, nth and len are those of the queue, whatever their order, each page is asked for at most once and only if there is one, and a loop goes through all pages in order. A page that poppler cannot make is a panic (refuted: a document that can be opened can be iterated over).", "quantifier": "every document, every sequence of operations", "why_tests_cant": "The sequences of operations from both ends are unbounded, and so is the number of pages.", "anchors": ["lester/src/poppler.rs: PdfDocument::pages, get_page, PagesIter"]}
{"id": "C66", "title": "Sizes of pages and images", "statement": "A page of a whole number of CSS pixels has just that size in CSS pixels in spite of the rounding of 96/72 and of the product, and at a whole scale it is rendered to an image of just that size times the scale. In general the number of pixels is the product of size and scale rounded up, but for a relative error of 2^-51; the scale given to cairo has one of 2^-52. The calls of a successful rendering are: size, create, background, scale, render, status, destroy. Rendering panics if a number of pixels is not in the range of i32 and not if it is. The conversion of f64 to i32 truncates what is in range and refuses the rest and infinities; NaN becomes 0 and an image without pixels (refuted: it is refused). An image made by a client has the width, height and format asked for, and one too large for a C int is a panic before cairo is called.", "quantifier": "every page size, scale and background, every behaviour of the C libraries", "why_tests_cant": "Whether a product of rounded numbers is rounded up to one pixel too many depends on each size.", "anchors": ["lester/src/poppler.rs: size_in_css_px, render_with_options, PX_PER_PT", "lester/src/convert.rs"]}
{"id": "C67", "title": "Access to pixels", "statement": "For every image such as cairo makes them all pixels are accessible, in debug and release builds; whatever cairo answers, what is accessible is within the rows of the image, and aligned. Two images are equal just if their sizes and pixels are. Pixels printed in hexadecimal can be read back. An image without pixels gives a slice at a null address (refuted: never), and the unused byte of opaque images is compared (refuted: images that look the same are equal).", "quantifier": "every image, every answer of cairo, debug and release builds, every list of pixels", "why_tests_cant": "Overflow of the products depends on the size of the image, up to 2^30 pixels.", "anchors": ["lester/src/cairo.rs: ImageSurface::pixels, Argb32Pixels", "lester/src/convert.rs", "lester/src/lib.rs: pixels_to_hex"]}
{"id": "C68", "title": "Tagged unions with jump tables", "statement": "The enum with jump tables: calling a generated method on a value in memory does what the first matching arm of the match does, with references to the fields of that value, for every enum, both byte orders and every value. The macro compiles just if the arms are the variants in their order with the right names and numbers of fields, and then the match is exhaustive (refuted: every exhaustive match compiles, as one in another order does not). The struct a variant is viewed as lies within the enum and is aligned, with its fields apart. The tables of the style system are right: LonghandId's method is the cascade of that longhand's CSS-wide keyword and is_early its phase, and both methods of LonghandDeclaration on a declaration in memory are the cascade of that declaration, early or late.", "quantifier": "every enum declaration, method, value, byte order and layout of field types; every declaration of every longhand", "why_tests_cant": "A wrong table index or field offset is undefined behaviour only seen for the variants and types a test uses.", "anchors": ["victor/src/tagged_union_with_jump_tables.rs", "victor/src/style/properties/macros.rs", "victor/src/style/properties/definitions.rs"]}
{"id": "C69", "title": "The reference test runner", "statement": "A test passes just if the document has a single page and so has each reference linked from it, with the same pixels for match links and other pixels for mismatch links. The run passes just if every selected regular file of the tree passes; each file is tested once; each PDF is made and rendered once and nothing is written when a test passes; on failure the files written are what was compared. References are relative to the directory of the test with runs of slashes collapsed, empty or absolute ones panic. A .pdf test or reference never passes (refuted: a one-page PDF that can be rendered is handled).", "quantifier": "every directory tree, file contents, renderer and filter", "why_tests_cant": "A test runner that skips or accepts too much is not seen by the tests it runs.", "anchors": ["tests/reftests.rs"]}
{"id": "C70", "title": "Derive macros", "statement": "derive(Parse): the parser written accepts what the first variant with a field accepts that does, otherwise the keyword in kebab-case of a variant without fields; names in CamelCase have different keywords (refuted: every variant can be written; refuted: variants are tried in their order). derive(FromVariants): a value is converted to the one variant that has its type as the only field; compiles just if there is at most one for each type. derive(FromSpecified): compiles just if the specified type has the same shape, and then the result is the same variant with each field computed, by position or name. derive(SfntTable): compiles just for structs of aligned fields of known types; each method adds the sizes of the fields before, which is also the offset in C, and the size is that of the struct just if no padding is needed. All tables of the font parser compile on every platform and have the offsets, sizes and tags used by the model of the parser, and the parsers and conversions of the model of the style system are those that the macros write.", "quantifier": "every declaration, field parser, token list and value; every platform alignment", "why_tests_cant": "A macro is run on the declarations there are; whether it is right for others, or for layouts of other platforms, no test sees.", "anchors": ["proc-macros/src/generic.rs", "proc-macros/src/style.rs", "proc-macros/src/lib.rs", "victor/src/fonts/tables.rs", "victor/src/style/values/"]}
{"id": "C71", "title": "The built-in font", "statement": "The bytes of Vera.ttf, which are part of the program, are parsed in debug and release builds with the same result: 268 glyphs, 2048 units per em, the name BitstreamVeraSans-Roman. Every character has a glyph in the font and every glyph a width, without error or panic; the width is the advance in the file without rounding. Exactly 256 characters have a glyph other than 0, no two of them the same; the visible ASCII characters are glyphs 3 to 97 in order; the enumeration of characters gives these and no others. The font can be embedded in PDF files.", "quantifier": "both builds; every character code (all of u32)", "why_tests_cant": "Tests use a few letters of the font; the lazily initialised static panics at first use if anything is wrong, in either build, and layout panics for any character for which lookup fails.", "anchors": ["victor/src/fonts/mod.rs:295-297", "victor/src/fonts/mod.rs:33-195", "victor/src/fonts/cmap.rs", "victor/fonts/vera/Vera.ttf", "victor/src/layout/flow/inline.rs", "victor/src/text.rs"]}
{"id": "C72", "title": "Copying text from PDF files", "statement": "Read back independently, the PDF file of a document has a page whose glyph codes, mapped through the ToUnicode CMap of the embedded font, give the text of the document in the order it is painted, apart from white space and floats: each character in the font gives exactly itself, with no second candidate, and each character not in the font gives nothing. With the built-in font every document that is not of the kind that cannot be built gives a file, the same whatever the schedule of the parallel layout.", "quantifier": "every document, style sheets, selector matching, font with one glyph per character, schedule; files below 4 GiB and coordinates zero or between 2e-5 and 1e19", "why_tests_cant": "Tests compare files with expected bytes for one text; that every text can be got back from its file needs the composition of parsing, styles, layout, painting, font embedding and PDF syntax for all inputs.", "anchors": ["victor/src/paint.rs", "victor/src/pdf/convert.rs:268-397", "victor/src/fonts/cmap.rs", "victor/src/text.rs", "victor/src/layout/flow/inline.rs"]}
{"id": "C73", "title": "The built-in style sheet", "statement": "The user-agent style sheet can be read whatever cssparser does with colours, and every declaration in it counts. With any author style sheets and style attributes besides, an element whose display the author does not set has the display that the sheet says: none for hidden inputs, for elements with a hidden attribute (but inline for embed) and for the seventeen elements without rendering; block for the twenty block elements; inline for all others. The margins are 8px on body and 0 elsewhere unless set, the size 0 for hidden embeds and auto elsewhere unless set; all other properties have their defaults unless set. A hidden input is not displayed even if the author says so with importance. The sheet's @namespace rule is ignored, so that its rules also apply to elements that are not HTML, and sections, headings and lists are not blocks.", "quantifier": "every element, document, author style sheet, style attribute, matching of author selectors", "why_tests_cant": "Tests render a few elements; that one sheet interacts with every other sheet as its text says, by specificity, order, origin and importance, is a statement about all sheets.", "anchors": ["victor/src/style/user_agent.css", "victor/src/style/cascade.rs:16-22", "victor/src/style/cascade.rs:85-108", "victor/src/style/selectors.rs:13-25", "victor/src/style/rules.rs"]}
{"id": "C74", "title": "From arguments to the file written", "statement": "With fewer than two arguments the program fails with its usage message and touches no file; further arguments are ignored. Otherwise it reads the input and then, at most once and last, writes the output; nothing is written if reading fails or if there is a panic; what is written is the PDF file of the document. For all bytes for which html5ever keeps its promises and whose style sheets and style attributes have no value followed by something else, exactly one root, style and contents are displayed, and a file is written, the same for every schedule of the parallel layout, if the contents can be built or the root is not displayed; otherwise the program panics. It also panics if a value in a style sheet is followed by something else. The text copied from the file is the text of the document. Not every page gives a file: a paragraph in a section, without any style of the author, is a panic.", "quantifier": "every list of arguments, file, file system answers, calls of html5ever as promised, style sheets, schedule", "why_tests_cant": "Tests run the program on a few files; that there is no panic for any input but those named, and that nothing is written before, are statements about all executions.", "anchors": ["victor/src/main.rs:1-12", "victor/src/dom/html.rs:8-18", "victor/src/paint.rs:8-34", "victor/src/layout/flow/root.rs:8-20", "victor/src/style/cascade.rs"]}
{"id": "C75", "title": "Layout and painting in any arithmetic", "statement": "Layout and painting are modelled operation by operation in an arithmetic that is left open; with exact rationals this is the layout of C45-C50 and C53, and with IEEE 754 binary32, rounding, infinities and not-a-number included, it is that of the code. For every arithmetic in which 0 + 0 = 0: layout does not depend on how its parallel parts are scheduled, does not panic, has upright fragments, texts are as wide as their letters and 1.2 times as high as these are large, and their glyphs are those of the text of the boxes in order, apart from spaces left out. So a document becomes a file, the same one for every schedule, and the glyphs on its page are those of the text of the document apart from spaces if the numbers asked for can be written. Lengths can overflow to infinity and to not-a-number from finite styles, and with an arithmetic in which zero is not equal to itself there would be panics.", "quantifier": "every arithmetic, box tree, viewport, schedule, document, style sheets", "why_tests_cant": "Rounding makes every comparison and every assertion of layout depend on the numbers; that none of the assertions can fail whatever rounding does is a statement about all inputs and all roundings.", "anchors": ["victor/src/style/values/length.rs:102-187", "victor/src/geom.rs:51-321", "victor/src/layout/flow/mod.rs:106-439", "victor/src/layout/flow/inline.rs:68-345", "victor/src/layout/positioned.rs:85-328", "victor/src/layout/fragments.rs:61-115", "victor/src/paint.rs:8-90"]}
{"id": "C76", "title": "Zoom", "statement": "With exact numbers: if every length of the styles of a box tree and of the viewport is multiplied by the same positive number, with percentages and everything else as before, then the layout is the same but for its lengths, which are all multiplied by that number; lines are broken at the same places. In IEEE 754 binary32 this is not so, even if all of these are numbers of binary32: a paragraph can be broken at other places when zoomed, and at other places than by exact numbers.", "quantifier": "every box tree, viewport, factor, font, schedules; floats by counterexample", "why_tests_cant": "A test compares a few zoom factors on a few documents. The counterexample in binary32 needs a font size and a glyph width whose product is within 2^-24 of the width of the line.", "anchors": ["victor/src/layout/flow/mod.rs:106-439", "victor/src/layout/flow/inline.rs:68-345", "victor/src/layout/positioned.rs:85-328", "victor/src/geom.rs:51-321", "victor/src/style/values/length.rs:102-187"]}
{"id": "C77", "title": "What layout and the page depend on", "statement": "For every arithmetic, font and schedule: if two box trees differ only in the styles of their boxes, and the styles agree on font-size, position, the four offsets, width, height, margins, padding, widths of borders and on the specified display, then their layouts are equal but for the styles in it; if they also agree on color and background-color then the files are equal. Each of these twenty properties, the specified display, and the two colours, is needed: there are box trees that differ by it alone and are laid out (or written) differently. So colours and styles of borders have no effect on the file.", "quantifier": "every pair of box trees, arithmetic, viewport, font, schedules", "why_tests_cant": "That a property is not read is a statement about all of its values in all documents.", "anchors": ["victor/src/layout/flow/mod.rs:106-439", "victor/src/layout/flow/inline.rs:68-345", "victor/src/layout/positioned.rs:85-328", "victor/src/layout/fragments.rs:61-115", "victor/src/paint.rs:8-90"]}
{"id": "C78", "title": "Binary32", "statement": "The operations of the arithmetic that stands for f32 in C75 are those of IEEE 754: the sum, difference, product, quotient and literal of finite numbers is the finite binary32 number nearest to the exact result, of two equally near ones the even one, and infinite from 2^128 - 2^103 on; there is exactly one such number; maximum, minimum, negation and comparisons are exact; operations on infinities and on not-a-number give what IEEE 754 says, and comparisons with not-a-number are false. Every number in a layout in f32 is a number of binary32 (or infinite or not a number) if the lengths in the styles, the viewport and the widths of glyphs are.", "quantifier": "every pair of finite numbers; every box tree, viewport, font and schedule", "why_tests_cant": "There are 2^64 pairs of numbers for each operation.", "anchors": ["victor/src/style/values/length.rs:102-187", "victor/src/layout/flow/inline.rs:250-345", "victor/src/fonts/mod.rs:170-195"]}
{"id": "C79", "title": "Dates and tags of fonts", "statement": "A date of a font, in seconds since 1904-01-01, is converted to the same moment as a time of the system, in seconds since 1970-01-01: the two lie on the same date of the Gregorian calendar at the same time of day.  The conversion panics for the 2082844800 smallest dates alone, in builds with and without overflow checks.  What is shown of a tag has a printable character for each of its bytes, that byte if it is printable and a question mark if not.", "quantifier": "every 64-bit date, every date of the calendar and time of day; every tag", "why_tests_cant": "There are 2^64 dates, and the panic concerns one in four billion of them; that the constant is the number of seconds between two dates is a fact about the calendar.", "anchors": ["victor/src/fonts/types.rs:23-47"]}
{"id": "C80", "title": "Numbers are printed so that they read the same", "statement": "The digits that dtoa prints of a binary32 number are found without overflow, without a digit below zero and in a bounded number of steps; there are at most nine of them, and the binary32 number nearest to what they say is the number itself. So each finite number between 1e-5 and 1e20 in absolute value, and zero, is read from the file as a real that rounds to it, and different numbers are printed differently. The digits are not always as few as possible, nor always the nearest of their length (both refuted).", "quantifier": "every finite binary32 number", "why_tests_cant": "There are four billion numbers; the error in the algorithm's approximate powers of ten must be below its safety margin for each.", "anchors": ["victor/src/pdf/object.rs:150-160", "victor/src/pdf/convert.rs"]}
{"id": "C81", "title": "Plain text is broken into lines and pages the same way whatever the arithmetic rounds to", "statement": "With the machine's binary32 arithmetic, as with any other that does not hold zero for greater than itself: layout of plain text does not panic if lookups in the font do not, fails just if a character has no glyph or the font cannot be embedded, and otherwise places each piece of the text, in order, on greedy lines and pages.  A line is broken before the first piece with which the sum of the widths, added one by one, is greater than what the margins leave; there is exactly one way to break text so, and it is that of C62 when sums are exact.  A reader of the file finds each piece at the binary32 number it was placed at, in the size and font of the style, on pages of the size of the style.  Rounding does change how text is broken: there is a text that fits in one line as computed and does not as written (refuted).", "quantifier": "every text, position of breaks, style and font; every arithmetic for layout, binary32 for the file", "why_tests_cant": "Sums of binary32 numbers depend on their order, so which pieces fit must follow the program's own order, for every text.", "anchors": ["victor/src/text_plain.rs:40-168", "victor/src/pdf/convert.rs"]}
{"id": "C82", "title": "Rounding moves plain text by next to nothing", "statement": "In binary32, a running sum of n numbers that are not negative is within n/2^23 of the exact sum, relatively, and so is a word's width of its glyphs' widths times the font size.  The pieces of a line fit between the margins but for that error, with the next piece they do not but for that error, and text that fits with room for the error is not broken.  Each piece is where the margin, the exact widths of the pieces before it and the spacing put it, and each line where the exact line heights put it, but for that error; the last piece of a justified line of n pieces ends at the right margin, with an error of at most 3(n+1)/2^23 of its position.  Millimetres become pixels within 1/2^23.", "quantifier": "every list of fewer than 2^20 finite numbers with a sum below 2^126; every text, line, sheet within such bounds", "why_tests_cant": "Errors add up over the pieces of a line and the lines of a page; that they stay proportional to their number has to hold for all of them.", "anchors": ["victor/src/text_plain.rs:40-168", "victor/src/text.rs:30-67", "victor/src/primitives.rs"]}
{"id": "C83", "title": "No way of breaking plain text has fewer lines, and more room never makes more pages", "statement": "Among all ways of breaking a text into lines that fit, the one that layout takes has as few lines as any, both with exact sums and with those of binary32 added one by one.  In binary32: with as much room, a text that lacks some words or has narrower ones does not need more lines, and the end of a text does not need more lines than the whole.  On a sheet that is at least as wide and high, with the same margins and line height and in a font size that is not larger, the same text does not take more pages.", "quantifier": "every text, way of breaking it, room and pair of styles with finite sizes", "why_tests_cant": "Rounding is not monotone in an obvious way: a sum taken in another order, or of smaller numbers, could round so that a text fits on the smaller sheet alone.", "anchors": ["victor/src/text_plain.rs:40-168"]}
{"id": "C84", "title": "The PostScript name of a font", "statement": "The name taken is that of the first record of the name table with identifier 6 that is of the Macintosh platform, or of the Windows platform in encoding 1; there is an error just if there is none or if its characters lie outside the file.  Of a Macintosh name, bytes that are UTF-8 are kept, and each maximal part of a character that is not complete, or else each byte, becomes U+FFFD; there is one way to read bytes so.  Of a Windows name, each two bytes are a character, and those beyond 255 and a byte left over become U+FFFD.  ASCII names are read as they are in both.", "quantifier": "every font file with a sorted table directory, every list of name records, every string of bytes", "why_tests_cant": "Decoding depends on every sequence of up to four bytes, and on where in a string sequences are cut off.", "anchors": ["victor/src/fonts/mod.rs:198-257"]}
{"id": "C85", "title": "Embedded fonts are described as in their files", "statement": "Read back independently, the PDF file has for every font that is drawn with and can be embedded a resource whose font program is the font file, whose name is its PostScript name, whose bounding box, ascent and descent are those in the tables head and hhea, and which has for each glyph of maxp the width in hmtx, all in thousandths of an em, cut off after a rounding error of about 2^-22.", "quantifier": "every history of drawing, every font file with a sorted table directory", "why_tests_cant": "The values pass from the bytes of one file format to those of another through rounding and truncation; what is left of each has to be bounded for all of them.", "anchors": ["victor/src/fonts/mod.rs:76-195", "victor/src/pdf/convert.rs:268-397", "victor/src/pdf/object.rs:100-109"]}
{"id": "C86", "title": "Boxes in normal flow do not overlap", "statement": "If no in-flow block box is relatively positioned and none has a negative height, or a negative or percentage margin, padding or border in the block axis, then in the fragments of normal flow each border box and each line begins at or below the end of the one before it, in every box at every depth; in a box of auto height they end within its content box, but for boxes of no height.  If all heights are auto, then of any two border boxes or lines of which neither is inside the other, the first ends at or above the top of the second, wherever in the tree they are.  With percentages boxes may overlap although nothing is negative, as percentages refer to widths that layout makes negative (refuted).", "quantifier": "every box tree of the kind described, out-of-flow boxes and text included, every viewport, every font, every schedule", "why_tests_cant": "Where a box ends up depends on the margins of boxes at any distance in the tree, as they collapse through parents and empty siblings.", "anchors": ["victor/src/layout/flow/mod.rs:81-237", "victor/src/layout/flow/mod.rs:300-439", "victor/src/layout/flow/inline.rs:149-173", "victor/src/layout/fragments.rs:66-116"]}
{"id": "C87", "title": "Comments, processing instructions, doctypes, and how text is cut into nodes do not show", "statement": "Two documents with the same style sheets and the same elements in the same order, with the same text between them, are made into the same PDF file, or both panic, whatever comments, processing instructions and doctypes they have and wherever text is cut into nodes, however long runs of white space in texts are, and whatever the order of attributes with distinct names.  In particular taking a comment out of a document never changes the page.  That holds for selectors of any kind: no program that sees the document through the Element interface can tell the two documents apart, from any element.", "quantifier": "every pair of such documents, every style sheet, every program for matching selectors, every schedule", "why_tests_cant": "The statement relates two runs; tests compare a few pages, and matching goes through siblings and ancestors at any distance.", "anchors": ["victor/src/style/selectors.rs:104-262", "victor/src/layout/dom_traversal.rs:53-125", "victor/src/layout/flow/construct.rs:161-420", "victor/src/paint.rs:8-34"]}
{"id": "C88", "title": "What is inside elements that are not displayed has no effect on the page", "statement": "Two documents that differ, besides comments and such, only inside elements whose display is none, are made into the same PDF file or both panic, as long as their style sheets are the same and each such element has content in both documents or in neither (which :empty can tell).  Elements not displayed are those that user_agent.css lists, such as head, script, style, template and title, and those with a hidden attribute, unless the author sets their display; and hidden inputs whatever the author sets.", "quantifier": "every pair of such documents, every style sheet, every program for matching selectors, every schedule", "why_tests_cant": "The statement relates two runs of the whole program for any contents of any number of elements that are not displayed.", "anchors": ["victor/src/style/selectors.rs:104-262", "victor/src/layout/dom_traversal.rs:53-125", "victor/src/layout/flow/construct.rs:161-420", "victor/src/style/user_agent.css:5-12", "victor/src/paint.rs:8-34"]}
{"id": "C89", "title": "Of an author's style sheets only the leading declarations count", "statement": "For each element and each longhand the declaration that leads is the last of the strongest ones in the rules that match: important ones before others, then by specificity.  Two documents that differ in their style sheets, inside elements that are not displayed, and in comments and such, are made into the same PDF file if on every element the same declarations lead.  So rules that match nothing, declarations that others override, the order of declarations or rules that set different longhands, and whether declarations stand in one rule or several make no difference.", "quantifier": "every pair of such documents and style sheets, every program for matching selectors, every schedule", "why_tests_cant": "The statement relates two runs with different style sheets of any size.", "anchors": ["victor/src/style/cascade.rs:24-108", "victor/src/style/rules.rs:11-46", "victor/src/style/declaration_block.rs:10-125", "victor/src/layout/dom_traversal.rs:53-125", "victor/src/paint.rs:8-34"]}
{"id": "C90", "title": "A text has as few lines as can be, and with more room nothing gets lower or taller", "statement": "A text alone in a block is broken into lines that each fit or cannot be broken, and there is no such way with fewer lines; in a wider block or with smaller letters it has no more lines and is not taller.  On a wider page no box in flow begins lower or is taller, and no text has more lines, if the vertical margins, borders and padding are not percentages and every block has at most one text.  With a second text in the same block (whose room is only what is left where it starts) or with percentages this is false.", "quantifier": "every font without negative widths, every text, every pair of widths and font sizes, every tree of boxes, every schedule", "why_tests_cant": "Optimality compares with all ways of breaking a text; monotonicity relates two runs at any two widths.", "anchors": ["victor/src/layout/flow/inline.rs:69-345", "victor/src/layout/flow/mod.rs:52-439", "victor/src/text.rs:29-66"]}
{"id": "C91", "title": "The tree sink's answers to the HTML parser are true", "statement": "Through any calls of the HTML parser, in any order and with any arguments, up to a panic: each new node gets a handle not used before and not that of the document, so that two handles are the same node just if one call made them; an element keeps the name and the MathML mark it was made with, however the document was changed since; asking for them panics just for what was not made as an element; of the attributes ever given for an element the first under each name counts; and questions make no difference to the document.  HTML says that the contents of a template are not below it in the document: that is refuted.", "quantifier": "every sequence of calls, without any promise about their arguments", "why_tests_cant": "The claims are about all histories; a test sees the calls that html5ever makes for a few pages.", "anchors": ["victor/src/dom/html.rs:20-209", "victor/src/dom/mod.rs:102-158", "victor/src/dom/mod.rs:277-300"]}
{"id": "C92", "title": "Floats and absolutely positioned boxes do not change the normal flow", "statement": "A page is its normal flow, then the boxes positioned with respect to the page.  The normal flow is that of the same page with every float and every absolutely positioned box taken out, at any depth: all other blocks, all lines and all letters have the same places, sizes, margins and styles, every container is as high and its margins collapse in the same way, and nothing more can panic.  What is left over is empty fragments of no size, and one fragment at the end of the children of a relatively positioned box.  Two pages that differ in such boxes only have the same flow.  All of this holds in exact arithmetic and in any other, such as that of f32.", "quantifier": "every box tree, page size, font and schedule of the threads; any number and depth of the boxes taken out", "why_tests_cant": "A test takes some boxes out of a few pages; that nothing in flow can depend on any of them is a claim about all pairs of pages.", "anchors": ["victor/src/layout/flow/mod.rs:106-290", "victor/src/layout/flow/mod.rs:298-439", "victor/src/layout/flow/inline.rs:68-147", "victor/src/layout/positioned.rs:85-113", "victor/src/layout/flow/root.rs:87-121"]}
{"id": "C93", "title": "The order of attributes, prefixes, and what is written in comments and doctypes do not show", "statement": "Take any calls of an HTML parser, and change the order of the attributes of tags, the prefixes of element names, the marks of MathML integration points, and what comments, processing instructions and doctypes say.  These too are calls such as an HTML parser makes, they do not panic, the documents have the same elements, texts and style sheets, and the PDF files are the same, byte for byte.  With two attributes of the same name it would matter which is first: that is refuted, and why tags must not have such.", "quantifier": "every sequence of calls and every such change of it, at any number of places; every style sheet, selectors of any kind matched through the Element interface", "why_tests_cant": "The claim is about all pairs of documents that differ in this way.", "anchors": ["victor/src/dom/html.rs:20-209", "victor/src/dom/mod.rs:47-60", "victor/src/dom/mod.rs:254-259", "victor/src/style/selectors.rs:104-262", "victor/src/layout/dom_traversal.rs:53-125", "victor/src/paint.rs:8-34"]}
{"id": "C94", "title": "Writing a PDF to a stream that fails writes a beginning of the file and reports the error", "statement": "Take any document and any stream, which may take less than it is given, be interrupted, fail or panic at any call.  Writing the document is a list of calls, the same for all streams, made in order up to the first that does not succeed, and together given the bytes of the file.  So success means that the stream has the whole file; otherwise it has a beginning of it, and the error or the panic returned is the stream's, or that for a stream that takes nothing.  Offsets count the bytes, and no assertion fails.  Writing to a vector does not panic.  Writing to a file leaves a beginning of the document in it, the whole of it if the disk never fails; with success at most the last 8192 bytes are missing.  That success means that the file is complete is refuted: the errors of the last buffer are ignored, so that a document of less than 8192 bytes is written with success to a full disk.", "quantifier": "every document, every stream given by a state and a write_all function, every sequence of answers of a stream that has only write, every file and disk, every way in which dtoa cuts numbers into calls", "why_tests_cant": "A test has a stream or two that fail at a few places; the claim is about every stream and every place.", "anchors": ["victor/src/pdf/mod.rs:33-57", "victor/src/pdf/object.rs:150-254", "victor/src/pdf/syntax.rs:65-137", "victor/src/pdf/syntax.rs:153-180", "victor/src/pdf/convert.rs:39-58"]}
{"id": "C95", "title": "The program writes the same file for pages that differ in nothing that shows, with the rounding of f32", "statement": "Take the whole program with layout and painting in any arithmetic in which zero equals itself, such as that of f32 with its rounding, infinities and NaN.  With too few arguments it touches no file; otherwise it reads the input and writes at most the output.  For any page from an HTML parser whose style sheets have no value followed by something else it ends without a panic and writes the same file however layout is scheduled, except for contents that cannot be built, for which it always panics before it writes; the glyphs asked for are those of the text of the page apart from spaces, and those in the file if what is asked for can be written.  Two pages that differ only in comments, in elements that are not displayed, in declarations that do not lead, in the order of attributes or in prefixes give the same file, byte for byte.  In exact arithmetic it is the program of C74.", "quantifier": "every input and pair of such inputs, every arithmetic, every style sheet, selectors of any kind matched through the Element interface, every schedule, every file system, both builds", "why_tests_cant": "Rounding errors are where two ways to the same page come apart, and tests meet few of them; the claim is about all pairs of pages.", "anchors": ["victor/src/main.rs:1-12", "victor/src/paint.rs:8-34", "victor/src/layout/flow/root.rs:3-10", "victor/src/layout/dom_traversal.rs:53-125", "victor/src/style/selectors.rs:104-262"]}
{"id": "C96", "title": "White space that follows white space, or starts a block, does not show", "statement": "Take any two documents whose contents are the same once every run of white space is one space, and no space follows a space or comes first in a block, in an inline element or after a block; text may be cut into nodes in any way.  They give the same boxes, or cannot be built either way, and so the same PDF file, byte for byte, in exact arithmetic and in that of f32.  Such are contents with white space added to a run of it, at the start of a block or an inline element, after a block or after text that ends with white space, at any depth.  HTML files whose texts differ in the length of runs of white space, or in what white space it is, give the same file if their style sheets are the same.  That white space at the end of a block does not show is refuted: it is kept in the text of the last line.", "quantifier": "every pair of such documents, at any number of places and any depth, every style sheet, selectors of any kind matched through the Element interface, every arithmetic, every schedule", "why_tests_cant": "The claim relates two runs, and white space is dropped one text at a time, with only the boxes built so far to look at.", "anchors": ["victor/src/layout/flow/construct.rs:194-291", "victor/src/layout/flow/construct.rs:161-192", "victor/src/layout/dom_traversal.rs:53-125", "victor/src/dom/html.rs:20-209", "victor/src/paint.rs:8-34"]}
{"id": "C97", "title": "XML files are made into pages like HTML files", "statement": "Take any well-formed XML file, as the events of xml-rs: one root element with comments and processing instructions around it and texts that are UTF-8.  It is parsed into a document with no style sheets and, if its style attributes are clean, exactly one thing to display.  Laid out and painted, in exact arithmetic or that of f32, it gives a PDF file whose glyphs are those of its text in document order, white space apart, read back from the bytes written; or no file if the boxes cannot be built, on every schedule.  Two files with the same content, whatever their comments, processing instructions and cuts of text, give the same document; and an XML file gives the same PDF file, byte for byte, as any HTML file whose document differs from its own in nothing that shows.", "quantifier": "every list of xml-rs events of a well-formed file, of any depth and length, every arithmetic with a zero, every schedule", "why_tests_cant": "The claim is about files of every depth, and relates two parsers that share no code.", "anchors": ["victor/src/dom/xml.rs:5-61", "victor/src/dom/mod.rs:78-103", "victor/src/layout/dom_traversal.rs:53-125", "victor/src/dom/html.rs:20-209", "victor/src/paint.rs:8-34"]}
{"id": "C98", "title": "Texts have as few lines as can be also in the arithmetic of f32", "statement": "In f32 a sum or product of larger numbers that are not negative is never smaller, infinity included.  From this alone: the lines of a text in a block are one way of breaking it at spaces so that no line is too wide that could be broken, each with the glyphs of its part, where widths are added up letter after letter with rounding; no other way has fewer lines; and in a wider block or with smaller letters the text has no more lines and is not taller.  The widths of the glyphs of Vera.ttf are such numbers.  That f32 gives the lines of exact arithmetic is refuted: rounding may make one more line.", "quantifier": "every text, font with widths that are not negative, font size, width of a block and schedule, in any arithmetic in which operations keep the order, of which f32 and exact arithmetic are two", "why_tests_cant": "There are exponentially many ways of breaking a text, and which lines fit depends on how each sum is rounded.", "anchors": ["victor/src/layout/flow/inline.rs:270-345", "victor/src/layout/flow/inline.rs:149-173", "victor/src/style/values/length.rs:102-187", "victor/src/text.rs:48-53", "victor/src/fonts/mod.rs:153-176"]}
{"id": "C99", "title": "How far rounding takes widths and heights of text, and when it cannot change the lines", "statement": "The width of a text of n letters added up in f32 differs from the exact one by at most n parts of 2^23 of it, and in pixels by at most n + 1, apart from underflow.  If no part of a text that can be a line of it is that near to the room there is, then the program breaks it into exactly the lines of exact arithmetic, with the same glyphs; and the height of the block differs by at most 2 k + 2 parts of 2^23 for k lines.  The widths of the glyphs of Vera.ttf meet the conditions.", "quantifier": "every text of fewer than 2^23 characters, every font whose widths are finite, not negative and at most 2^64 em, every positive font size up to 2^63, every finite width of the block, every schedule", "why_tests_cant": "Rounding errors accumulate with the length of the text, and there are as many possible lines as pairs of spaces.", "anchors": ["victor/src/layout/flow/inline.rs:270-345", "victor/src/layout/flow/inline.rs:149-173", "victor/src/style/values/length.rs:102-187", "victor/src/text.rs:48-53"]}
{"id": "C100", "title": "Text is shown in its own font, whatever the addresses of fonts", "statement": "The document recognises fonts by the address of their allocation.  No program that uses the crate, with any allocator that gives out addresses again once they are free, makes a reference to a font dangle, or has text shown in another font than the one loaded last where its reference points: the document is byte for byte that of the same requests with each font under a name of its own.  Each font that can be embedded is embedded once.  Dropping the document frees the fonts it kept, each once.  The map by address finds a font's entry with every hash function.  A font that cannot be embedded is put into the file at each attempt.", "quantifier": "every sequence of loading, cloning and dropping fonts, adding and dropping pages and drawing, every choice of free addresses by the allocator, every hash function", "why_tests_cant": "Which addresses are given out again depends on the allocator and on everything else the process does.", "anchors": ["victor/src/pdf/convert.rs:24", "victor/src/pdf/convert.rs:61-92", "victor/src/pdf/convert.rs:268-397", "victor/src/fonts/mod.rs:76-84", "victor/src/pdf/mod.rs:21-74"]}
{"id": "C101", "title": "The numbers of a document are those of binary32 throughout", "statement": "If the numbers that cssparser finds in style sheets and style attributes are numbers of IEEE 754 binary32, then every length in the computed style of every element, in the style of every box of the box tree (anonymous ones too) and in every fragment laid out with any font on a page is one, multiples of the font size included; the widths of glyphs of every font are finite numbers of binary32.  A multiple of the font size is the number nearest to the exact product.  Only such numbers, and 255ths for the components of colours, are printed into the PDF: it does not depend on how any other number would be printed.", "quantifier": "every document, every style sheet and attribute, every font file, every scheduling of layout", "why_tests_cant": "The product of a font size and a multiple is nearly always inexact; that no step of the cascade, of box construction or of layout lets an exact or wider product through is a statement about all values at once.", "anchors": ["victor/src/style/values/length.rs:59-92", "victor/src/style/values/fonts.rs:16-23", "victor/src/style/properties/macros.rs:191-234", "victor/src/layout/flow/construct.rs:107-158", "victor/src/fonts/mod.rs:153-176", "victor/src/paint.rs:8-90"]}
