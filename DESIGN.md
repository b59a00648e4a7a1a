# Design of the formal model of SimonSapin/victor

The model is written in Coq 8.16.1 (`/verif/rocq/theories`, logical name `Verif`).
It models the Rust source in `/repo` function by function; every definition cites
file and lines.  Properties are in `properties.jsonl`, the mapping from property to
theorem in `MANIFEST.json`.

## 1. Conventions

* **Bytes** are `N` below 256, byte strings are `list N`; a Rust `u8` constraint is the
  explicit predicate `wf_bytes`.  ASCII literals of the source are written `bs "..."`.
* **Machine integers** are `N`/`Z`; truncating casts are written `mod 2^k`, and overflow
  that panics in a debug build is an explicit `Panic` result.
* **Results**: `Result<T, E>` is `res T` with constructors `Ok`, `Err e`, and `Panic`
  (assertion failure, index out of bounds, debug-mode arithmetic overflow, `unwrap`).
* **`&mut self` methods** return the new value.  Loops are structural recursions, folds, or
  recursion on explicit fuel whose exhaustion is a distinct value that theorems exclude.
* **`io::Write`** sinks are infallible byte accumulators (the code itself uses `Vec<u8>`
  and `unwrap`), except in `PdfStream.v` (C94), which has the same functions over any stream,
  and in `Lester.v`.
* **f32** is modelled by exact rationals `Q` in layout code, and by exact decimals
  (sign, digits, exponent) where only the textual form matters (PDF output).  Rounding,
  NaN and infinities are not modelled unless a comment says so.  What pdf/convert.rs computes
  (three quarters of the size of a page, the key of an opacity) is rounded as the code does, and
  numbers are printed with the digits that dtoa's Grisu2 gives (`Dtoa32.v`, C80).  The sizes in a font are an
  exception: `Float32.v` rounds them to the nearest binary32 number as the code does
  (`to_ems`, `of_em`), because the widths written in the PDF file depend on it.  Layout and
  painting are modelled a second time in `LayoutArith.v` with rounding, infinities and NaN
  (C75): what holds only of exact numbers is in the properties before it.  In the cascade,
  multiples of the font size are rounded to binary32 as the code does (`StyleValues.v`).
* **Check against a real file.** `PdfExpected.v` has the document of tests/pdf.rs
  (three real fonts, whose bytes are in `VeraFile.v` and `ExpectedFiles.v`, two pages, text,
  colours, transparency).  `Eval vm_compute in test_doc_is_expected` gives `true`: what the model
  makes of it is, in all its 173811 bytes, tests/expected.pdf, which the real program wrote.  It
  is a test and not a theorem, and not part of the build, where it would take 15 minutes.
  `AliceExpected.v` has the document of tests/alice.rs (a chapter of 5 KB in justified lines): `Eval vm_compute in
  alice_is_expected (included 1 vera_ttf)` gives `true` after 13 minutes, so that all lines, pages and
  positions computed in binary32 and all digits printed are those of tests/alice.pdf, 151424 bytes.  Where
  lines may be broken comes from the crate xi-unicode and is input: it was read off the expected file.
* **External crates** are not modelled: html5ever's tree builder, xml-rs' tokenizer,
  cssparser's tokenizer, the `selectors` matching engine, xi-unicode, rayon, cairo
  and poppler (dtoa's digits are: `Dtoa32.v`).  They appear as input data (event lists, operation
  lists, token lists) or as function parameters over which theorems quantify.

Every theorem lives in a `*Props.v` file as `Theorem name : statement. Proof. exact lemma. Qed.`
followed by `Print Assumptions name.` and preceded or followed by an `Example` showing a
concrete instance of its hypotheses.  Specifications (readers, tree relations, orders) live
in `*Spec.v` files that do not import the model's helper functions.

## 2. Plan per property

| id | model | proof |
|----|-------|-------|
| C01 | `PdfObject.v`: `obj`, `write_obj` | separate recursive-descent reader `PdfObjectSpec.v`; induction on object depth, reader consumes exactly the output for any terminator |
| C02 | `write_name` | iff by induction on the name, with the 256-entry class table checked against the ISO character classes |
| C03 | literal and hex strings | induction on the string; spec reader implements ISO escapes and EOL normalisation |
| C04 | `write_real` (dtoa's layout rules on digits and exponent) | case analysis on the four layouts, value as a rational |
| C05 | `add_stream` | reader uses Length; from C01 |
| C06 | `PdfSyntax.v`: `pdf_write` with a counting writer | prefix-sum invariant over the object list, then spec reader from the end of the file |
| C07 | `PdfFile` as a state machine | invariant `next_id = 4 + number of objects`, refinement to a finite map |
| C08 | same | symbolic witness with a 2^32-byte object |
| C09 | `PdfConvert.v`: document/page state machine | invariant over operation histories |
| C10 | same | content-stream interpreter as spec; simulation invariant between writer state and interpreter state |
| C11 | same | invariant on key tables |
| C12 | `write_bfchar` chunking | CMap reader as spec; induction on list with the 100-entry buffer |
| C13 | `FontParsing.v` | case analysis on lengths |
| C14 | `binary_search` with fuel | loop invariant |
| C15 | `find_table` | from C14 |
| C16, C17 | `FontCmap.v` | from C13/C14, spec on decoded segment/group lists |
| C18 | `each_code_point` | induction over segments; sortedness gives agreement; refutation witness |
| C19 | `SliceIter` | induction on count; refutation witness font |
| C20 | `glyph_width`, `to_ems`, `of_em` with `Float32.v` | error bound of rounding to 24 bits, then arithmetic on fractions with denominator unitsPerEm |
| C21, C22, C23 | `Dom.v`: arena with option links | refinement to an ordered-forest abstraction (`child list` function) preserved by each operation; traversal equals pre-order of the abstract tree |
| C24, C25, C27 | `Dom.v`: the tree sink | from C22 |
| C26 | `DomXml.v` | induction over well-nested event trees; node numbers are document order |
| C38, C39 | `Dom.v` | invariant `style_elements` = all style elements by number; from C23 |
| C28, C29 | `StyleCascade.v` | `css_style` in `StyleSpec.v` says what the style is from the set of declarations and the CSS order alone; the four folds of the cascade apply the declarations in that order (`all_occs_sorted`), each phase is last-writer-wins; insertion sort models the stable sort, any stable sort gives the same list |
| C30, C31, C33 | `StyleProperties.v`, `StyleCascade.v` | consequences of `css_style`; the fix-ups by cases on the longhand |
| C32 | `parse_four_sides` in `StyleValues.v` | inversion of the reading relation; refutation witness |
| C34, C35 | `StyleSelectors.v` | on the DOM abstraction of C21 |
| C40 | `parse_block` in `StyleCascade.v` | invariant of the loop (`block_ok`); effect of one item by cases |
| C41, C42 | `StyleProperties.v`, `StyleValues.v` | the table by computation; values by cases on the kind of longhand |
| C43 | `Geom.v`, spec `GeomSpec.v` | cases on the mode; linear arithmetic |
| C44 | `adjoin`, `solve` in `LayoutTree.v` | induction on the tree of margins |
| C45, C46 | `Layout.v` (all of `layout/` but box construction and paint), spec `LayoutSpec.v` | induction on the box tree with the placement state as invariant (`LayoutBlockProofs.v`, `LayoutWidthProofs.v`) |
| C47, C48 | same | cases of `solve_axis`; induction on the box tree over the collected boxes (`LayoutAbsoluteProofs.v`) |
| C49 | schedules as arbitrary split trees, one per parallel iterator | appending to an accumulator commutes with layout (`LayoutScheduleProofs.v`) |
| C50 | same | totality by induction; length of the text as measure (`LayoutTotalProofs.v`) |
| C51 | `StyleValues.v`, `StyleProperties.v` | permutations of components by induction on the loop; attributes, links and ids of C34 are in the same file (`StyleBorderProps.v`) |
| C52 | `Text.v`, `fill_line`, `text_run_layout` in `Layout.v`; spec `InlineSpec.v` | invariant of the loop over characters with the saved break opportunity (`InlineProofs.v`); the specification determines the lines (`InlineLineProofs.v`) |
| C53 | inline layout in `Layout.v`; spec `InlineSpec.v` | the stack of open boxes commutes with line breaks (`nest`), then induction on the boxes (`InlineBoxProofs.v`) |
| C54-C57 | `BoxTree.v`; spec `BoxTreeSpec.v` | the loop over nodes follows the forest (C21, C23); invariant between the builder and what has been seen (`BoxTreeProofs.v`); mutual induction on the specified boxes (`BoxShapeProofs.v`) |
| C58 | same and `Layout.v` | C54 with C50; boxes have displays that generate boxes by C33 |
| C59 | `BoxSlots.v` runs the steps recorded by `BoxTree.v`, those of parallel branches interleaved; spec `BoxSlotsSpec.v` | construction gives different branches different elements, and each element its own steps in order (`BoxSlotsTreeProofs.v`); invariant per element over all moves (`BoxSlotsProofs.v`); the walk that never returns stays after the element in document order |
| C60 | `Paint.v`: `paint.rs` with `round` for the conversion of exact rationals to `f32`; spec `PaintSpec.v` | painting is a list of requests to the writer (`PaintProofs.v`); the reader of C09-C11 shows them; fragments are upright by induction on boxes (`PaintTextProofs.v`) |
| C61 | same and `BoxTree.v`, `Layout.v`; spec `document_order` in `PaintSpec.v` | induction on boxes with the absolutely positioned boxes as predicates on what they will show (`orders`), then mutual induction on the specified boxes (`order_kept`); C60 for the file |
| C62 | `TextPlain.v`: `text_plain.rs` with the pairs of the line break iterator as an argument; spec `TextPlainSpec.v` | the rewindable iterator is a list of pieces still to come; induction on it for a line, the lines of a page and pages, ending in a list of requests; reader of C09-C11; lines and pages are unique (`lines_unique`, `pages_unique`) |
| C63 | `Lester.v`: `lester/src/cairo.rs` callbacks; cairo is a tree of calls (`png_reader`, `png_writer`) for every answer; spec in `LesterSpec.v` | induction on the tree with a log of the stream's operations (`LesterStreamProofs.v`); for files an invariant of contents, room and buffer |
| C64 | all of `lester/src/{cairo,poppler,errors}.rs`; code is a function of the history of C calls; a client is any list of interface operations | ownership triples for each function, also when it unwinds (`LesterProofs.v`), and an invariant of clients |
| C65 | `PagesIter` in `Lester.v` | the range is a queue of numbers (`iterate_queue`) |
| C66 | `LesterFloat.v`: binary64 by exact rationals and rounding to 53 bits; `render_with_options` | monotonicity, exactness and relative error of rounding (`LesterFloatProofs.v`); a number of 53 bits is what the product just below it is rounded to (`round_back`) |
| C67 | `pixels`, `pixels_to_hex`, the derived `PartialEq` | case analysis with overflow in both builds |
| C68 | `TaggedUnion.v`: the macro as a function from the declaration and the arms to a dispatcher on bytes; spec `TaggedUnionSpec.v`: matches and the layout of `repr(C)`/`repr(usize)` of the Rust reference | the table is the arms in order (`TaggedUnionProofs.v`); offsets by induction on fields; the longhands by cases |
| C69 | `Reftests.v`: `tests/reftests.rs` with a log of what is done; files, HTML, PDF and rendering are arguments; spec `passes`, `relative_to` in `ReftestsSpec.v` | induction on references, pages and the directory tree (`ReftestsProofs.v`) |
| C70 | `Derives.v`: each macro as a function from the declaration (as syn parses it) to the code written, which has a meaning and conditions to compile; spec `DerivesSpec.v` | words of names by induction on the loop; the statements follow the variants (`DerivesProofs.v`); shapes of declarations, sums of sizes (`DerivesProofs2.v`); the declarations of the repository by computation |
| C71 | the bytes of Vera.ttf (`VeraFile.v`) with the font parser of C13–C20 | the table directory, sizes and the 29 segments of the character map by computation; all characters from the theorems on format 4 (C17, C18) since the segments are well formed; distinct glyphs by computation on the 256 pairs (`VeraProofs.v`) |
| C72 | everything from a document to its file, as in C60 and C61; spec `ExtractSpec.v` (candidates of each code by the ToUnicode CMap read from the file) | C61 gives the glyphs on the page and that the font is represented in the file; with one character per glyph the candidates are the character (`ExtractProofs.v`) |
| C73 | `UserAgent.v`: the sheet as cssparser and the selectors crate deliver it, its three kinds of selectors and their specificity, with any other selectors for authors; spec `UserAgentSpec.v` (display as a relation on elements) | the sheet is evaluated to a list of 46 lines (selector, declaration, importance), the same for every colour parser; the winner of C28 is looked up among them, a line of higher specificity excludes the others (`UserAgentProofs.v`) |
| C74 | `Main.v`: `main` as a function from arguments and answers of the file system to actions and an outcome, with Vera.ttf and the sheet of C73; html5ever, cssparser and author selectors are parameters; spec `MainSpec.v` (html5ever's promises; clean style sheets) | texts stay UTF-8 by an invariant over all calls, as in C38; styles exist for all elements by C28 and C40, the root by C39, contents by C54, the file by C72 (`MainProofs.v`) |
| C75 | `Arith32.v`: the operations on lengths as a record, exact rationals and IEEE 754 binary32 as two of them; `LayoutArith.v`: geometry, layout and painting again with every operation from the record, in the order of the code; spec `LayoutArithSpec.v` | with exact rationals the two models are convertible; the inductions of C49, C50 and C61 again without any law of arithmetic but 0 + 0 = 0 (`LayoutArithProofs.v`, `LayoutArithTextProofs.v`, `LayoutArithPaintProofs.v`) |
| C76 | as C75; spec `LayoutRelSpec.v`: when two box trees, styles and fragments are the same but for their lengths | layout is parametric in its lengths (`LayoutRelProofs.v`): one simultaneous induction on box trees shows that if two arithmetics keep a relation between lengths, layouts of related box trees are related; multiplication by a positive number is kept by exact arithmetic |
| C77 | as C75 and C76 | parametricity with equality of lengths and any relation between styles that keeps what layout reads; each property needed by computing two layouts |
| C78 | as C75; spec `Arith32Spec.v`: numbers of binary32 and the nearest one, after IEEE 754 | rounding is to the nearest multiple of a power of two, and the numbers of binary32 that are not such multiples are smaller than one that is (`Arith32Proofs.v`); parametricity with the relation "equal, and a number of binary32" |
| C79 | `FontTypes.v`: `types.rs`, which nothing calls yet; times of the system as 64-bit seconds; spec `FontTypesSpec.v` (the Gregorian calendar, day by day) | the number of a date in closed form steps by one from each day to the next; 24107 days between the epochs by computation |
| C80 | `Dtoa32.v`: Grisu2 of the crate dtoa on 32-bit integers, `Float32Print.v`, `times_scale` and `alpha_key` of `PdfConvert.v` | the scaled value and its boundaries are each within one unit of the exact ones, so that what is between the boundaries moved inwards by one unit is between the exact ones; invariants of the two loops of digit generation and of `grisu_round`; `Dtoa32Proofs.v` |
| C81 | `TextPlainArith.v`: text_plain.rs in any arithmetic, binary32 included | invariant of the loop over the breaks (`TextPlainArithProofs.v`): the words of the line so far, the lines of the page so far and the pages before; the only law of the arithmetic used is that 0 is not greater than itself; the file by C80 and C63's reader |
| C82 | as C81; spec `TextErrorSpec.v` | sums of binary32 numbers below 2^-125 are exact, since all numbers are multiples of 2^-149, so that an addition's error is relative; induction over the terms of a sum with the number of additions so far (`TextErrorProofs.v`) |
| C83 | `TextPlainArith.v`, `TextGreedySpec.v`, `TextGreedyProps.v` | lines of plain text and their number, in exact arithmetic and in binary32 | Other ways to break a text are lists of lines that fit (`broken_into`). Induction over the lines with a comparison of what is left of the text; binary32 addition of amounts is monotone and never below either summand (`f32_adds_up`), from monotone rounding. |
| C84 | `FontCmap.v`: read_postscript_name with `String::from_utf8_lossy`; spec `NameSpec.v` | UTF-8 by the arithmetic of its bits, and the replacement of maximal subparts as Unicode defines it, both as relations; bytes are classified by their first byte (`second_cases`), each failing branch of the decoder gives a maximal subpart (`lossy_read`), and decompositions are unique (`read_as_unique`) |
| C85 | `FontCmap.v`, `PdfConvert.v`; spec `FontEmbedSpec.v` | from C11 (what a reader finds of each font), C37 (the values of the tables) and C84; the two roundings are bounded together (`scaled_of`) |
| C86 | `Layout.v`; spec `BlockStackSpec.v` | from C45 and C46: distances with nothing negative only grow (`distance_mono`), a box ends before what it adds to the flow does (`fits_auto`, with the cases of collapsing margins), then induction on the derivations of C46 together with those of C45 |
| C87 | `StyleSelectors.v`, `BoxTree.v`, `Main.v`; spec `AlikeSpec.v` | pairs of the same element in both documents are a bisimulation for the `Element` interface (C34), so any program answers the same; then styles, and by induction on alike lists what is displayed, are the same up to the cutting of text; text may be cut into single characters without changing the boxes (`boxes_letters`, by induction on the specification of C54), which are unique (C54). `through_interface` is a hypothesis about the selectors crate, which is generic over the `Element` trait |
| C88 | as for C87 | `alike` has a case for hidden elements, whose contents need not be alike; the interface sees the contents of an element only through `is_empty`, so the bisimulation of C87 goes through; hidden elements have display none by C73 (`C88_not_shown`, `C88_hidden_input`), and what has is left out (C54). C87 is the case without hidden elements. `C88_author_shows_head` shows that the condition on the author's style sheets is needed |
| C89 | `StyleCascade.v` and as for C87; spec `RulesSpec.v` | the author's occurrences of C28 are listed in order; the one that leads the list beats all others there (`leads_chief`); against other origins and the style attribute only its importance counts, so with the same leaders the winners have the same declarations (`wins_same`) and the style is the same by the uniqueness of C28, here with the specified display too (`style_det_all`); then as C88 |
| C90 | `Layout.v`, spec `WiderSpec.v` | greedy breaking is compared with any other way line by line: after the same number of lines it is never behind (`fewest_lines`); a way of breaking for a narrow block or large letters is one for a wide block or small letters; then mutual induction over the boxes with two runs side by side (`wider`) |
| C91 | `SinkCalls.v`, spec `SinkCallsSpec.v` | for every call, whether or not its arguments make sense, what it does to the data of all nodes (`op_step`); then the state agrees with the history of calls and answers (`session`), by induction on the calls from the last one |
| C92 | `Layout.v`, spec `OutOfFlowSpec.v` | induction on boxes (`flow_same`): laying out what is left gives the same fragments whatever the schedule, the rank and the boxes collected so far, and collects nothing; placing a placeholder changes no state (`place_flow`); the same over any arithmetic of `LayoutArith.v` in `OutOfFlowArithProofs.v` |
| C93 | `Dom.v`, spec `MarkupSpec.v` | the two runs side by side: all links are equal and the data alike after every call (`op_alike`); then the documents are alike in the sense of C87, whose relation allows attributes in any order |
| C94 | `PdfStream.v` (pdf/object.rs, pdf/syntax.rs and pdf/mod.rs call by call over any stream; `BufWriter` from `Lester.v`), spec `PdfStreamSpec.v` | the list of calls is computed apart from any stream (`file_calls`); every function makes its calls in order up to the first failure (`does`, closed under sequence and loops); together they are given the bytes of the model without failures (`file_bytes`); the buffer and the file together are a stream that keeps what it takes (`buf_honest`) |
| C95 | `MainArith.v` (main.rs over `LayoutArith.v`), specs of C74, C75, C87, C88, C89, C93 | the boxes of the two pages are equal (`C88_boxes`, `C89_boxes`), so what comes after them is too, in any arithmetic; `C75_document` for the font of C71; with `exact` it is `victor_main` |
| C96 | `BoxTree.v`, `Dom.v`; spec `WhiteSpec.v` | taking out the spaces that do not show (`tight`) does not change the boxes: by induction on the specification of C54 (`boxes_tight`), where the text so far of a paragraph tells whether a space is dropped; then C87 for how text is cut. `MarkupSpec.v` is over when two texts count as the same, so that C93 and `C96_html` are two cases of one simulation of the calls |
| C97 | `DomXml.v`, `MainArith.v`; spec `XmlPageSpec.v` | the events of a file are numbered as C27 says, so the document is a tree with one element (`file_trees`, `xml_parsed`) and the hypotheses of C82, C83 and C95 hold for it; `C97_same` because what is parsed depends on the content alone |
| C98 | `LayoutArith.v`, `Arith32.v`; spec `RoundedLinesSpec.v` | rounding to nearest keeps the order (`rounded_le`, from `rounded_nearest` alone), so `f32` is `orderly`; a part of a line that fits then fits, and the argument of C90 about greedy breaking, made over what fits (`fewest1`), applies |
| C99 | `LayoutArith.v`, `Arith32.v`; spec `RoundingSpec.v` | a sum of two f32 has a relative error alone, as small ones are exact (`sum_error`); errors of sums by induction (`near_sum`); the lines depend on which possible lines fit alone (`lines1_same`, `lines1_fun`) |
| C100 | `FontIdentity.v` (memory with counted references, the map by address); spec `FontIdentitySpec.v` (what was loaded last at an address) | invariant of runs (`inv`, `step_inv`): counts are owners plus keys, and keys still point to the font they were added for; `add_font_like`; C10 and C11 then need no condition on addresses |
| C101 | `StyleValues.v`, `StyleCascade.v`, `BoxTree.v`, `LayoutArith.v`, `FontCmap.v`; spec `StyleNumbersSpec.v` (the numbers of tokens) with `style_numbers` and `fragment_numbers` of `LayoutRelSpec.v` | each parser yields the numbers of its tokens (`parses`), each step of the cascade keeps `style_numbers`; invariant of the builder (`ok`) that all its boxes have such styles; then C78; painting with two printing functions compared (`paint_same`) |
| C36 | `FontParsing.v`, `FontCmap.v` with the build mode as parameter | compositional no-panic lemmas; loop counters modulo 2^16/2^32 as measure; debug/release agreement by congruence |
| C37 | `parse_font` | inversion of the monadic chain, from C13 and C15 |

Further properties are appended as the model grows; their plans are appended to this table.

## 3. Trusted base

* The Coq kernel (8.16.1) and the `coqc` toolchain.
* Axioms: what `Print Assumptions` prints for each theorem.  The intention is *Closed under
  the global context* for all; deviations are listed in section 5.
* The correspondence between the Rust text and the Coq definitions (checked by reading only).
* The specification readers, which encode our reading of ISO 32000-1, OpenType, DOM and CSS.

## 4. Findings

Statements one would expect to hold and that are false of the code, each with a theorem
giving a witness:

* `C02_refuted`: PDF names containing `#` are written unescaped, so a reader decodes them
  differently (`write_name`).
* `C03_literal_strings_refuted`: a CR byte in a literal string is not escaped and is read
  back as LF.
* `C04_reals_refuted`: reals of very large or small magnitude are written in exponent
  notation, which PDF does not have.
* `C08_large_files_refuted`: cross-reference offsets are truncated to 32 bits.
* `C17_overflow_refuted`, `C18_format12_refuted`: format 12 groups with large glyph numbers:
  overflow in lookup; enumeration reports glyph numbers modulo 65536 that lookup calls missing.
* `C18_backwards_refuted`: a format 4 segment that starts after its end is enumerated by way of
  65535 and 0 in release builds, so the ToUnicode map of the PDF gets characters that lookup
  never finds (cmap.rs:130-152).
* `C19_refuted`, `C19_font_refuted`: backward iteration over font records visits records
  n..1 instead of n-1..0; a font whose only character map is its first (and only) record is
  rejected.
* `C22_insert_before_itself_refuted`: outside html5ever's promises (`insert_before(s, s)`) the
  links break without any assertion failing.
* `C25_reparent_refuted`: `reparent_children` moves only the first child, because it reads
  `next_sibling` after the move.
* `C38_xml_refuted`: style elements of XML documents are never recorded, so their style
  sheets are ignored.
* `C39_text_at_the_top_panics`: text beside the root element (white space in XML, if the reader
  reports it) makes `root_element` panic.
* `C32_four_values_refuted`: `margin: 1px 2px 3px 4px` gives the left margin 2px and the right
  one 4px; CSS says the reverse.
* `C33_root_refuted`: the root element keeps its inline display.  (`layout/flow/root.rs` ignores
  the outer display type of the root, so this is not visible in layout.)
* `C35_several_words_refuted`: `.a` does not match `class="a b"`.
* `C40_trailing_refuted`: `color: red red` makes the parser of declaration blocks panic, because
  the block has been changed when cssparser reports the error.
* `C41_border_right_color_refuted`: the longhand is called `border-color-right`.
* `C42_case_refuted`, `C42_negative_refuted`, `C42_border_percentage_refuted`: `display: Block` is
  rejected; negative paddings and sizes, and percentages as border widths, are accepted.
* `C45_sum_refuted`: the left margin is left out when the right one is solved for, so a box of
  width 100 with a left margin of 10 takes up 210 of 200.
* `C45_negative_refuted`: auto margins and auto widths become negative when there is no room.
* `C45_relative_percentage_refuted`: percentages of `left` refer to the box instead of its
  containing block.
* `C46_zero_height_refuted`: margins do not collapse through a box with `height: 0`.
* `C47_block_axis_refuted`, `C47_right_refuted`: absolute positioning uses the width of the
  containing block for heights, and its height for `right`.
* `C48_static_position_refuted`, `C48_inline_refuted`: static positions are off by the padding of
  the containing block; relatively positioned inline boxes do not form containing blocks.
* `C52_room_refuted`: lines after the first of a text are only as long as the room its first line
  has.
* `C52_overflow_refuted`: a text that starts on a line after a space is not moved to the next line
  if it does not fit.
* `C53_width_refuted`, `C53_relative_width_refuted`: the width of an inline box is computed from
  positions relative to different boxes.
* `C53_relative_lines_refuted`: the offset of a relatively positioned inline box is lost on its
  second line.
* `C53_height_refuted`: something tall in an inline box makes its fragments on later lines as tall.
* `C54_block_in_inline_refuted`: a block in an inline element (`<b><p></p></b>`) panics
  (`unimplemented!`).
* `C55_css_text_refuted`: `a<b> b</b>` is laid out as `ab`, because white space at the start of an
  inline element is dropped whatever is before the element.
* `C57_text_style_refuted`: text in an element with `display: contents` is appended to the text run
  before it and gets that run's style.
* `C59_ends_refuted`: if an element of display none is the last child of its parent (a `script` at the
  end of the body, say), `unset_boxes_in_subtree` never returns (`C59_never_returns`): its inner loop
  takes the parent of `node` instead of that of `next_is_a_sibling_of`, and the test for the end of
  the subtree only looks at nodes that have a next sibling.
* `C59_schedule_refuted`: on its way it leaves the subtree, where it removes boxes of other elements or
  panics on a borrow, depending on the order of threads.
* `C60_painting_order_refuted`: each block is painted with its text before the next block; in CSS the
  backgrounds of all blocks in normal flow are below all text (it makes a difference where blocks
  overlap, with negative margins for instance).
* `C61_floats_refuted`: floats are not laid out at all; what is in them is not on the page.
* `C62_bottom_refuted`: the test for the end of a page looks at the top of the next line, so the last line
  of a page can lie in the bottom margin.
* `C62_blank_page_refuted`: when the last line of the text fills a page, a blank page follows.
* `C62_trailing_space_refuted`: the space after a word counts when fitting it, so words that would fit are
  moved to the next line (and justified lines end one space before the margin).
* `C63_file_refuted`: `write_to_png_file` returns `Ok` although the disk is full: up to 8192 bytes go out in the
  destructor of `BufWriter`, which ignores errors (there is no `flush`).
* `C63_panic_again_refuted`: `callback` looks at the stored error but not at the stored panic, so a stream that
  panicked is used again if cairo calls again.
* `C65_null_page_refuted`: `PagesIter` panics if poppler returns no page.
* `C66_nan_refuted`: `TryInto<i32> for f64` lets NaN through, as both comparisons are false; the result is an
  image without pixels rather than a panic (and an undefined cast with the compilers of the time).
* `C67_null_refuted`: for an image without pixels `pixels` makes a slice at a null address, which is undefined
  behaviour in Rust.
* `C67_rgb24_refuted`: `Argb32Pixels` of opaque images are compared with the unused byte.
* `C68_order_refuted`: `tagged_union_with_jump_tables!` refuses an exhaustive match whose arms are not in the
  order of the variants (the generated table would otherwise be wrong; it is a compile error).
* `C69_pdf_refuted`: the reference test runner panics for any `.pdf` test or reference, because `pdf_bytes` unwraps
  a document that was only parsed for other file types.
* `C73_namespace_refuted`: the user-agent sheet says `@namespace` to be for HTML elements only, but at-rules are rejected, so that
  for instance the `title` of an SVG image or a MathML element with a `hidden` attribute is not displayed.
* `C73_more_blocks_refuted`: sections, articles, headings, lists and others are inline in the user-agent sheet.
* `C74_every_page_refuted`: `<section><p>Hi</p></section>`, without any style, ends in a panic: a block in an inline (see
  `C54_block_in_inline_refuted`), by the previous finding.
* `C75_finite_refuted`: finite lengths in styles can give a box of width minus infinity, with a box in it whose
  width is not a number; layout goes on with them.
* `C76_f32_refuted`, `C76_rounding_refuted`: a paragraph can be broken into other lines when everything is three
  times as large, and into other lines than with exact numbers, since the width of text is rounded.
* C77: colours and styles of borders never change the file (borders take room but are not painted).
* `C75_without_zero_refuted` (not about the code): the assertions of layout rest on 0 + 0 = 0.
* `C70_keywords_refuted`: `derive(Parse)` gives `Auto` and `auto` the same keyword, so that the second cannot be
  written (no enum of the repository has such names).
* `C70_order_refuted`: `derive(Parse)` tries variants with a field before those without, whatever their order.
* `C20_pdf_width_refuted`: glyph widths are truncated after two roundings, so that an exact number of thousandths
  can be written as one less: advance 502 of 1000 units is written as 501.  Not with a power of two as units per em.
* `C79_panics_refuted`: the conversion of the smallest dates of fonts to times of the system panics.
* `C80_shortest_refuted`, `C80_nearest_refuted` (of dtoa's algorithm, not of victor): 577.2164 is printed with more digits than needed,
  and 284.58932 with other digits of the same length than the nearest.
* `C81_rounding_refuted`: two words of five glyphs, each a tenth of an em (rounded) wide, are found to fit in a line
  that they do not fit in: the sum of rounded sums is the width of the line, the exact sum is a little more.
* `C86_percentage_refuted`: a percentage margin of a negative width makes boxes overlap, although no value in
  the style sheet is negative.
* `C90_inlines_refuted`: the room for every line of a text is what was left on the line where the text starts (`flow/inline.rs:272`), so a block with two texts can have more lines when it is wider (8 lines at 64, 5 at 48).
* `C90_percentage_refuted`: with a percentage as vertical padding boxes get lower on wider pages, as CSS 2 says.
* `C91_template_refuted`: `get_template_contents` answers the template element itself (`html.rs:89-91`), so the contents of templates are nodes of the document. The user-agent style sheet hides them; style sheets inside them would still count (C38).
* `C93_twice_refuted`: with two attributes of the same name the first counts; html5ever drops the second one.
* `C94_file_refuted`: `Document::write_to_pdf_file` does not flush its `BufWriter`, whose `drop` ignores errors: on a full disk a document of less than 8192 bytes (every one, `C94_small_files`) is written with `Ok(())` and the file is cut short or empty.
* `C96_end_refuted`: white space at the end of a block is kept: `<p>a </p>` has the text `a ` with a glyph for the space, where CSS 2 §16.6.1 takes it out.
* `C98_rounding_refuted`: rounding of the widths added up may make a line too wide that is not, so a text may have one more line than in exact arithmetic, where all numbers given are in f32.
* `C100_embedded_once_refuted`: when a font's cmap or widths cannot be read, `add_font` fails only after it has added the font file and the descriptor, and no key is inserted; so each attempt to show text in that font leaves one more copy of the whole file in the PDF, used by nothing (convert.rs:268-300 and 328-364).
* `C36_debug_panics_refuted`: builds with overflow checks panic on crafted fonts.

## 5. Axioms used

(The build loads `Coq.ssr` through `lia`; axioms a checker may list from there, such as those
of `Coq.ssr.ssrunder`, are not used by any theorem.)

`Coq.Logic.FunctionalExtensionality.functional_extensionality_dep`, of the standard library, is
used by C45_widths, C46_heights, C47_used_values, C48_containing_blocks, C49_schedules, C86_stacked, C86_no_overlap, C93_page, C95_document, C95_page, C95_alike, C95_rules, C95_markup, C96_boxes, C96_construct, C96_page, C96_html, C97_document, C97_html, C87_boxes_of_letters, C89_style, C89_contents, C89_boxes, C89_html, C88_boxes, C88_page, C88_html, C87_boxes, C87_page, C87_html, C87_comment,
C50_no_panic, C58_no_panic, C60_upright, C60_document, C61_text, C61_file,
C61_all_text, C61_in_order, C72_extraction, C72_document, C74_document, C74_text, C75_schedules,
C75_no_panic, C75_upright, C75_text, C75_document, C75_finite_refuted, C76_zoom, C77_noninterference and
C77_page: an absolutely positioned box holds the function that lays out its contents, and
two schedules give functions that are equal at every argument.  It is also used by
C54_boxes_unique: computed values are functions of the property.

For every other theorem in `MANIFEST.json` `Print Assumptions` prints *Closed under the global
context*.
