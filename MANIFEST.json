{
 "claims": [
  {
   "property": "C01",
   "status": "proved",
   "theorems": [
    "C01_object_round_trip"
   ],
   "note": ""
  },
  {
   "property": "C02",
   "status": "proved",
   "theorems": [
    "C02_names",
    "C02_refuted"
   ],
   "note": ""
  },
  {
   "property": "C03",
   "status": "proved",
   "theorems": [
    "C03_literal_strings",
    "C03_hex_strings",
    "C03_literal_strings_refuted"
   ],
   "note": ""
  },
  {
   "property": "C04",
   "status": "proved",
   "theorems": [
    "C04_reals",
    "C04_plain_range",
    "C04_reals_refuted"
   ],
   "note": ""
  },
  {
   "property": "C05",
   "status": "proved",
   "theorems": [
    "C05_streams"
   ],
   "note": ""
  },
  {
   "property": "C06",
   "status": "proved",
   "theorems": [
    "C06_xref",
    "C06_binary"
   ],
   "note": ""
  },
  {
   "property": "C07",
   "status": "proved",
   "theorems": [
    "C07_object_numbers",
    "C07_reserved_numbers"
   ],
   "note": ""
  },
  {
   "property": "C08",
   "status": "proved",
   "theorems": [
    "C08_large_files_refuted"
   ],
   "note": ""
  },
  {
   "property": "C09",
   "status": "proved",
   "theorems": [
    "C09_page_tree"
   ],
   "note": ""
  },
  {
   "property": "C10",
   "status": "proved",
   "theorems": [
    "C10_content_streams"
   ],
   "note": ""
  },
  {
   "property": "C11",
   "status": "proved",
   "theorems": [
    "C11_resources"
   ],
   "note": ""
  },
  {
   "property": "C12",
   "status": "proved",
   "theorems": [
    "C12_nested",
    "C12_to_unicode"
   ],
   "note": ""
  },
  {
   "property": "C13",
   "status": "proved",
   "theorems": [
    "C13_reads",
    "C13_layouts"
   ],
   "note": ""
  },
  {
   "property": "C14",
   "status": "proved",
   "theorems": [
    "C14_binary_search_sound",
    "C14_binary_search_complete",
    "C14_binary_search_probes"
   ],
   "note": ""
  },
  {
   "property": "C15",
   "status": "proved",
   "theorems": [
    "C15_find_table"
   ],
   "note": ""
  },
  {
   "property": "C16",
   "status": "proved",
   "theorems": [
    "C16_format4_lookup"
   ],
   "note": ""
  },
  {
   "property": "C17",
   "status": "proved",
   "theorems": [
    "C17_format12_lookup",
    "C17_overflow_refuted"
   ],
   "note": "glyph numbers of the groups below 2^32; otherwise the addition overflows (refuted theorem)"
  },
  {
   "property": "C18",
   "status": "proved",
   "theorems": [
    "C18_format4_enumeration",
    "C18_format12_enumeration",
    "C18_format12_refuted",
    "C18_backwards_refuted"
   ],
   "note": "format 12 with glyph numbers below 65536, format 4 with segments that do not start after their end; otherwise refuted"
  },
  {
   "property": "C19",
   "status": "proved",
   "theorems": [
    "C19_forward",
    "C19_backward",
    "C19_refuted",
    "C19_font_refuted"
   ],
   "note": ""
  },
  {
   "property": "C20",
   "status": "proved",
   "theorems": [
    "C20_glyph_width",
    "C20_pdf_width",
    "C20_pdf_width_exact",
    "C20_pdf_width_refuted"
   ],
   "note": "with rounding to f32; that the width is always rounded down exactly is refuted"
  },
  {
   "property": "C36",
   "status": "proved",
   "theorems": [
    "C36_release_never_panics",
    "C36_debug_agrees",
    "C36_debug_panics_refuted"
   ],
   "note": ""
  },
  {
   "property": "C37",
   "status": "proved",
   "theorems": [
    "C37_parsed_fields"
   ],
   "note": ""
  },
  {
   "property": "C21",
   "status": "proved",
   "theorems": [
    "C21_document_is_a_tree",
    "C21_each_operation",
    "C21_child_lists_unique"
   ],
   "note": ""
  },
  {
   "property": "C22",
   "status": "proved",
   "theorems": [
    "C22_detach",
    "C22_append",
    "C22_insert_before",
    "C22_insert_before_itself_refuted"
   ],
   "note": "inserting a node before itself, which the parser never does, is shown to break the links"
  },
  {
   "property": "C23",
   "status": "proved",
   "theorems": [
    "C23_document_order",
    "C23_ancestors",
    "C23_children"
   ],
   "note": ""
  },
  {
   "property": "C24",
   "status": "proved",
   "theorems": [
    "C24_append_text",
    "C24_text_before_sibling",
    "C24_text_based_on_parent",
    "C24_text_spliced"
   ],
   "note": ""
  },
  {
   "property": "C25",
   "status": "proved",
   "theorems": [
    "C25_only_the_first_child_moves",
    "C25_at_most_one_child",
    "C25_reparent_refuted"
   ],
   "note": "the expected effect is refuted, the exact effect proved"
  },
  {
   "property": "C26",
   "status": "proved",
   "theorems": [
    "C26_xml_mirrors_events",
    "C26_any_events",
    "C26_unmatched_end_panics"
   ],
   "note": ""
  },
  {
   "property": "C27",
   "status": "proved",
   "theorems": [
    "C27_merged_attributes",
    "C27_lookup",
    "C27_lookup_kept"
   ],
   "note": ""
  },
  {
   "property": "C38",
   "status": "proved",
   "theorems": [
    "C38_style_elements",
    "C38_xml",
    "C38_xml_refuted"
   ],
   "note": "for XML documents refuted"
  },
  {
   "property": "C39",
   "status": "proved",
   "theorems": [
    "C39_root_element",
    "C39_root_element_only",
    "C39_text_at_the_top_panics",
    "C39_links"
   ],
   "note": ""
  },
  {
   "property": "C28",
   "status": "proved",
   "theorems": [
    "C28_cascade",
    "C28_winner_unique",
    "C28_style_unique",
    "C28_total"
   ],
   "note": ""
  },
  {
   "property": "C29",
   "status": "proved",
   "theorems": [
    "C29_sorting",
    "C29_document_order",
    "C29_sheets_parse"
   ],
   "note": ""
  },
  {
   "property": "C30",
   "status": "proved",
   "theorems": [
    "C30_font_size",
    "C30_lengths_or_auto",
    "C30_paddings",
    "C30_border_widths"
   ],
   "note": "consequences of css_style, which C28_cascade establishes"
  },
  {
   "property": "C31",
   "status": "proved",
   "theorems": [
    "C31_inherit",
    "C31_initial",
    "C31_unset",
    "C31_no_declaration",
    "C31_anonymous"
   ],
   "note": "consequences of css_style, which C28_cascade establishes"
  },
  {
   "property": "C32",
   "status": "proved",
   "theorems": [
    "C32_one_to_three_values",
    "C32_no_value",
    "C32_four_values_swapped",
    "C32_four_values_refuted",
    "C32_longhands"
   ],
   "note": "refuted for four values, as the statement says"
  },
  {
   "property": "C33",
   "status": "proved",
   "theorems": [
    "C33_fixups",
    "C33_root_refuted"
   ],
   "note": ""
  },
  {
   "property": "C34",
   "status": "proved",
   "theorems": [
    "C34_siblings",
    "C34_top_has_no_siblings",
    "C34_parent",
    "C34_empty",
    "C34_root",
    "C34_id",
    "C34_id_any_case",
    "C34_attributes",
    "C34_links"
   ],
   "note": ""
  },
  {
   "property": "C35",
   "status": "proved",
   "theorems": [
    "C35_sound",
    "C35_single_word",
    "C35_no_attribute",
    "C35_several_words_refuted"
   ],
   "note": "refuted for several words, as the statement says"
  },
  {
   "property": "C40",
   "status": "proved",
   "theorems": [
    "C40_blocks",
    "C40_items",
    "C40_panics",
    "C40_trailing_refuted"
   ],
   "note": ""
  },
  {
   "property": "C41",
   "status": "proved",
   "theorems": [
    "C41_names_known",
    "C41_only_these_names",
    "C41_border_right_color_refuted",
    "C41_case"
   ],
   "note": ""
  },
  {
   "property": "C42",
   "status": "proved",
   "theorems": [
    "C42_one_token",
    "C42_values",
    "C42_case_refuted",
    "C42_negative_refuted",
    "C42_border_percentage_refuted"
   ],
   "note": "colours are parsed by cssparser, which is not modelled"
  },
  {
   "property": "C43",
   "status": "proved",
   "theorems": [
    "C43_sides",
    "C43_sizes",
    "C43_sizes_back",
    "C43_inflate",
    "C43_border_box",
    "C43_corner"
   ],
   "note": ""
  },
  {
   "property": "C44",
   "status": "proved",
   "theorems": [
    "C44_collapse",
    "C44_unique"
   ],
   "note": ""
  },
  {
   "property": "C45",
   "status": "proved",
   "theorems": [
    "C45_widths",
    "C45_sum_refuted",
    "C45_negative_refuted",
    "C45_relative_percentage_refuted"
   ],
   "note": "what holds is proved, what does not is refuted, as the statement says"
  },
  {
   "property": "C46",
   "status": "proved",
   "theorems": [
    "C46_heights",
    "C46_zero_height_refuted"
   ],
   "note": "what holds is proved, what does not is refuted, as the statement says"
  },
  {
   "property": "C47",
   "status": "proved",
   "theorems": [
    "C47_used_values",
    "C47_block_axis_refuted",
    "C47_right_refuted"
   ],
   "note": "what holds is proved, what does not is refuted, as the statement says"
  },
  {
   "property": "C48",
   "status": "proved",
   "theorems": [
    "C48_containing_blocks",
    "C48_static_position_refuted",
    "C48_inline_refuted"
   ],
   "note": "what holds is proved, what does not is refuted, as the statement says"
  },
  {
   "property": "C49",
   "status": "proved",
   "theorems": [
    "C49_schedules"
   ],
   "note": ""
  },
  {
   "property": "C50",
   "status": "proved",
   "theorems": [
    "C50_no_panic"
   ],
   "note": ""
  },
  {
   "property": "C51",
   "status": "proved",
   "theorems": [
    "C51_border_top",
    "C51_border_top_accepts",
    "C51_background"
   ],
   "note": ""
  },
  {
   "property": "C52",
   "status": "proved",
   "theorems": [
    "C52_line_breaking",
    "C52_room_refuted",
    "C52_overflow_refuted"
   ],
   "note": "what holds is proved, what does not is refuted, as the statement says"
  },
  {
   "property": "C53",
   "status": "proved",
   "theorems": [
    "C53_inline_boxes",
    "C53_text_is_kept",
    "C53_width_refuted",
    "C53_relative_width_refuted",
    "C53_relative_lines_refuted",
    "C53_height_refuted"
   ],
   "note": "what holds is proved, what does not is refuted, as the statement says; for whole documents it is part of C45_widths"
  },
  {
   "property": "C54",
   "status": "proved",
   "theorems": [
    "C54_contents",
    "C54_boxes",
    "C54_boxes_unique",
    "C54_document",
    "C54_block_in_inline_refuted"
   ],
   "note": "what holds is proved, what does not is refuted, as the statement says"
  },
  {
   "property": "C55",
   "status": "proved",
   "theorems": [
    "C55_text",
    "C55_css_text",
    "C55_css_text_refuted"
   ],
   "note": "what holds is proved, what does not is refuted, as the statement says"
  },
  {
   "property": "C56",
   "status": "proved",
   "theorems": [
    "C56_text_kept"
   ],
   "note": ""
  },
  {
   "property": "C57",
   "status": "proved",
   "theorems": [
    "C57_tidy",
    "C57_text_style_refuted"
   ],
   "note": "what holds is proved, what does not is refuted, as the statement says"
  },
  {
   "property": "C58",
   "status": "proved",
   "theorems": [
    "C58_no_panic"
   ],
   "note": ""
  },
  {
   "property": "C59",
   "status": "proved",
   "theorems": [
    "C59_storage",
    "C59_never_returns",
    "C59_never_ends",
    "C59_exactly",
    "C59_document",
    "C59_ends_refuted",
    "C59_schedule_refuted"
   ],
   "note": "what holds is proved, what does not is refuted, as the statement says"
  },
  {
   "property": "C60",
   "status": "proved",
   "theorems": [
    "C60_panics",
    "C60_page",
    "C60_upright",
    "C60_document",
    "C60_painting_order_refuted"
   ],
   "note": "what holds is proved, what does not is refuted, as the statement says; sizes and positions within 2e-5 and 1e19, file below 4 GiB"
  },
  {
   "property": "C61",
   "status": "proved",
   "theorems": [
    "C61_text",
    "C61_file",
    "C61_all_text",
    "C61_in_order",
    "C61_floats_refuted"
   ],
   "note": "what holds is proved, what does not is refuted, as the statement says"
  },
  {
   "property": "C62",
   "status": "proved",
   "theorems": [
    "C62_pages",
    "C62_all_text",
    "C62_justified",
    "C62_no_panic",
    "C62_errors",
    "C62_succeeds",
    "C62_bottom_refuted",
    "C62_blank_page_refuted",
    "C62_trailing_space_refuted"
   ],
   "note": "what holds is proved, what does not is refuted, as the statement says; the break opportunities (crate xi_unicode) are an argument; sizes and positions within 2e-5 and 1e19, file below 4 GiB"
  },
  {
   "property": "C63",
   "status": "proved",
   "theorems": [
    "C63_read",
    "C63_write",
    "C63_gives_up",
    "C63_slice",
    "C63_file",
    "C63_file_refuted",
    "C63_panic_again_refuted"
   ],
   "note": "what holds is proved, what does not is refuted, as the statement says; cairo is any strategy tree of calls of the callback"
  },
  {
   "property": "C64",
   "status": "proved",
   "theorems": [
    "C64_ownership",
    "C64_no_leak",
    "C64_null"
   ],
   "note": "the C libraries are any functions of the calls so far that keep to the null_contract; drop order of a client is any order the borrow checker allows"
  },
  {
   "property": "C65",
   "status": "proved",
   "theorems": [
    "C65_queue",
    "C65_once",
    "C65_all",
    "C65_null_page_refuted"
   ],
   "note": "what holds is proved, what does not is refuted, as the statement says"
  },
  {
   "property": "C66",
   "status": "proved",
   "theorems": [
    "C66_css_size",
    "C66_exact",
    "C66_bounds",
    "C66_too_large",
    "C66_conversion",
    "C66_new",
    "C66_nan_refuted",
    "C66_one_scale"
   ],
   "note": "what holds is proved, what does not is refuted, as the statement says; sizes and scales between 2^-500 and 2^500; a panic is proved for products at least 2^31-1 times 1+2^-50, and excluded below that times 1-2^-50"
  },
  {
   "property": "C67",
   "status": "proved",
   "theorems": [
    "C67_access",
    "C67_memory",
    "C67_equal",
    "C67_hex",
    "C67_null_refuted",
    "C67_rgb24_refuted"
   ],
   "note": "what holds is proved, what does not is refuted, as the statement says"
  },
  {
   "property": "C68",
   "status": "proved",
   "theorems": [
    "C68_match",
    "C68_compiles",
    "C68_exhaustive",
    "C68_order_refuted",
    "C68_memory",
    "C68_longhand_ids",
    "C68_declarations"
   ],
   "note": "what holds is proved, what does not is refuted, as the statement says; usize has 64 bits; the representation of field types is any"
  },
  {
   "property": "C69",
   "status": "proved",
   "theorems": [
    "C69_passes",
    "C69_main",
    "C69_each_once",
    "C69_work",
    "C69_report",
    "C69_href",
    "C69_pdf",
    "C69_pdf_refuted"
   ],
   "note": "what holds is proved, what does not is refuted, as the statement says; HTML parsing, PDF making, rendering and the file system are arguments"
  },
  {
   "property": "C70",
   "status": "proved",
   "theorems": [
    "C70_keywords",
    "C70_keywords_distinct",
    "C70_parse",
    "C70_parse_struct",
    "C70_parse_compiles",
    "C70_keywords_refuted",
    "C70_order_refuted",
    "C70_from_variants",
    "C70_from_specified",
    "C70_tables",
    "C70_tables_c_layout",
    "C70_tables_size",
    "C70_font_tables",
    "C70_aligned",
    "C70_style_parse",
    "C70_style_computed"
   ],
   "note": "what holds is proved, what does not is refuted, as the statement says; for types without parameters; that rustc orders fields by alignment is assumed for the size of structs"
  },
  {
   "property": "C71",
   "status": "proved",
   "theorems": [
    "C71_parsed",
    "C71_glyphs",
    "C71_characters",
    "C71_embeddable"
   ],
   "note": "the bytes of the file are in VeraFile.v; what is read in them by computation in the kernel, the rest from the theorems about fonts"
  },
  {
   "property": "C72",
   "status": "proved",
   "theorems": [
    "C72_extraction",
    "C72_document"
   ],
   "note": "for any font with at most one character per glyph, which C71 proves of Vera.ttf; style sheets and selector matching are arguments"
  },
  {
   "property": "C73",
   "status": "proved",
   "theorems": [
    "C73_sheet",
    "C73_unambiguous",
    "C73_style",
    "C73_hidden_input",
    "C73_namespace_refuted",
    "C73_more_blocks_refuted"
   ],
   "note": "selectors of author sheets are an argument; the two refuted statements are findings"
  },
  {
   "property": "C74",
   "status": "proved",
   "theorems": [
    "C74_usage",
    "C74_actions",
    "C74_displays",
    "C74_document",
    "C74_trailing",
    "C74_text",
    "C74_every_page_refuted"
   ],
   "note": "html5ever's calls, cssparser's tokens and the file system's answers are arguments; C74_text as C72 for files below 4 GiB and ordinary coordinates"
  },
  {
   "property": "C75",
   "status": "proved",
   "theorems": [
    "C75_exact",
    "C75_exact_document",
    "C75_f32",
    "C75_schedules",
    "C75_no_panic",
    "C75_text_size",
    "C75_upright",
    "C75_text",
    "C75_document",
    "C75_finite_refuted",
    "C75_without_zero_refuted"
   ],
   "note": "what holds is proved, what does not is refuted, as the statement says; one zero"
  },
  {
   "property": "C76",
   "status": "proved",
   "theorems": [
    "C76_zoom",
    "C76_f32_refuted",
    "C76_rounding_refuted"
   ],
   "note": "zoom is proved for exact numbers and refuted for binary32, as the statement says"
  },
  {
   "property": "C77",
   "status": "proved",
   "theorems": [
    "C77_noninterference",
    "C77_page",
    "C77_needed",
    "C77_display_needed",
    "C77_colors_needed"
   ],
   "note": "about box trees: which boxes there are depends on display, float and position"
  },
  {
   "property": "C78",
   "status": "proved",
   "theorems": [
    "C78_operations",
    "C78_nan",
    "C78_infinity",
    "C78_literal",
    "C78_unique",
    "C78_layout"
   ],
   "note": "one zero, so that the sign of a quotient by zero is not that of IEEE 754 when the zero is negative"
  },
  {
   "property": "C79",
   "status": "proved",
   "theorems": [
    "C79_calendar",
    "C79_dates",
    "C79_panics",
    "C79_panics_refuted",
    "C79_tags"
   ],
   "note": "nothing in the program calls these conversions"
  },
  {
   "property": "C80",
   "status": "proved",
   "theorems": [
    "C80_numbers_read",
    "C80_in_files",
    "C80_distinct",
    "C80_no_overflow",
    "C80_shortest_refuted",
    "C80_nearest_refuted"
   ],
   "note": "the crate dtoa is not in the repository: its functions are modelled by name; what holds is proved, what does not is refuted, as the statement says"
  },
  {
   "property": "C81",
   "status": "proved",
   "theorems": [
    "C81_lines_unique",
    "C81_pages_unique",
    "C81_no_panic",
    "C81_errors",
    "C81_succeeds",
    "C81_pages",
    "C81_all_text",
    "C81_exact",
    "C81_file",
    "C81_rounding_refuted"
   ],
   "note": "tests/alice.pdf is reproduced byte by byte by the model (AliceExpected.v, a test and not a theorem)"
  },
  {
   "property": "C82",
   "status": "proved",
   "theorems": [
    "C82_sum",
    "C82_word",
    "C82_lines",
    "C82_not_broken",
    "C82_places",
    "C82_justified",
    "C82_ragged",
    "C82_pixels"
   ],
   "note": "the bounds on counts and sizes are part of the statement"
  },
  {
   "property": "C83",
   "status": "proved",
   "theorems": [
    "C83_lines",
    "C83_fewest",
    "C83_fewest32",
    "C83_no_more_lines",
    "C83_end_of_text",
    "C83_pages"
   ],
   "note": ""
  },
  {
   "property": "C84",
   "status": "proved",
   "theorems": [
    "C84_name",
    "C84_font",
    "C84_unique",
    "C84_utf8",
    "C84_ascii"
   ],
   "note": "names below 4 GiB minus 1 MiB, so that positions do not overflow"
  },
  {
   "property": "C85",
   "status": "proved",
   "theorems": [
    "C85_described",
    "C85_file"
   ],
   "note": "fonts with no units per em left out: the code divides by zero for them"
  },
  {
   "property": "C86",
   "status": "proved",
   "theorems": [
    "C86_stacked",
    "C86_no_overlap",
    "C86_percentage_refuted"
   ],
   "note": "lengths exact; out-of-flow boxes may be anywhere"
  },
  {
   "property": "C87",
   "status": "proved",
   "theorems": [
    "C87_interface",
    "C87_contents",
    "C87_boxes_of_letters",
    "C87_boxes",
    "C87_page",
    "C87_html",
    "C87_comment"
   ],
   "note": "matching of author selectors is any program that sees the document through the Element trait"
  },
  {
   "property": "C88",
   "status": "proved",
   "theorems": [
    "C88_contents",
    "C88_boxes",
    "C88_page",
    "C88_html",
    "C88_not_shown",
    "C88_hidden_input"
   ],
   "note": "matching of author selectors is any program that sees the document through the Element trait; the root element itself is not among the hidden ones"
  },
  {
   "property": "C89",
   "status": "proved",
   "theorems": [
    "C89_style",
    "C89_unmatched",
    "C89_order",
    "C89_split",
    "C89_rules_order",
    "C89_overridden",
    "C89_contents",
    "C89_boxes",
    "C89_html"
   ],
   "note": "author rules as the CSS parser gives them; matching as in C87"
  },
  {
   "property": "C90",
   "status": "proved",
   "theorems": [
    "C90_lines",
    "C90_fewest",
    "C90_text",
    "C90_page",
    "C90_height",
    "C90_inlines_refuted",
    "C90_percentage_refuted"
   ],
   "note": "exact arithmetic; boxes that are positioned or float are left out of the comparison"
  },
  {
   "property": "C91",
   "status": "proved",
   "theorems": [
    "C91_handles",
    "C91_same_node",
    "C91_element",
    "C91_panics",
    "C91_attributes",
    "C91_questions",
    "C91_template_refuted"
   ],
   "note": "every call of TreeSink; strings are bytes"
  },
  {
   "property": "C92",
   "status": "proved",
   "theorems": [
    "C92_page",
    "C92_two_pages",
    "C92_container",
    "C92_page_rounded",
    "C92_two_pages_rounded",
    "C92_container_rounded"
   ],
   "note": "on box trees; in exact arithmetic and in any other, such as f32"
  },
  {
   "property": "C93",
   "status": "proved",
   "theorems": [
    "C93_calls",
    "C93_documents",
    "C93_page",
    "C93_twice_refuted"
   ],
   "note": "with the hypotheses of C87: style sheets and attributes with no leftovers after a value, selectors matched through the interface"
  },
  {
   "property": "C94",
   "status": "proved",
   "theorems": [
    "C94_calls",
    "C94_stream",
    "C94_answers",
    "C94_causes",
    "C94_bytes",
    "C94_file",
    "C94_file_complete",
    "C94_small_files",
    "C94_file_refuted"
   ],
   "note": "the standard library's write_all and BufWriter are modelled after its documentation and source"
  },
  {
   "property": "C95",
   "status": "proved",
   "theorems": [
    "C95_actions",
    "C95_document",
    "C95_page",
    "C95_alike",
    "C95_rules",
    "C95_markup",
    "C95_exact"
   ],
   "note": "html5ever, cssparser and the file system are parameters"
  },
  {
   "property": "C96",
   "status": "proved",
   "theorems": [
    "C96_boxes",
    "C96_runs",
    "C96_start",
    "C96_after_block",
    "C96_after_space",
    "C96_inside",
    "C96_construct",
    "C96_page",
    "C96_html",
    "C96_end_refuted"
   ],
   "note": "matching of author selectors is any program that sees the document through the Element trait (for C96_html; C96_page is about what is displayed)"
  },
  {
   "property": "C97",
   "status": "proved",
   "theorems": [
    "C97_same",
    "C97_displays",
    "C97_document",
    "C97_html"
   ],
   "note": "xml-rs is the list of its events (DomXml.v); matching of author selectors is any program that sees the document through the Element trait (for C97_html)"
  },
  {
   "property": "C98",
   "status": "proved",
   "theorems": [
    "C98_orderly",
    "C98_lines",
    "C98_fewest",
    "C98_text",
    "C98_f32",
    "C98_vera",
    "C98_rounding_refuted"
   ],
   "note": "one text in a block; the font size is positive and finite, the width of the block not NaN"
  },
  {
   "property": "C99",
   "status": "proved",
   "theorems": [
    "C99_sum",
    "C99_width",
    "C99_lines",
    "C99_vera"
   ],
   "note": "one text in a block"
  },
  {
   "property": "C100",
   "status": "proved",
   "theorems": [
    "C100_map",
    "C100_no_dangling",
    "C100_identity",
    "C100_pages",
    "C100_freed",
    "C100_embedded_once_refuted"
   ],
   "note": "one document at a time; a font that cannot be embedded is put into the file at each attempt"
  },
  {
   "property": "C101",
   "status": "proved",
   "theorems": [
    "C101_style",
    "C101_boxes",
    "C101_widths",
    "C101_page",
    "C101_font_size",
    "C101_lengths_or_auto",
    "C101_paddings",
    "C101_border_widths",
    "C101_printed"
   ],
   "note": "colours are parsed by cssparser, of which it is assumed that it takes tokens from the front; one zero"
  }
 ]
}