{
 "claims": [
  {
   "property": "C01",
   "status": "proved",
   "theorems": [
    "C01_cliprect_new"
   ],
   "note": ""
  },
  {
   "property": "C02",
   "status": "proved",
   "theorems": [
    "C02_style_roundtrip"
   ],
   "note": ""
  },
  {
   "property": "C03",
   "status": "proved",
   "theorems": [
    "C03_hint_covers_glyphs",
    "C03_hint_is_line_height"
   ],
   "note": ""
  },
  {
   "property": "C04",
   "status": "proved",
   "theorems": [
    "C04_clear_sets_rectangle"
   ],
   "note": "in_clip is the documented half-open rectangle"
  },
  {
   "property": "C05",
   "status": "proved",
   "theorems": [
    "C05_clear_changes_exactly",
    "C05_clear_contained_iff",
    "C05_clear_contained_refuted"
   ],
   "note": "false as an unconditional statement (refuted by witness); exact set of changed pixels and the exact condition for containment are proved"
  },
  {
   "property": "C06",
   "status": "proved",
   "theorems": [
    "C06_clear_panics_iff",
    "C06_clear_never_panics_refuted"
   ],
   "note": "false as an unconditional statement (refuted by witness); exact panic condition proved"
  },
  {
   "property": "C07",
   "status": "proved",
   "theorems": [
    "C07_clear_ignores_invalid"
   ],
   "note": ""
  },
  {
   "property": "C08",
   "status": "proved",
   "theorems": [
    "C08_clear_idempotent_monotone"
   ],
   "note": ""
  },
  {
   "property": "C09",
   "status": "proved",
   "theorems": [
    "C09_panics_exactly",
    "C09_paint_returns",
    "C09_paint_panics_refuted"
   ],
   "note": "with guards on cursor range and clip; for every clip the exact condition for a panic is proved (C09_panics_exactly); inputs that panic are exhibited by a _refuted theorem"
  },
  {
   "property": "C10",
   "status": "proved",
   "theorems": [
    "C10_paint_contained",
    "C10_paint_contained_refuted"
   ],
   "note": "for clips at least 33 wide; narrower clips and wrapping cursors refuted by witnesses"
  },
  {
   "property": "C11",
   "status": "proved",
   "theorems": [
    "C11_paint_twice_restores"
   ],
   "note": ""
  },
  {
   "property": "C12",
   "status": "proved",
   "theorems": [
    "C12_paint_independent_of_contents"
   ],
   "note": ""
  },
  {
   "property": "C13",
   "status": "proved",
   "theorems": [
    "C13_glyph_pixels"
   ],
   "note": ""
  },
  {
   "property": "C14",
   "status": "proved",
   "theorems": [
    "C14_any_clip",
    "C14_narrow_clip",
    "C14_wide_clip",
    "C14_paint_refines_layout"
   ],
   "note": "clips at least 36 wide, and with the retries of narrow clips for every clip that xor_char accepts"
  },
  {
   "property": "C15",
   "status": "proved",
   "theorems": [
    "C15_glyphs_inside_columns"
   ],
   "note": ""
  },
  {
   "property": "C16",
   "status": "proved",
   "theorems": [
    "C16_cursor_moves_forward"
   ],
   "note": ""
  },
  {
   "property": "C17",
   "status": "proved",
   "theorems": [
    "C17_newline"
   ],
   "note": ""
  },
  {
   "property": "C18",
   "status": "proved",
   "theorems": [
    "C18_any_clip",
    "C18_line_height"
   ],
   "note": ""
  },
  {
   "property": "C19",
   "status": "proved",
   "theorems": [
    "C19_ascii",
    "C19_concatenation",
    "C19_concatenation_refuted"
   ],
   "note": "conditions on the seam, the end of s2 and the bottom edge are needed (refuted by witnesses)"
  },
  {
   "property": "C20",
   "status": "proved",
   "theorems": [
    "C20_style_independent"
   ],
   "note": ""
  },
  {
   "property": "C21",
   "status": "proved",
   "theorems": [
    "C21_unknown_is_one_replacement",
    "C21_trailing_unknown_refuted",
    "C21_trailing_unknown_count"
   ],
   "note": "false for a trailing unknown character (refuted by witness; the exact repeat count is proved)"
  },
  {
   "property": "C22",
   "status": "proved",
   "theorems": [
    "C22_narrow_clip_scrolls",
    "C22_stops_below_narrow_clip_refuted",
    "C22_rows_outside_clip",
    "C22_stops_below_clip",
    "C22_unknown_below_clip_refuted"
   ],
   "note": "proved for known clusters in clips at least 36 wide; false for unknown characters below the clip and for narrow clips (refuted by witnesses, the cursor in a narrow clip is given exactly)"
  },
  {
   "property": "C23",
   "status": "proved",
   "theorems": [
    "C23_empty_string"
   ],
   "note": ""
  },
  {
   "property": "C24",
   "status": "proved",
   "theorems": [
    "C24_any_clip",
    "C24_glyphs_disjoint"
   ],
   "note": ""
  },
  {
   "property": "C25",
   "status": "proved",
   "theorems": [
    "C25_rejected_clip"
   ],
   "note": ""
  },
  {
   "property": "C26",
   "status": "proved",
   "theorems": [
    "C26_lookup_at_boundary",
    "C26_iteration_progress",
    "C26_string_consumed"
   ],
   "note": ""
  },
  {
   "property": "C27",
   "status": "proved",
   "theorems": [
    "C27_paints_commute"
   ],
   "note": ""
  },
  {
   "property": "C28",
   "status": "proved",
   "theorems": [
    "C28_glyph_records",
    "C28_fonts_well_formed"
   ],
   "note": ""
  },
  {
   "property": "C29",
   "status": "proved",
   "theorems": [
    "C29_index_found",
    "C29_one_record_each",
    "C29_alias_found"
   ],
   "note": ""
  },
  {
   "property": "C30",
   "status": "proved",
   "theorems": [
    "C30_single_characters",
    "C30_blocks_disjoint"
   ],
   "note": ""
  },
  {
   "property": "C31",
   "status": "proved",
   "theorems": [
    "C31_latin_hanzi",
    "C31_collisions_refuted"
   ],
   "note": "false as stated (witnesses for the Latin and emoji fonts); for the Latin and hanzi fonts the complete list of exceptions is proved"
  },
  {
   "property": "C32",
   "status": "proved",
   "theorems": [
    "C32_longest_match",
    "C32_prefix_only"
   ],
   "note": ""
  },
  {
   "property": "C33",
   "status": "proved",
   "theorems": [
    "C33_composed_decomposed"
   ],
   "note": "stronger than listed: in any surrounding text over the Latin index"
  },
  {
   "property": "C34",
   "status": "proved",
   "theorems": [
    "C34_binary_search"
   ],
   "note": ""
  },
  {
   "property": "C35",
   "status": "proved",
   "theorems": [
    "C35_one_word_changes_hash",
    "C35_seed_changes_hash"
   ],
   "note": ""
  },
  {
   "property": "C36",
   "status": "proved",
   "theorems": [
    "C36_hashes_a_prefix"
   ],
   "note": ""
  },
  {
   "property": "C37",
   "status": "proved",
   "theorems": [
    "C37_one_character_changes_hash",
    "C37_single_characters"
   ],
   "note": ""
  },
  {
   "property": "C38",
   "status": "proved",
   "theorems": [
    "C38_same_hash"
   ],
   "note": ""
  },
  {
   "property": "C39",
   "status": "proved",
   "theorems": [
    "C39_sample_text",
    "C39_short_greeting",
    "C39_goose_poem",
    "C39_demos_erase",
    "C39_command_line_demo"
   ],
   "note": ""
  },
  {
   "property": "C40",
   "status": "proved",
   "theorems": [
    "C40_packed_record",
    "C40_paint_packed"
   ],
   "note": ""
  },
  {
   "property": "C41",
   "status": "proved",
   "theorems": [
    "C41_trim_keeps_ink",
    "C41_trim_blank",
    "C41_always_returns_refuted"
   ],
   "note": "a matrix without ink can panic (refuted by witness; the panic condition is proved)"
  },
  {
   "property": "C42",
   "status": "proved",
   "theorems": [
    "C42_index_sorted_complete",
    "C42_insert_returns",
    "C42_any_sort"
   ],
   "note": ""
  },
  {
   "property": "C43",
   "status": "proved",
   "theorems": [
    "C43_offsets",
    "C43_aliases"
   ],
   "note": ""
  },
  {
   "property": "C44",
   "status": "proved",
   "theorems": [
    "C44_generated_font",
    "C44_paint_generated"
   ],
   "note": ""
  },
  {
   "property": "C45",
   "status": "proved",
   "theorems": [
    "C45_repaint_exact",
    "C45_repaint_forgets",
    "C45_page_shows_poem_only"
   ],
   "note": ""
  },
  {
   "property": "C46",
   "status": "proved",
   "theorems": [
    "C46_new_fr_buf"
   ],
   "note": ""
  },
  {
   "property": "C47",
   "status": "proved",
   "theorems": [
    "C47_pt_order"
   ],
   "note": ""
  },
  {
   "property": "C48",
   "status": "proved",
   "theorems": [
    "C48_ascii_one_glyph_each"
   ],
   "note": ""
  },
  {
   "property": "C49",
   "status": "proved",
   "theorems": [
    "C49_documented_order_refuted",
    "C49_actual_order"
   ],
   "note": "the comments are wrong (refuted by witness); the actual order is proved"
  },
  {
   "property": "C50",
   "status": "proved",
   "theorems": [
    "C50_hex_round_trip"
   ],
   "note": ""
  },
  {
   "property": "C51",
   "status": "proved",
   "theorems": [
    "C51_test_detects_collisions"
   ],
   "note": ""
  },
  {
   "property": "C52",
   "status": "proved",
   "theorems": [
    "C52_generation_succeeds"
   ],
   "note": ""
  },
  {
   "property": "C53",
   "status": "proved",
   "theorems": [
    "C53_index_positions",
    "C53_index_without_columns",
    "C53_index_names"
   ],
   "note": ""
  },
  {
   "property": "C54",
   "status": "proved",
   "theorems": [
    "C54_alias_names",
    "C54_alias_any_space_refuted"
   ],
   "note": "false as stated: names separated by more than one space, or by a tab, are dropped (refuted by witness); proved for one space"
  },
  {
   "property": "C55",
   "status": "proved",
   "theorems": [
    "C55_glyph_is_trimmed",
    "C55_fonts_are_generated",
    "C55_glyph_is_picture"
   ],
   "note": ""
  },
  {
   "property": "C56",
   "status": "proved",
   "theorems": [
    "C56_paint_shows_picture",
    "C56_latin_style_refuted"
   ],
   "note": "U+A9 and U+AE are painted as emoji in every style (refuted by witness); proved for all other Latin clusters"
  },
  {
   "property": "C57",
   "status": "proved",
   "theorems": [
    "C57_file_reads_as_font",
    "C57_text_when_font",
    "C57_committed_fonts",
    "C57_any_notice_refuted"
   ],
   "note": "for notices that are comments and names that are words (otherwise refuted by witness)"
  },
  {
   "property": "C58",
   "status": "proved",
   "theorems": [
    "C58_write_committed",
    "C58_latin_files"
   ],
   "note": "byte for byte for the three Latin files; the emoji and hanzi files as constants"
  },
  {
   "property": "C59",
   "status": "proved",
   "theorems": [
    "C59_needs_confirmation",
    "C59_usage_lists",
    "C59_all_inputs_first",
    "C59_in_order",
    "C59_every_file_reads",
    "C59_sets_independent"
   ],
   "note": ""
  },
  {
   "property": "C60",
   "status": "proved",
   "theorems": [
    "C60_goose_poem_shot",
    "C60_short_greeting_shot"
   ],
   "note": ""
  },
  {
   "property": "C61",
   "status": "proved",
   "theorems": [
    "C61_writes_committed_files",
    "C61_needs_yes",
    "C61_json_read_back",
    "C61_generator_reads_tables",
    "C61_newline_refuted"
   ],
   "note": "for clusters without newlines (otherwise refuted by witness)"
  },
  {
   "property": "C62",
   "status": "proved",
   "theorems": [
    "C62_text_shows_pictures",
    "C62_plain_texts",
    "C62_one_script",
    "C62_every_string",
    "C62_lookalikes_refuted"
   ],
   "note": "false as stated: 43 texts of three characters (for example a, space, U+778D) are painted as one keycap emoji (refuted by witnesses, complete list proved); proved for all other texts of the Latin and hanzi indexes"
  },
  {
   "property": "C63",
   "status": "proved",
   "theorems": [
    "C63_text_in_lines",
    "C63_line_height",
    "C63_readme_hello",
    "C63_newline_advance_refuted",
    "C63_wrap_only_clipped_refuted"
   ],
   "note": "false in two details (refuted by witnesses): a newline moves the cursor one row further than the height of the line, and glyphs that would leave less than 2 columns free are wrapped too; the rest is proved"
  },
  {
   "property": "C64",
   "status": "proved",
   "theorems": [
    "C64_deflate",
    "C64_zlib",
    "C64_png",
    "C64_every_image",
    "C64_damage_detected",
    "C64_burst_detected",
    "C64_check_value",
    "C64_pixels",
    "C64_ink"
   ],
   "note": "for images that are not interlaced, with up to 8 bits per sample and no tRNS chunk"
  },
  {
   "property": "C65",
   "status": "proved",
   "theorems": [
    "C65_latin_sheets",
    "C65_only_black_matters",
    "C65_write_from_bytes",
    "C65_goose_poem_bytes",
    "C65_short_greeting_bytes"
   ],
   "note": "the two larger sheets as any files with their pixels"
  },
  {
   "property": "C66",
   "status": "proved",
   "theorems": [
    "C66_font_file",
    "C66_rendering_succeeds",
    "C66_usage",
    "C66_fields",
    "C66_trim",
    "C66_range"
   ],
   "note": ""
  },
  {
   "property": "C67",
   "status": "proved",
   "theorems": [
    "C67_label",
    "C67_label_injective",
    "C67_comments",
    "C67_notices"
   ],
   "note": ""
  },
  {
   "property": "C68",
   "status": "proved",
   "theorems": [
    "C68_paint_agrees",
    "C68_clear_agrees",
    "C68_clear_panic",
    "C68_paint_stops",
    "C68_first_glyphs",
    "C68_newline_panic",
    "C68_twice",
    "C68_independent"
   ],
   "note": ""
  },
  {
   "property": "C69",
   "status": "proved",
   "theorems": [
    "C69_file",
    "C69_memory",
    "C69_frame_buf_ptr"
   ],
   "note": ""
  },
  {
   "property": "C70",
   "status": "proved",
   "theorems": [
    "C70_clear"
   ],
   "note": ""
  },
  {
   "property": "C71",
   "status": "proved",
   "theorems": [
    "C71_hash",
    "C71_find",
    "C71_nth_word"
   ],
   "note": ""
  },
  {
   "property": "C72",
   "status": "proved",
   "theorems": [
    "C72_xor_char"
   ],
   "note": ""
  },
  {
   "property": "C73",
   "status": "proved",
   "theorems": [
    "C73_paint_str"
   ],
   "note": ""
  },
  {
   "property": "C74",
   "status": "proved",
   "theorems": [
    "C74_init",
    "C74_page"
   ],
   "note": ""
  },
  {
   "property": "C75",
   "status": "proved",
   "theorems": [
    "C75_valid",
    "C75_never_stuck",
    "C75_loads_one",
    "C75_page",
    "C75_rejected",
    "C75_otherwise",
    "C75_no_memory"
   ],
   "note": ""
  },
  {
   "property": "C76",
   "status": "proved",
   "theorems": [
    "C76_shown_in_full",
    "C76_by_characters",
    "C76_latin",
    "C76_fits",
    "C76_screen",
    "C76_screen_refuted"
   ],
   "note": "the screen holds any 144 known characters, but not any 145 (refuted by a witness)"
  },
  {
   "property": "C77",
   "status": "proved",
   "theorems": [
    "C77_grid",
    "C77_tiles",
    "C77_screen"
   ],
   "note": ""
  },
  {
   "property": "C78",
   "status": "proved",
   "theorems": [
    "C78_elsewhere"
   ],
   "note": ""
  },
  {
   "property": "C79",
   "status": "proved",
   "theorems": [
    "C79_redraw",
    "C79_no_trace",
    "C79_redraw_refuted"
   ],
   "note": "a clip whose right edge is a multiple of 32 makes clear_region panic or clear 32 columns beside it (refuted by a witness)"
  },
  {
   "property": "C80",
   "status": "proved",
   "theorems": [
    "C80_crop",
    "C80_crop_refuted"
   ],
   "note": "not all of the rows: text after a glyph whose top is below the edge is not shown (refuted by a witness)"
  },
  {
   "property": "C81",
   "status": "proved",
   "theorems": [
    "C81_suffixes",
    "C81_types",
    "C81_answer",
    "C81_served",
    "C81_entry_needed",
    "C81_missing"
   ],
   "note": ""
  },
  {
   "property": "C82",
   "status": "proved",
   "theorems": [
    "C82_narrow",
    "C82_narrow_refuted"
   ],
   "note": "that all ink is left of the new edge does not suffice (refuted by a witness); the padding counts"
  },
  {
   "property": "C83",
   "status": "proved",
   "theorems": [
    "C83_align",
    "C83_right"
   ],
   "note": ""
  },
  {
   "property": "C84",
   "status": "proved",
   "theorems": [
    "C84_lower",
    "C84_lower_refuted"
   ],
   "note": "a row more does not suffice (refuted by a witness)"
  }
 ]
}