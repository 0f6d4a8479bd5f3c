{
 "claims": [
  {
   "property": "C01",
   "status": "proved",
   "theorems": [
    "C01_px_rounds_to_nearest",
    "C01_px_defined",
    "C01_exact_value_unique"
   ],
   "note": ""
  },
  {
   "property": "C02",
   "status": "proved",
   "theorems": [
    "C02_px_monotone",
    "C02_px_odd"
   ],
   "note": ""
  },
  {
   "property": "C03",
   "status": "proved",
   "theorems": [
    "C03_int_iff_whole"
   ],
   "note": ""
  },
  {
   "property": "C04",
   "status": "proved",
   "theorems": [
    "C04_physical_units_agree"
   ],
   "note": ""
  },
  {
   "property": "C05",
   "status": "proved",
   "theorems": [
    "C05_percent_identity",
    "C05_percent_zero",
    "C05_viewport_percent",
    "C05_vmin_vmax"
   ],
   "note": ""
  },
  {
   "property": "C06",
   "status": "partial",
   "theorems": [
    "C06_numbers",
    "C06_round_trip_partial",
    "C06_round_trip_float",
    "C06_refuted"
   ],
   "note": "False as stated: a whole magnitude above 2^53 does not survive float() (C06_refuted). Proved for every whole magnitude a float can hold and for numbers and numeric texts."
  },
  {
   "property": "C07",
   "status": "proved",
   "theorems": [
    "C07_history_independent"
   ],
   "note": ""
  },
  {
   "property": "C08",
   "status": "partial",
   "theorems": [
    "C08_length_partial",
    "C08_refuted"
   ],
   "note": "False as stated: '10deg', 'inf' and 'nan' are accepted (C08_refuted). Exact replacement: C87 (accepted texts), C88 (which convert)."
  },
  {
   "property": "C09",
   "status": "proved",
   "theorems": [
    "C09_short_long"
   ],
   "note": ""
  },
  {
   "property": "C10",
   "status": "partial",
   "theorems": [
    "C10_digits_partial",
    "C10_refuted"
   ],
   "note": "False as stated: int(' f', 16) and signs are accepted (C10_refuted). Exact replacement: C89."
  },
  {
   "property": "C11",
   "status": "proved",
   "theorems": [
    "C11_names",
    "C11_only"
   ],
   "note": ""
  },
  {
   "property": "C12",
   "status": "partial",
   "theorems": [
    "C12_css_partial",
    "C12_refuted"
   ],
   "note": "False for hues strictly between 240 and 300 (C12_refuted). Exact replacement there: C90."
  },
  {
   "property": "C13",
   "status": "partial",
   "theorems": [
    "C13_range_partial",
    "C13_refuted"
   ],
   "note": "Range proved; periodicity is false (C13_refuted). Exact replacement: C92."
  },
  {
   "property": "C14",
   "status": "partial",
   "theorems": [
    "C14_rgb_partial",
    "C14_hsl_partial",
    "C14_count",
    "C14_nonnumeric",
    "C14_hue_nonnumeric",
    "C14_refuted"
   ],
   "note": "Unbalanced parentheses are accepted (C14_refuted). Exact replacements: C91, C160."
  },
  {
   "property": "C15",
   "status": "proved",
   "theorems": [
    "C15_order_independent"
   ],
   "note": ""
  },
  {
   "property": "C16",
   "status": "partial",
   "theorems": [
    "C16_normal_forms_partial",
    "C16_refuted",
    "C16_statement_refuted"
   ],
   "note": "False for clip, border-spacing, quotes, url cursors and angles (C16_refuted). Exact replacement: C83."
  },
  {
   "property": "C17",
   "status": "partial",
   "theorems": [
    "C17_value_error_partial",
    "C17_refuted"
   ],
   "note": "False for six kinds of input (C17_refuted). Exact replacement: C84."
  },
  {
   "property": "C18",
   "status": "proved",
   "theorems": [
    "C18_set_get"
   ],
   "note": ""
  },
  {
   "property": "C19",
   "status": "proved",
   "theorems": [
    "C19_frame"
   ],
   "note": ""
  },
  {
   "property": "C20",
   "status": "partial",
   "theorems": [
    "C20_atomic_partial",
    "C20_refuted"
   ],
   "note": "False for directional properties, update() and outline (C20_refuted). Exact replacement: C85."
  },
  {
   "property": "C21",
   "status": "proved",
   "theorems": [
    "C21_dirty_exact"
   ],
   "note": ""
  },
  {
   "property": "C22",
   "status": "proved",
   "theorems": [
    "C22_delete"
   ],
   "note": ""
  },
  {
   "property": "C23",
   "status": "proved",
   "theorems": [
    "C23_directional"
   ],
   "note": ""
  },
  {
   "property": "C24",
   "status": "proved",
   "theorems": [
    "C24_order",
    "C24_components"
   ],
   "note": ""
  },
  {
   "property": "C25",
   "status": "partial",
   "theorems": [
    "C25_read_back_partial",
    "C25_refuted"
   ],
   "note": "`border` always reads '' (C25_refuted). Exact replacement for the others: C86."
  },
  {
   "property": "C26",
   "status": "proved",
   "theorems": [
    "C26_names"
   ],
   "note": ""
  },
  {
   "property": "C27",
   "status": "partial",
   "theorems": [
    "C27_keys_partial",
    "C27_items",
    "C27_str",
    "C27_str_order",
    "C27_str_longhands",
    "C27_refuted"
   ],
   "note": "A value equal to the initial value is not stored, hence not in keys() (C27_refuted). Exact replacement: C97."
  },
  {
   "property": "C28",
   "status": "partial",
   "theorems": [
    "C28_copy_partial",
    "C28_refuted"
   ],
   "note": "copy() raises or loses values (C28_refuted). Exact replacement: C98."
  },
  {
   "property": "C29",
   "status": "proved",
   "theorems": [
    "C29_derived_defaults"
   ],
   "note": ""
  },
  {
   "property": "C30",
   "status": "partial",
   "theorems": [
    "C30_kinds_partial",
    "C30_refuted"
   ],
   "note": "Angles are accepted as lengths and reach the engine (C30_refuted). The kinds otherwise are proved; C99 gives the exact view of the engine."
  },
  {
   "property": "C31",
   "status": "proved",
   "theorems": [
    "C31_sequence",
    "C31_text"
   ],
   "note": ""
  },
  {
   "property": "C32",
   "status": "proved",
   "theorems": [
    "C32_spelling",
    "C32_round_trip",
    "C32_url",
    "C32_accepts"
   ],
   "note": ""
  },
  {
   "property": "C33",
   "status": "partial",
   "theorems": [
    "C33_forms_partial",
    "C33_refuted"
   ],
   "note": "The order is top, right, left, bottom (C33_refuted). Exact replacement: C93."
  },
  {
   "property": "C34",
   "status": "proved",
   "theorems": [
    "C34_one",
    "C34_two",
    "C34_counts",
    "C34_only",
    "C34_text",
    "C34_every_text",
    "C34_number"
   ],
   "note": ""
  },
  {
   "property": "C35",
   "status": "proved",
   "theorems": [
    "C35_sequences",
    "C35_pairs",
    "C35_levels"
   ],
   "note": ""
  },
  {
   "property": "C36",
   "status": "partial",
   "theorems": [
    "C36_overridden_partial",
    "C36_sequence_partial",
    "C36_refuted"
   ],
   "note": "del, +=, *= and clear are not blocked (C36_refuted). Exact replacement: C96."
  },
  {
   "property": "C37",
   "status": "proved",
   "theorems": [
    "C37_boxes_nested",
    "C37_containment"
   ],
   "note": ""
  },
  {
   "property": "C38",
   "status": "proved",
   "theorems": [
    "C38_absolute_is_origin_plus_relative"
   ],
   "note": ""
  },
  {
   "property": "C39",
   "status": "partial",
   "theorems": [
    "C39_moves_and_document_resets_partial",
    "C39_subtree_reset_refuted"
   ],
   "note": "Resetting a non-root node breaks it (C39_subtree_reset_refuted). Exact replacement: C68."
  },
  {
   "property": "C40",
   "status": "partial",
   "theorems": [
    "C40_extent_never_decreases",
    "C40_extent_is_max_partial",
    "C40_whole_float_refuted"
   ],
   "note": "A whole float such as 5.0 is ignored (C40_whole_float_refuted). Exact replacement: C69."
  },
  {
   "property": "C41",
   "status": "partial",
   "theorems": [
    "C41_invalidation_reaches_subtree_partial",
    "C41_cleaned_child_refuted"
   ],
   "note": "False after cleaning a single child (C41_cleaned_child_refuted). Exact replacement: C70."
  },
  {
   "property": "C42",
   "status": "proved",
   "theorems": [
    "C42_intrinsic_change_dirties_iff_different",
    "C42_without_layout"
   ],
   "note": ""
  },
  {
   "property": "C43",
   "status": "partial",
   "theorems": [
    "C43_width_equation_partial",
    "C43_centred_odd_refuted"
   ],
   "note": "Centring uses // 2 twice and loses pixels (C43_centred_odd_refuted). Exact replacement: C71."
  },
  {
   "property": "C44",
   "status": "partial",
   "theorems": [
    "C44_auto_margins_partial",
    "C44_overflow_refuted",
    "C44_odd_space_refuted"
   ],
   "note": "Two refutations; exact replacement: C72."
  },
  {
   "property": "C45",
   "status": "partial",
   "theorems": [
    "C45_width_limits_partial",
    "C45_auto_width_refuted"
   ],
   "note": "min/max-width are ignored when width is auto (C45_auto_width_refuted). Exact replacement: C73."
  },
  {
   "property": "C46",
   "status": "proved",
   "theorems": [
    "C46_over_constrained",
    "C46_mirror"
   ],
   "note": ""
  },
  {
   "property": "C47",
   "status": "partial",
   "theorems": [
    "C47_stacking_partial",
    "C47_plain_margins_refuted"
   ],
   "note": "Gaps use the collapsed extent of the previous block (C47_plain_margins_refuted). Exact replacement: C75."
  },
  {
   "property": "C48",
   "status": "partial",
   "theorems": [
    "C48_auto_height_partial",
    "C48_trailing_inline_refuted"
   ],
   "note": "Trailing inline content (C48_trailing_inline_refuted). Exact replacement: C76."
  },
  {
   "property": "C49",
   "status": "partial",
   "theorems": [
    "C49_explicit_height_partial",
    "C49_min_height_refuted"
   ],
   "note": "min-height is ignored with explicit height (C49_min_height_refuted). Exact replacement: C77."
  },
  {
   "property": "C50",
   "status": "proved",
   "theorems": [
    "C50_root_fits_display"
   ],
   "note": ""
  },
  {
   "property": "C51",
   "status": "proved",
   "theorems": [
    "C51_absolute_positions",
    "C51_positions_preserved"
   ],
   "note": ""
  },
  {
   "property": "C52",
   "status": "partial",
   "theorems": [
    "C52_idempotent_partial",
    "C52_history_refuted"
   ],
   "note": "A node whose box was removed keeps history (C52_history_refuted). Exact replacement: C79. After any history, everything but origins is independent of it (C122)."
  },
  {
   "property": "C53",
   "status": "proved",
   "theorems": [
    "C53_inputs_unchanged"
   ],
   "note": ""
  },
  {
   "property": "C54",
   "status": "proved",
   "theorems": [
    "C54_block_documents_lay_out"
   ],
   "note": ""
  },
  {
   "property": "C55",
   "status": "proved",
   "theorems": [
    "C55_unsupported_raises"
   ],
   "note": ""
  },
  {
   "property": "C56",
   "status": "partial",
   "theorems": [
    "C56_hidden_partial",
    "C56_refuted"
   ],
   "note": "False in general (C56_refuted). Exact replacements: C104, C105."
  },
  {
   "property": "C57",
   "status": "partial",
   "theorems": [
    "C57_relative_left_partial",
    "C57_vertical_refuted",
    "C57_parent_height_refuted"
   ],
   "note": "Vertically the upper edge is added twice and the parent grows (two refutations). C112 gives the exact position. Exact replacement: C126."
  },
  {
   "property": "C58",
   "status": "partial",
   "theorems": [
    "C58_inline_replaced_partial",
    "C58_ratio_refuted"
   ],
   "note": "The height is width * ratio (C58_ratio_refuted). Exact replacement: C81."
  },
  {
   "property": "C59",
   "status": "partial",
   "theorems": [
    "C59_displayed_content_laid_out_partial",
    "C59_mixed_content_refuted"
   ],
   "note": "Inline content after the last block is dropped (C59_mixed_content_refuted). C112 says exactly what happens to it. Exact replacement: C130."
  },
  {
   "property": "C60",
   "status": "partial",
   "theorems": [
    "C60_nonnegative_partial",
    "C60_nonnegative_units",
    "C60_font_refuted"
   ],
   "note": "Font-relative lengths are negative because the engine uses DummyFont(-1) (C60_font_refuted). Missing: those, inline and relative boxes, and horizontal margins. Exact replacement: C129."
  },
  {
   "property": "C61",
   "status": "partial",
   "theorems": [
    "C61_collapse_top_chain_partial",
    "C61_sibling_gap_refuted"
   ],
   "note": "Sibling gaps do not use that extent (C61_sibling_gap_refuted). Exact replacement: C78."
  },
  {
   "property": "C62",
   "status": "partial",
   "theorems": [
    "C62_reshow_refuted",
    "C62_reshow_partial",
    "C62_stuck_refuted"
   ],
   "note": "False: the re-shown subtree has its origin at 0 (C62_reshow_refuted), and hiding the root or the last child of a relative auto-height block makes every later layout raise (C62_stuck_refuted). Proved: when the layouts succeed, everything but origins is the same, for all histories (C62_reshow_partial; exact in C122)."
  },
  {
   "property": "C63",
   "status": "partial",
   "theorems": [
    "C63_border_style_none_refuted"
   ],
   "note": "False: border-style is not read by the engine (C63_border_style_none_refuted; also follows from C112). Exact replacement: C127."
  },
  {
   "property": "C64",
   "status": "proved",
   "theorems": [
    "C64_pixel_documents",
    "C64_any_font"
   ],
   "note": ""
  },
  {
   "property": "C65",
   "status": "partial",
   "theorems": [
    "C65_horizontal_locality_partial",
    "C65_relative_root_refuted"
   ],
   "note": "Missing: children of a relative root in HTML5 mode (C65_relative_root_refuted), stale boxes under re-shown nodes, relative blocks. True replacement: C74."
  },
  {
   "property": "C66",
   "status": "partial",
   "theorems": [
    "C66_percentages_of_width_partial",
    "C66_axis_refuted"
   ],
   "note": "Left/right paddings and borders use the height (C66_axis_refuted); C112 says which percentage refers to what. Exact replacement: C128."
  },
  {
   "property": "C67",
   "status": "partial",
   "theorems": [
    "C67_dirty_after_layout_refuted"
   ],
   "note": "False: layout never clears the flag (C67_dirty_after_layout_refuted). Exact replacement: C80."
  },
  {
   "property": "C68",
   "status": "proved",
   "theorems": [
    "C68_moves_and_document_resets"
   ],
   "note": ""
  },
  {
   "property": "C69",
   "status": "proved",
   "theorems": [
    "C69_extent_is_max_of_px_margins"
   ],
   "note": ""
  },
  {
   "property": "C70",
   "status": "proved",
   "theorems": [
    "C70_invalidation_reaches_subtree"
   ],
   "note": ""
  },
  {
   "property": "C71",
   "status": "proved",
   "theorems": [
    "C71_horizontal_equation"
   ],
   "note": ""
  },
  {
   "property": "C72",
   "status": "proved",
   "theorems": [
    "C72_auto_margins"
   ],
   "note": ""
  },
  {
   "property": "C73",
   "status": "proved",
   "theorems": [
    "C73_explicit_width_clamped"
   ],
   "note": ""
  },
  {
   "property": "C74",
   "status": "proved",
   "theorems": [
    "C74_horizontal_locality"
   ],
   "note": ""
  },
  {
   "property": "C75",
   "status": "proved",
   "theorems": [
    "C75_block_stacking"
   ],
   "note": ""
  },
  {
   "property": "C76",
   "status": "proved",
   "theorems": [
    "C76_auto_height_encloses"
   ],
   "note": ""
  },
  {
   "property": "C77",
   "status": "proved",
   "theorems": [
    "C77_explicit_height"
   ],
   "note": ""
  },
  {
   "property": "C78",
   "status": "proved",
   "theorems": [
    "C78_collapsed_extents"
   ],
   "note": ""
  },
  {
   "property": "C79",
   "status": "proved",
   "theorems": [
    "C79_history_independent",
    "C79_repeated_layout"
   ],
   "note": ""
  },
  {
   "property": "C80",
   "status": "proved",
   "theorems": [
    "C80_boxes_stay_dirty"
   ],
   "note": ""
  },
  {
   "property": "C81",
   "status": "proved",
   "theorems": [
    "C81_replaced_size"
   ],
   "note": ""
  },
  {
   "property": "C82",
   "status": "proved",
   "theorems": [
    "C82_vertical_margins"
   ],
   "note": ""
  },
  {
   "property": "C83",
   "status": "proved",
   "theorems": [
    "C83_reassign_exact"
   ],
   "note": ""
  },
  {
   "property": "C84",
   "status": "proved",
   "theorems": [
    "C84_escaping_errors"
   ],
   "note": ""
  },
  {
   "property": "C85",
   "status": "proved",
   "theorems": [
    "C85_border_atomic"
   ],
   "note": ""
  },
  {
   "property": "C86",
   "status": "proved",
   "theorems": [
    "C86_side_read_back"
   ],
   "note": ""
  },
  {
   "property": "C87",
   "status": "proved",
   "theorems": [
    "C87_accepted_texts",
    "C87_rejected"
   ],
   "note": ""
  },
  {
   "property": "C88",
   "status": "proved",
   "theorems": [
    "C88_convertible"
   ],
   "note": ""
  },
  {
   "property": "C89",
   "status": "proved",
   "theorems": [
    "C89_hash"
   ],
   "note": ""
  },
  {
   "property": "C90",
   "status": "proved",
   "theorems": [
    "C90_exchanged"
   ],
   "note": ""
  },
  {
   "property": "C91",
   "status": "proved",
   "theorems": [
    "C91_delimiters"
   ],
   "note": ""
  },
  {
   "property": "C92",
   "status": "proved",
   "theorems": [
    "C92_modulo"
   ],
   "note": ""
  },
  {
   "property": "C93",
   "status": "proved",
   "theorems": [
    "C93_commas",
    "C93_blanks",
    "C93_only"
   ],
   "note": ""
  },
  {
   "property": "C94",
   "status": "proved",
   "theorems": [
    "C94_flat"
   ],
   "note": ""
  },
  {
   "property": "C95",
   "status": "proved",
   "theorems": [
    "C95_round_trip"
   ],
   "note": ""
  },
  {
   "property": "C96",
   "status": "proved",
   "theorems": [
    "C96_culprit",
    "C96_effects"
   ],
   "note": ""
  },
  {
   "property": "C97",
   "status": "proved",
   "theorems": [
    "C97_set",
    "C97_delete"
   ],
   "note": ""
  },
  {
   "property": "C98",
   "status": "proved",
   "theorems": [
    "C98_copy"
   ],
   "note": ""
  },
  {
   "property": "C99",
   "status": "proved",
   "theorems": [
    "C99_exact_view"
   ],
   "note": ""
  },
  {
   "property": "C100",
   "status": "proved",
   "theorems": [
    "C100_only_readings"
   ],
   "note": ""
  },
  {
   "property": "C101",
   "status": "proved",
   "theorems": [
    "C101_copies"
   ],
   "note": ""
  },
  {
   "property": "C102",
   "status": "proved",
   "theorems": [
    "C102_clean_is_current"
   ],
   "note": ""
  },
  {
   "property": "C103",
   "status": "proved",
   "theorems": [
    "C103_accepted"
   ],
   "note": ""
  },
  {
   "property": "C104",
   "status": "proved",
   "theorems": [
    "C104_as_if_absent",
    "C104_no_box"
   ],
   "note": ""
  },
  {
   "property": "C105",
   "status": "proved",
   "theorems": [
    "C105_before_block",
    "C105_last"
   ],
   "note": ""
  },
  {
   "property": "C106",
   "status": "proved",
   "theorems": [
    "C106_terminates"
   ],
   "note": ""
  },
  {
   "property": "C107",
   "status": "proved",
   "theorems": [
    "C107_layout_units",
    "C107_coordinates"
   ],
   "note": ""
  },
  {
   "property": "C108",
   "status": "proved",
   "theorems": [
    "C108_layout_arithmetic_exact"
   ],
   "note": ""
  },
  {
   "property": "C109",
   "status": "proved",
   "theorems": [
    "C109_float_conversion",
    "C109_pixels_exact"
   ],
   "note": ""
  },
  {
   "property": "C110",
   "status": "proved",
   "theorems": [
    "C110_written_lengths"
   ],
   "note": ""
  },
  {
   "property": "C111",
   "status": "proved",
   "theorems": [
    "C111_reference_layout"
   ],
   "note": ""
  },
  {
   "property": "C112",
   "status": "proved",
   "theorems": [
    "C112_every_layout_is_the_reference"
   ],
   "note": ""
  },
  {
   "property": "C113",
   "status": "proved",
   "theorems": [
    "C113_read_back"
   ],
   "note": ""
  },
  {
   "property": "C114",
   "status": "proved",
   "theorems": [
    "C114_none",
    "C114_hsl"
   ],
   "note": ""
  },
  {
   "property": "C115",
   "status": "proved",
   "theorems": [
    "C115_rebuild",
    "C115_text"
   ],
   "note": ""
  },
  {
   "property": "C116",
   "status": "proved",
   "theorems": [
    "C116_layout"
   ],
   "note": ""
  },
  {
   "property": "C117",
   "status": "proved",
   "theorems": [
    "C117_border_text"
   ],
   "note": ""
  },
  {
   "property": "C118",
   "status": "proved",
   "theorems": [
    "C118_number",
    "C118_integer",
    "C118_errors"
   ],
   "note": ""
  },
  {
   "property": "C119",
   "status": "proved",
   "theorems": [
    "C119_message",
    "C119_order"
   ],
   "note": ""
  },
  {
   "property": "C120",
   "status": "proved",
   "theorems": [
    "C120_construct",
    "C120_equal",
    "C120_read"
   ],
   "note": ""
  },
  {
   "property": "C121",
   "status": "proved",
   "theorems": [
    "C121_contents",
    "C121_identity"
   ],
   "note": ""
  },
  {
   "property": "C122",
   "status": "proved",
   "theorems": [
    "C122_any_history"
   ],
   "note": ""
  },
  {
   "property": "C123",
   "status": "proved",
   "theorems": [
    "C123_exactly_when"
   ],
   "note": ""
  },
  {
   "property": "C124",
   "status": "proved",
   "theorems": [
    "C124_any_display"
   ],
   "note": ""
  },
  {
   "property": "C125",
   "status": "proved",
   "theorems": [
    "C125_again"
   ],
   "note": ""
  },
  {
   "property": "C126",
   "status": "proved",
   "theorems": [
    "C126_relative_moves_one_block"
   ],
   "note": ""
  },
  {
   "property": "C127",
   "status": "proved",
   "theorems": [
    "C127_without_effect"
   ],
   "note": ""
  },
  {
   "property": "C128",
   "status": "proved",
   "theorems": [
    "C128_percentages",
    "C128_vanish"
   ],
   "note": ""
  },
  {
   "property": "C129",
   "status": "proved",
   "theorems": [
    "C129_signs",
    "C129_heights"
   ],
   "note": ""
  },
  {
   "property": "C130",
   "status": "proved",
   "theorems": [
    "C130_left_out"
   ],
   "note": ""
  },
  {
   "property": "C131",
   "status": "proved",
   "theorems": [
    "C131_later_changes",
    "C131_absolute"
   ],
   "note": ""
  },
  {
   "property": "C132",
   "status": "proved",
   "theorems": [
    "C132_same_in_same_width"
   ],
   "note": ""
  },
  {
   "property": "C133",
   "status": "proved",
   "theorems": [
    "C133_display_height"
   ],
   "note": ""
  },
  {
   "property": "C134",
   "status": "proved",
   "theorems": [
    "C134_width",
    "C134_position",
    "C134_inside"
   ],
   "note": ""
  },
  {
   "property": "C135",
   "status": "proved",
   "theorems": [
    "C135_first_obstacle"
   ],
   "note": ""
  },
  {
   "property": "C136",
   "status": "proved",
   "theorems": [
    "C136_same_error"
   ],
   "note": ""
  },
  {
   "property": "C137",
   "status": "proved",
   "theorems": [
    "C137_float_layout",
    "C137_same_engine",
    "C137_float_units"
   ],
   "note": "C138 gives a syntactic condition"
  },
  {
   "property": "C138",
   "status": "proved",
   "theorems": [
    "C138_plain_documents",
    "C138_never_stops",
    "C138_pixel_lengths"
   ],
   "note": "boxes left from an earlier layout below a node without a box, percentages, ratios and INHERIT offsets are excluded; C137 covers them"
  },
  {
   "property": "C139",
   "status": "proved",
   "theorems": [
    "C139_pixel_values",
    "C139_only_pixels"
   ],
   "note": "lengths that fail to convert and are never read become 0px"
  },
  {
   "property": "C140",
   "status": "proved",
   "theorems": [
    "C140_rounded_document"
   ],
   "note": ""
  },
  {
   "property": "C141",
   "status": "proved",
   "theorems": [
    "C141_taller_block",
    "C141_absolute"
   ],
   "note": ""
  },
  {
   "property": "C142",
   "status": "proved",
   "theorems": [
    "C142_edit_moves",
    "C142_absolute"
   ],
   "note": ""
  },
  {
   "property": "C143",
   "status": "proved",
   "theorems": [
    "C143_own_height",
    "C143_absolute"
   ],
   "note": ""
  },
  {
   "property": "C144",
   "status": "proved",
   "theorems": [
    "C144_zoom",
    "C144_succeeds"
   ],
   "note": ""
  },
  {
   "property": "C145",
   "status": "proved",
   "theorems": [
    "C145_mirror",
    "C145_succeeds"
   ],
   "note": ""
  },
  {
   "property": "C146",
   "status": "proved",
   "theorems": [
    "C146_any_order",
    "C146_construct"
   ],
   "note": ""
  },
  {
   "property": "C147",
   "status": "proved",
   "theorems": [
    "C147_float",
    "C147_int",
    "C147_lengths"
   ],
   "note": ""
  },
  {
   "property": "C148",
   "status": "proved",
   "theorems": [
    "C148_repr",
    "C148_raises",
    "C148_shorthand",
    "C148_formatted",
    "C148_format",
    "C148_format_raises",
    "C148_format_texts"
   ],
   "note": "objects made by hand with a brace in a text raise or print something else (C148_example)"
  },
  {
   "property": "C149",
   "status": "proved",
   "theorems": [
    "C149_equal",
    "C149_hashable",
    "C149_cursor",
    "C149_two_classes"
   ],
   "note": ""
  },
  {
   "property": "C150",
   "status": "proved",
   "theorems": [
    "C150_wrapper",
    "C150_any_history",
    "C150_succeeds"
   ],
   "note": ""
  },
  {
   "property": "C151",
   "status": "proved",
   "theorems": [
    "C151_written_length"
   ],
   "note": ""
  },
  {
   "property": "C152",
   "status": "proved",
   "theorems": [
    "C152_texts",
    "C152_rejected",
    "C152_negative_accepted"
   ],
   "note": ""
  },
  {
   "property": "C153",
   "status": "proved",
   "theorems": [
    "C153_across",
    "C153_along"
   ],
   "note": ""
  },
  {
   "property": "C154",
   "status": "proved",
   "theorems": [
    "C154_wider_display"
   ],
   "note": ""
  },
  {
   "property": "C155",
   "status": "proved",
   "theorems": [
    "C155_nothing_moves_up",
    "C155_any_history"
   ],
   "note": ""
  },
  {
   "property": "C156",
   "status": "proved",
   "theorems": [
    "C156_accepted",
    "C156_number",
    "C156_rejected",
    "C156_type_error",
    "C156_only",
    "C156_sequence"
   ],
   "note": ""
  },
  {
   "property": "C157",
   "status": "proved",
   "theorems": [
    "C157_in_order"
   ],
   "note": ""
  },
  {
   "property": "C158",
   "status": "proved",
   "theorems": [
    "C158_down",
    "C158_across"
   ],
   "note": ""
  },
  {
   "property": "C159",
   "status": "proved",
   "theorems": [
    "C159_nothing_wider"
   ],
   "note": ""
  },
  {
   "property": "C160",
   "status": "proved",
   "theorems": [
    "C160_accepted",
    "C160_rejected",
    "C160_short"
   ],
   "note": ""
  },
  {
   "property": "C161",
   "status": "proved",
   "theorems": [
    "C161_which_exception"
   ],
   "note": ""
  },
  {
   "property": "C162",
   "status": "proved",
   "theorems": [
    "C162_accepted",
    "C162_rejected",
    "C162_values"
   ],
   "note": ""
  },
  {
   "property": "C163",
   "status": "proved",
   "theorems": [
    "C163_written"
   ],
   "note": ""
  },
  {
   "property": "C164",
   "status": "proved",
   "theorems": [
    "C164_accepted",
    "C164_angle",
    "C164_rejected",
    "C164_raises"
   ],
   "note": ""
  },
  {
   "property": "C165",
   "status": "proved",
   "theorems": [
    "C165_directional"
   ],
   "note": ""
  },
  {
   "property": "C166",
   "status": "proved",
   "theorems": [
    "C166_table",
    "C166_total"
   ],
   "note": ""
  },
  {
   "property": "C167",
   "status": "proved",
   "theorems": [
    "C167_edits"
   ],
   "note": ""
  },
  {
   "property": "C168",
   "status": "proved",
   "theorems": [
    "C168_near",
    "C168_exact",
    "C168_form",
    "C168_monotone",
    "C168_opposite",
    "C168_errors"
   ],
   "note": ""
  },
  {
   "property": "C169",
   "status": "proved",
   "theorems": [
    "C169_reads",
    "C169_dirty"
   ],
   "note": ""
  },
  {
   "property": "C170",
   "status": "proved",
   "theorems": [
    "C170_repr",
    "C170_form"
   ],
   "note": ""
  },
  {
   "property": "C171",
   "status": "proved",
   "theorems": [
    "C171_is_uri"
   ],
   "note": ""
  },
  {
   "property": "C172",
   "status": "proved",
   "theorems": [
    "C172_levels"
   ],
   "note": ""
  },
  {
   "property": "C173",
   "status": "proved",
   "theorems": [
    "C173_css",
    "C173_range",
    "C173_whole",
    "C173_errors",
    "C173_text",
    "C173_stable"
   ],
   "note": ""
  },
  {
   "property": "C174",
   "status": "proved",
   "theorems": [
    "C174_succeeds",
    "C174_reorder",
    "C174_any_history",
    "C174_sum"
   ],
   "note": ""
  },
  {
   "property": "C175",
   "status": "proved",
   "theorems": [
    "C175_succeeds",
    "C175_empty_block",
    "C175_absolute"
   ],
   "note": "unlike CSS, where margins collapse through empty blocks"
  },
  {
   "property": "C176",
   "status": "proved",
   "theorems": [
    "C176_succeeds",
    "C176_tail",
    "C176_any_history",
    "C176_collapses"
   ],
   "note": "a finding: trailing inline content gives the height 0, and later blocks overlap"
  },
  {
   "property": "C177",
   "status": "proved",
   "theorems": [
    "C177_page",
    "C177_absolute",
    "C177_styled",
    "C177_written_length"
   ],
   "note": ""
  },
  {
   "property": "C178",
   "status": "proved",
   "theorems": [
    "C178_written_percentage",
    "C178_nested"
   ],
   "note": "a finding: percentage heights do not nest"
  },
  {
   "property": "C179",
   "status": "proved",
   "theorems": [
    "C179_modes"
   ],
   "note": ""
  },
  {
   "property": "C180",
   "status": "proved",
   "theorems": [
    "C180_reorder",
    "C180_layout"
   ],
   "note": ""
  },
  {
   "property": "C181",
   "status": "proved",
   "theorems": [
    "C181_no_parent",
    "C181_parent",
    "C181_height"
   ],
   "note": ""
  },
  {
   "property": "C182",
   "status": "proved",
   "theorems": [
    "C182_outcome",
    "C182_page"
   ],
   "note": ""
  },
  {
   "property": "C183",
   "status": "proved",
   "theorems": [
    "C183_anonymize",
    "C183_members",
    "C183_loop"
   ],
   "note": ""
  },
  {
   "property": "C184",
   "status": "proved",
   "theorems": [
    "C184_outcome",
    "C184_page"
   ],
   "note": ""
  },
  {
   "property": "C185",
   "status": "proved",
   "theorems": [
    "C185_same",
    "C185_bound",
    "C185_calls",
    "C185_once"
   ],
   "note": ""
  },
  {
   "property": "C186",
   "status": "proved",
   "theorems": [
    "C186_page",
    "C186_near"
   ],
   "note": ""
  },
  {
   "property": "C187",
   "status": "proved",
   "theorems": [
    "C187_accepted",
    "C187_rejected",
    "C187_one_text",
    "C187_css_escape"
   ],
   "note": ""
  },
  {
   "property": "C188",
   "status": "proved",
   "theorems": [
    "C188_insets",
    "C188_levels",
    "C188_quadratic"
   ],
   "note": ""
  },
  {
   "property": "C189",
   "status": "proved",
   "theorems": [
    "C189_joined",
    "C189_rejected",
    "C189_one_text",
    "C189_blanks"
   ],
   "note": ""
  },
  {
   "property": "C190",
   "status": "proved",
   "theorems": [
    "C190_border_or_padding",
    "C190_succeeds"
   ],
   "note": ""
  },
  {
   "property": "C191",
   "status": "proved",
   "theorems": [
    "C191_outcome",
    "C191_succeeds"
   ],
   "note": ""
  },
  {
   "property": "C192",
   "status": "proved",
   "theorems": [
    "C192_written_down",
    "C192_succeeds"
   ],
   "note": ""
  },
  {
   "property": "C193",
   "status": "proved",
   "theorems": [
    "C193_ints",
    "C193_coordinates",
    "C193_lengths"
   ],
   "note": ""
  },
  {
   "property": "C194",
   "status": "proved",
   "theorems": [
    "C194_edges_down",
    "C194_succeeds"
   ],
   "note": ""
  },
  {
   "property": "C195",
   "status": "proved",
   "theorems": [
    "C195_finer",
    "C195_succeeds"
   ],
   "note": ""
  },
  {
   "property": "C196",
   "status": "proved",
   "theorems": [
    "C196_drawable"
   ],
   "note": ""
  },
  {
   "property": "C197",
   "status": "proved",
   "theorems": [
    "C197_nested_percentages"
   ],
   "note": ""
  },
  {
   "property": "C198",
   "status": "proved",
   "theorems": [
    "C198_undo",
    "C198_layout"
   ],
   "note": ""
  },
  {
   "property": "C199",
   "status": "proved",
   "theorems": [
    "C199_only_sideways",
    "C199_succeeds"
   ],
   "note": ""
  },
  {
   "property": "C200",
   "status": "proved",
   "theorems": [
    "C200_unreached",
    "C200_succeeds"
   ],
   "note": ""
  },
  {
   "property": "C201",
   "status": "proved",
   "theorems": [
    "C201_evenly_spaced"
   ],
   "note": ""
  },
  {
   "property": "C202",
   "status": "proved",
   "theorems": [
    "C202_smaller_margin",
    "C202_succeeds"
   ],
   "note": ""
  },
  {
   "property": "C203",
   "status": "proved",
   "theorems": [
    "C203_smaller_margin",
    "C203_succeeds"
   ],
   "note": ""
  },
  {
   "property": "C204",
   "status": "proved",
   "theorems": [
    "C204_alike"
   ],
   "note": ""
  },
  {
   "property": "C205",
   "status": "proved",
   "theorems": [
    "C205_no_effect"
   ],
   "note": ""
  },
  {
   "property": "C206",
   "status": "proved",
   "theorems": [
    "C206_where_used",
    "C206_succeeds"
   ],
   "note": ""
  },
  {
   "property": "C207",
   "status": "proved",
   "theorems": [
    "C207_rows",
    "C207_overlap",
    "C207_succeeds"
   ],
   "note": ""
  },
  {
   "property": "C208",
   "status": "proved",
   "theorems": [
    "C208_first_margins"
   ],
   "note": ""
  },
  {
   "property": "C209",
   "status": "proved",
   "theorems": [
    "C209_sides",
    "C209_succeeds"
   ],
   "note": ""
  },
  {
   "property": "C210",
   "status": "proved",
   "theorems": [
    "C210_last_counts"
   ],
   "note": ""
  },
  {
   "property": "C211",
   "status": "proved",
   "theorems": [
    "C211_right",
    "C211_succeeds"
   ],
   "note": ""
  },
  {
   "property": "C212",
   "status": "proved",
   "theorems": [
    "C212_corner"
   ],
   "note": ""
  }
 ]
}