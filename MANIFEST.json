{
 "claims": [
  {
   "property": "C01",
   "status": "proved",
   "theorems": [
    "C01_decode_recovers_text"
   ],
   "note": ""
  },
  {
   "property": "C02",
   "status": "proved",
   "theorems": [
    "C02_decode_recovers_kanji",
    "C02_kanji_text_determined"
   ],
   "note": "the Shift-JIS encoder of golang.org/x/text is a parameter with the contract shift_jis_contract"
  },
  {
   "property": "C03",
   "status": "partial",
   "theorems": [
    "C03_automatic_mode_partial",
    "C03_automatic_mode_loses_text",
    "C03_automatic_mode_refuted"
   ],
   "note": "false of the code: alphanumeric prefix followed by kanji selects Kanji and loses characters; the partial theorem covers every other text"
  },
  {
   "property": "C04",
   "status": "proved",
   "theorems": [
    "C04_no_panic",
    "C04_result_or_error"
   ],
   "note": ""
  },
  {
   "property": "C05",
   "status": "partial",
   "theorems": [
    "C05_unsupported_mode_partial",
    "C05_no_panic_any_mode_refuted",
    "C05_panics_iff_partial"
   ],
   "note": "false of the code: WithEncodingMode(EncModeNone) with WithVersion panics; C05_panics_iff_partial says exactly which calls panic"
  },
  {
   "property": "C06",
   "status": "partial",
   "theorems": [
    "C06_plain_types_partial",
    "C06_defined_types_refuted"
   ],
   "note": "false of the code: defined types panic in toBytes"
  },
  {
   "property": "C07",
   "status": "partial",
   "theorems": [
    "C07_succeeds_iff_fits_partial",
    "C07_effective_mode_exists",
    "C07_too_long_text_accepted",
    "C07_refuted"
   ],
   "note": "false of the code for automatically selected Kanji on mixed texts; the partial theorem covers every other call"
  },
  {
   "property": "C08",
   "status": "proved",
   "theorems": [
    "C08_automatic_version_is_least"
   ],
   "note": ""
  },
  {
   "property": "C09",
   "status": "proved",
   "theorems": [
    "C09_requested_version_honoured"
   ],
   "note": ""
  },
  {
   "property": "C10",
   "status": "proved",
   "theorems": [
    "C10_minimum_version",
    "C10_minimum_version_never_changes_success"
   ],
   "note": ""
  },
  {
   "property": "C11",
   "status": "proved",
   "theorems": [
    "C11_effective_options",
    "C11_only_effective_options_matter"
   ],
   "note": ""
  },
  {
   "property": "C12",
   "status": "proved",
   "theorems": [
    "C12_function_patterns"
   ],
   "note": ""
  },
  {
   "property": "C13",
   "status": "proved",
   "theorems": [
    "C13_format_information"
   ],
   "note": ""
  },
  {
   "property": "C14",
   "status": "proved",
   "theorems": [
    "C14_version_information"
   ],
   "note": ""
  },
  {
   "property": "C15",
   "status": "proved",
   "theorems": [
    "C15_data_modules"
   ],
   "note": ""
  },
  {
   "property": "C16",
   "status": "proved",
   "theorems": [
    "C16_block_structure"
   ],
   "note": ""
  },
  {
   "property": "C17",
   "status": "proved",
   "theorems": [
    "C17_capacity_exact"
   ],
   "note": ""
  },
  {
   "property": "C18",
   "status": "proved",
   "theorems": [
    "C18_blocks_are_codewords"
   ],
   "note": ""
  },
  {
   "property": "C19",
   "status": "proved",
   "theorems": [
    "C19_damaged_symbol_recovered",
    "C19_unique_correction",
    "C19_percentages"
   ],
   "note": ""
  },
  {
   "property": "C20",
   "status": "proved",
   "theorems": [
    "C20_interleaving",
    "C20_unequal_blocks_refuted"
   ],
   "note": "the second theorem shows that the restriction to block lengths differing by at most one is needed"
  },
  {
   "property": "C21",
   "status": "proved",
   "theorems": [
    "C21_framing"
   ],
   "note": "for texts whose mode is not misdetected (C03)"
  },
  {
   "property": "C22",
   "status": "proved",
   "theorems": [
    "C22_minimal_penalty",
    "C22_terminates",
    "C22_iso_minimal_refuted"
   ],
   "note": "the minimised penalty is the one the code computes (search_penalty); with the penalty of the standard minimality is false"
  },
  {
   "property": "C23",
   "status": "partial",
   "theorems": [
    "C23_deterministic_partial",
    "C23_deterministic_iff",
    "C23_deterministic_if",
    "C23_decided_by_eight_runs",
    "C23_possible_results",
    "C23_deterministic_refuted"
   ],
   "note": "false of the code when two masks tie; C23_deterministic_iff: it holds exactly when one mask is strictly best, C23_possible_results: the results over fair schedules are exactly the candidates of lowest penalty"
  },
  {
   "property": "C24",
   "status": "proved",
   "theorems": [
    "C24_masking"
   ],
   "note": ""
  },
  {
   "property": "C25",
   "status": "proved",
   "theorems": [
    "C25_run_penalty"
   ],
   "note": ""
  },
  {
   "property": "C26",
   "status": "partial",
   "theorems": [
    "C26_block_penalty_partial",
    "C26_block_penalty_refuted"
   ],
   "note": "false of the code: windows of one colour but different module kinds are not counted; the partial theorem gives what is counted, and equality for matrices of data modules"
  },
  {
   "property": "C27",
   "status": "partial",
   "theorems": [
    "C27_pattern_penalty_partial",
    "C27_pattern_penalty_refuted"
   ],
   "note": "false of the code: only data modules match; the partial theorem gives an upper bound and equality for matrices of data modules"
  },
  {
   "property": "C28",
   "status": "partial",
   "theorems": [
    "C28_balance_penalty_partial",
    "C28_balance_penalty_refuted",
    "C28_total"
   ],
   "note": "false of the code exactly when the percentage lies strictly between a multiple of five other than 50 and the next integer"
  },
  {
   "property": "C29",
   "status": "proved",
   "theorems": [
    "C29_pattern_count",
    "C29_empty_pattern"
   ],
   "note": ""
  },
  {
   "property": "C30",
   "status": "proved",
   "theorems": [
    "C30_library_matrices",
    "C30_views_agree",
    "C30_shapes"
   ],
   "note": ""
  },
  {
   "property": "C31",
   "status": "partial",
   "theorems": [
    "C31_writer_cannot_alter_partial",
    "C31_writer_cannot_alter_refuted"
   ],
   "note": "false of the code: Col returns the internal slice; the partial theorem covers every writer that does not assign through it"
  },
  {
   "property": "C32",
   "status": "proved",
   "theorems": [
    "C32_save",
    "C32_no_matrix",
    "C32_save_nil"
   ],
   "note": ""
  },
  {
   "property": "C33",
   "status": "proved",
   "theorems": [
    "C33_text_determines_symbol",
    "C33_nil_file"
   ],
   "note": ""
  },
  {
   "property": "C34",
   "status": "proved",
   "theorems": [
    "C34_pixel_exact",
    "C34_negative_padding_panics"
   ],
   "note": ""
  },
  {
   "property": "C35",
   "status": "partial",
   "theorems": [
    "C35_file_content_partial",
    "C35_exact_iff",
    "C35_stale_tail_refuted",
    "C35_standard_truncates"
   ],
   "note": "false of the code when the existing file is longer than the image (no O_TRUNC); proved exact iff it is not"
  },
  {
   "property": "C36",
   "status": "partial",
   "theorems": [
    "C36_attribute",
    "C36_size_general",
    "C36_block_width",
    "C36_negative_size_refuted"
   ],
   "note": "proved for non-negative totals; with borders so negative that the total is negative the image has the absolute value of the documented size"
  },
  {
   "property": "C37",
   "status": "partial",
   "theorems": [
    "C37_pixels_partial",
    "C37_translucent_background_refuted",
    "C37_pixels_any_colour",
    "C37_light_modules_iff",
    "C37_transparent_any_colour"
   ],
   "note": "false of the code for a translucent background colour, which is painted twice under the symbol; what is painted is proved for every colour (PropsColours), and that light modules have the background colour iff its alpha is 0 or 255"
  },
  {
   "property": "C38",
   "status": "proved",
   "theorems": [
    "C38_border_widths"
   ],
   "note": ""
  },
  {
   "property": "C39",
   "status": "proved",
   "theorems": [
    "C39_logo_drawn_iff_it_fits",
    "C39_logo_centred",
    "C39_safe_zone",
    "C39_pixels",
    "C39_opaque_logo_pixel",
    "C39_logo_keeps_its_colors"
   ],
   "note": "logos of at least one pixel; C39_pixels and C39_logo_keeps_its_colors for logos whose bounds start at the origin, for the others see C92"
  },
  {
   "property": "C40",
   "status": "partial",
   "theorems": [
    "C40_neighbours_partial",
    "C40_neighbours_symmetric_partial",
    "C40_neighbours_refuted"
   ],
   "note": "false of the code: row and column are exchanged when the safe zone is cleared; proved what the code does, and that it is right without safe zone and in the symmetric case"
  },
  {
   "property": "C41",
   "status": "partial",
   "theorems": [
    "C41_exact_iff_partial",
    "C41_right_for_opaque_types_partial",
    "C41_colour_refuted"
   ],
   "note": "false of the code: parseFromColor keeps the low byte of each 16-bit channel; proved exactly when that is right"
  },
  {
   "property": "C42",
   "status": "proved",
   "theorems": [
    "C42_screen",
    "C42_modules_readable",
    "C42_waits_for_a_key"
   ],
   "note": ""
  },
  {
   "property": "C43",
   "status": "proved",
   "theorems": [
    "C43_calls_do_not_interfere",
    "C43_no_data_race",
    "C43_any_right_cache"
   ],
   "note": "the package-level state shared between calls is the alignment cache (debug mode off)"
  },
  {
   "property": "C44",
   "status": "partial",
   "theorems": [
    "C44_load_version",
    "C44_search_partial",
    "C44_search_whole_table",
    "C44_search_refuted"
   ],
   "note": "loading a version is total and right; the (unused) binary search does not terminate when it must look to the right of an absent entry"
  },
  {
   "property": "C45",
   "status": "proved",
   "theorems": [
    "C45_format_error_correction"
   ],
   "note": ""
  },
  {
   "property": "C46",
   "status": "proved",
   "theorems": [
    "C46_version_error_correction"
   ],
   "note": ""
  },
  {
   "property": "C47",
   "status": "partial",
   "theorems": [
    "C47_repeatable_partial",
    "C47_repeatable_refuted",
    "C47_transparent_partial",
    "C47_halftone_refuted",
    "C47_translucent_logo_refuted"
   ],
   "note": "false of the code with WithBgTransparent: the first Write changes the writer's background colour; proved without it; with it a PNG shows the same picture (default shape, any gradient, logos without translucent pixels, halftone with block widths divisible by three; refuted for other halftone pictures and translucent logos, whose mixed pixels change colour)"
  },
  {
   "property": "C48",
   "status": "proved",
   "theorems": [
    "C48_hex_colours"
   ],
   "note": "strings that are not '#' and hexadecimal digits are left to a parameter"
  },
  {
   "property": "C49",
   "status": "proved",
   "theorems": [
    "C49_file",
    "C49_terminal",
    "C49_compressed",
    "C49_standard"
   ],
   "note": "image encoders are any encoder with a lossless decoder (PNG); texts other than the misdetected ones of C03"
  },
  {
   "property": "C50",
   "status": "proved",
   "theorems": [
    "C50_compressed_no_silent_loss",
    "C50_standard_no_silent_loss"
   ],
   "note": "the file writer's case is C33"
  },
  {
   "property": "C51",
   "status": "partial",
   "theorems": [
    "C51_options_partial",
    "C51_borders_iff",
    "C51_block_general",
    "C51_block_size_refuted"
   ],
   "note": "false of the code for --block above 255 (only the low byte counts); proved for all other values"
  },
  {
   "property": "C52",
   "status": "partial",
   "theorems": [
    "C52_encoding_partial",
    "C52_output_partial",
    "C52_result",
    "C52_no_options",
    "C52_other_contents",
    "C52_reads_back",
    "C52_missing_field_crashes",
    "C52_documented_modes_refuted",
    "C52_margin_refuted",
    "C52_large_margin"
   ],
   "note": "false of the code: encodeMode 0-3 (documented) has no effect, margin 0 gives 40, missing fields crash; everything else proved"
  },
  {
   "property": "C53",
   "status": "proved",
   "theorems": [
    "C53_symbol_unique"
   ],
   "note": ""
  },
  {
   "property": "C54",
   "status": "partial",
   "theorems": [
    "C54_distinct_texts_partial",
    "C54_kanji_text_recovered",
    "C54_distinct_texts_refuted"
   ],
   "note": "false of the code for the texts of C03 (alphanumeric characters followed by kanji); proved for all others, given that Shift-JIS is injective"
  },
  {
   "property": "C55",
   "status": "proved",
   "theorems": [
    "C55_characters_scalar",
    "C55_rune_to_string",
    "C55_decode_encode",
    "C55_encode_decode"
   ],
   "note": "Go's conversions between strings and runes, used by mode detection and the file writer"
  },
  {
   "property": "C56",
   "status": "partial",
   "theorems": [
    "C56_any_proper_shape",
    "C56_rectangle_is_proper",
    "C56_circle_is_proper",
    "C56_circle_width_one_refuted",
    "C56_scan",
    "C56_saved_symbol_reads_back",
    "C56_mostly_covering_reads_back",
    "C56_circle_width_two"
   ],
   "note": "circles from block width 3, and at width 2 (black on white) if gg covers at least three fifths of pixels of which pi/4 lie in the disc; at width 1 circles draw nothing (refuted)"
  },
  {
   "property": "C57",
   "status": "partial",
   "theorems": [
    "C57_pixels",
    "C57_exact_iff_divisible",
    "C57_readable_partial",
    "C57_one_or_two_pixels_refuted",
    "C57_four_or_five_pixels_refuted",
    "C57_function_patterns",
    "C57_alignment_patterns_refuted",
    "C57_float64_same_picture"
   ],
   "note": "alignment patterns are refuted to be drawn in full; readable for block widths 3 and from 6; refuted for 1, 2 and 4, 5 (the middle third rounds away or is not the middle pixel); in float64 arithmetic, fused or not, squares give the same picture pixel for pixel (borders up to 2^31, block widths up to 2^20)"
  },
  {
   "property": "C58",
   "status": "partial",
   "theorems": [
    "C58_origin_bounds_partial",
    "C58_gray_exact_on_grey",
    "C58_shifted_bounds_refuted",
    "C58_any_bounds",
    "C58_halftone_subblocks",
    "C58_save",
    "C58_failed_save_keeps_file_refuted"
   ],
   "note": "for bounds at the origin; other bounds refuted, with the exact behaviour; a failed Save may empty the file (refuted)"
  },
  {
   "property": "C59",
   "status": "partial",
   "theorems": [
    "C59_colour",
    "C59_colour_determined",
    "C59_channels_bounded",
    "C59_no_stops",
    "C59_no_stops_ignored",
    "C59_position",
    "C59_direction",
    "C59_four_angles",
    "C59_last_column_refuted",
    "C59_new_gradient",
    "C59_caller_slice_refuted",
    "C59_pixels",
    "C59_translucent_stop_refuted",
    "C59_samples",
    "C59_saved_symbol_reads_back",
    "C59_stops_differ_refuted",
    "C59_ieee_rounding",
    "C59_rounded_colour",
    "C59_rounded_channels",
    "C59_constant_gradient_refuted",
    "C59_rounded_position",
    "C59_unit_direction",
    "C59_rounded_pixel",
    "C59_rounded_symbol_reads_back"
   ],
   "note": "first over exact rationals, then (C59_rounded_*) in float64 arithmetic: for every rounding with the properties of IEEE 754 round-to-nearest (round64 is proved to be one) and with or without fused multiply-add, positions are exact to 2^-47 and mixtures to 2^-36 before the fraction is cut off; math.Cos and math.Sin are not modelled: the direction is any vector with |dx|+|dy| >= 1/2, which holds if they give values in [-1,1] whose squares add up to at least 1/2 (C59_unit_direction). Refuted: a white-to-white gradient is white (rounding gives 254); refuted: last column does not get the last colour, translucent stops are mixed with the foreground, NewGradient reorders the caller's slice"
  },
  {
   "property": "C60",
   "status": "partial",
   "theorems": [
    "C60_any_linking_shape",
    "C60_saved_symbol_reads_back",
    "C60_package_shapes",
    "C60_package_reads_back",
    "C60_stay_in_box",
    "C60_reach_half_a_block",
    "C60_light_modules_in_box",
    "C60_parameters_clamped",
    "C60_vstripe_ratio",
    "C60_hstripe_ratio_refuted",
    "C60_float64_shapes",
    "C60_float64_as_linking",
    "C60_float64_reads_back",
    "C60_float64_stay_in_box",
    "C60_float64_reach"
   ],
   "note": "proved over exact rationals and, for the shapes, also with every operation rounded to float64 (optional fused multiply-add; pictures up to 2^32 pixels a side, parameters not NaN or infinite, no halftone); gg's coverage of edge pixels is a parameter the theorems quantify over; block widths of 3 pixels and more (see package_block); logo safe zone, gradient and halftone in C72; refuted: HStripeBlock ignores its ratio"
  },
  {
   "property": "C61",
   "status": "proved",
   "theorems": [
    "C61_lossy_reads_back",
    "C61_lossy_linking_shapes",
    "C61_default_jpeg",
    "C61_bound_is_tight"
   ],
   "note": "the JPEG coder itself is a parameter with an error bound; all colours, also a transparent background; no logo, halftone or gradient; size limits of the coders from the Go standard library are in the model (encoder_refuses) and in C49, C50, C52"
  },
  {
   "property": "C62",
   "status": "partial",
   "theorems": [
    "C62_middle_may_be_lost",
    "C62_logo_readable",
    "C62_logo_readable_lossy",
    "C62_logo_readable_linking_shapes",
    "C62_default_logo",
    "C62_wide_borders_refuted",
    "C62_low_level_refuted"
   ],
   "note": "proved for Medium (no borders), Quart and Highest (borders up to two modules, equal on opposite sides); refuted at level Low (a logo that makes readers return another text) and for wide borders (the limit counts them, so a logo may hide the whole symbol); halftone, gradient and linking shapes with safe zone in C72"
  },
  {
   "property": "C63",
   "status": "proved",
   "theorems": [
    "C63_standard",
    "C63_compressed",
    "C63_writes_append",
    "C63_second_write_replaces_refuted",
    "C63_file"
   ],
   "note": "a second Write is refuted to replace the picture: it is put behind the first one; image encoders are assumed to make at least one Write call; the terminal writer (whose Close ends termbox) is not part of it"
  },
  {
   "property": "C64",
   "status": "proved",
   "theorems": [
    "C64_types",
    "C64_finder_iff",
    "C64_draw_finder",
    "C64_alignment_is_data_refuted"
   ],
   "note": "Type() = DATA is refuted to mean a data module: alignment patterns have this type"
  },
  {
   "property": "C65",
   "status": "proved",
   "theorems": [
    "C65_logo_png",
    "C65_logo_jpeg",
    "C65_halftone",
    "C65_unreadable_is_skipped",
    "C65_files_after_New",
    "C65_output_file_as_logo_refuted",
    "C65_output_file_as_halftone_refuted"
   ],
   "note": "the _refuted theorems: the output file cannot be used as its own logo or halftone picture"
  },
  {
   "property": "C66",
   "status": "partial",
   "theorems": [
    "C66_png",
    "C66_jpeg",
    "C66_terminal",
    "C66_halftone",
    "C66_halftone_partial",
    "C66_only_output_touched",
    "C66_early_errors_change_nothing",
    "C66_no_silent_loss",
    "C66_exit_status_refuted",
    "C66_crash_status"
   ],
   "note": "circles from block width 3 (C56); with --halftone for the block sizes of C57 (squares: 3 and from 6; the default 5 is not among them) and C72 (circles: 9 and from 12); the exit status is refuted to tell success from failure; urfave/cli's flag parsing is outside the model"
  },
  {
   "property": "C67",
   "status": "proved",
   "theorems": [
    "C67_png_round_trip",
    "C67_jpeg_round_trip",
    "C67_save_errors",
    "C67_failed_save_keeps_file_refuted"
   ],
   "note": "the codecs are parameters with a contract (SpecFs.codec); keeping the old file on failure is refuted"
  },
  {
   "property": "C68",
   "status": "proved",
   "theorems": [
    "C68_same_result",
    "C68_draft_names",
    "C68_only_drafts_touched",
    "C68_returns",
    "C68_candidates_drawn",
    "C68_masking_drawn",
    "C68_switch"
   ],
   "note": "one call at a time: two concurrent calls write the same 32 files; drawing one picture is one step; the JPEG coder is a parameter that keeps grey levels up to half the range"
  },
  {
   "property": "C69",
   "status": "proved",
   "theorems": [
    "C69_last_option_wins",
    "C69_rejected",
    "C69_plain_picture",
    "C69_default_picture",
    "C69_circles"
   ],
   "note": "colours that are not color.RGBA are kept wrong (C41); corners of circles for blocks of 7 and from 9 pixels, given the bounds of 9/10 and 11/10 of the radius on what gg covers"
  },
  {
   "property": "C70",
   "status": "proved",
   "theorems": [
    "C70_standard_margins",
    "C70_compressed_margins",
    "C70_quiet_zone_iff",
    "C70_standard_quiet_zone",
    "C70_default_quiet_zone_refuted",
    "C71_any_options",
    "C71_logo"
   ],
   "note": "square modules; gradient, halftone and logo in C71_any_options and C71_logo (their margins part); refuted for the default options: the margin is two modules, not four"
  },
  {
   "property": "C71",
   "status": "proved",
   "theorems": [
    "C71_standard",
    "C71_standard_lossy",
    "C71_default_jpeg",
    "C71_compressed",
    "C71_any_options",
    "C71_logo",
    "C71_png_tells_apart",
    "C71_gradient_logo_jpeg"
   ],
   "note": "square modules, as the statement says; the image coders are parameters with their round-trip contract"
  },
  {
   "property": "C72",
   "status": "proved",
   "theorems": [
    "C72_proper_shapes_link",
    "C72_halftone_squares",
    "C72_halftone_circles",
    "C72_halftone_package",
    "C72_halftone_package_wide",
    "C72_halftone_small_circles_refuted",
    "C72_no_logo",
    "C72_logo",
    "C72_png_tells_apart",
    "C72_jpeg_tells_apart",
    "C72_jpeg_with_everything",
    "C72_float64_circles",
    "C72_float64_reads_back"
   ],
   "note": "shapes: any with proper_shape or linking_shape (C56, C60 prove it for those of the repository at the widths given there); halftone with squares of 3 or at least 6 pixels (C57), circles of 9 or at least 12, the package's shapes by halftone_block (all of them from 21 pixels on, small squares and circles excepted); circles of up to 5 pixels are refuted to show anything under a halftone picture; logo as in C62; gradients in float64 arithmetic (C59); halftone circles and squares also in float64 arithmetic"
  },
  {
   "property": "C73",
   "status": "partial",
   "theorems": [
    "C73_weaker_level_never_larger",
    "C73_longer_text_never_smaller_partial",
    "C73_automatic_mode_never_larger_partial",
    "C73_acceptance_monotone_partial",
    "C73_longer_text_refuted",
    "C73_automatic_mode_refuted"
   ],
   "note": "the statements on lengths and on automatic mode exclude the misdetected texts of C03, for which they are refuted"
  },
  {
   "property": "C74",
   "status": "proved",
   "theorems": [
    "C74_only_one_way_looks_right",
    "C74_readable_in_any_orientation",
    "C74_text_from_any_orientation"
   ],
   "note": "at the level of modules"
  },
  {
   "property": "C75",
   "status": "proved",
   "theorems": [
    "C75_as_alone",
    "C75_no_race",
    "C75_matrix_unchanged",
    "C75_without_col",
    "C75_any_writer_refuted"
   ],
   "note": "Writers that assign through Col are not safe (C75_any_writer_refuted), as the property says; one step of the interleaving is one method call or assignment"
  },
  {
   "property": "C76",
   "status": "proved",
   "theorems": [
    "C76_refines",
    "C76_no_race",
    "C76_memory_kept",
    "C76_never_stuck",
    "C76_returns",
    "C76_programs_exist"
   ],
   "note": "the scoring (evaluation) is any program of module reads that computes the score when run alone; the allocation of the masks and copies comes before the goroutines start, as in the code, and is one step"
  },
  {
   "property": "C77",
   "status": "proved",
   "theorems": [
    "C77_misread_modules",
    "C77_any_three_modules",
    "C77_stain",
    "C77_blot",
    "C77_stained_png",
    "C77_stained_lossy",
    "C77_stained_default_jpeg",
    "C77_stained_compressed"
   ],
   "note": "in the first four the reader is told where the modules are (damaged finder and timing patterns do not count); in C77_stained_* it finds the symbol itself (the reader of C71), so the first row of pixels of the symbol and all above must be clean; error correction as in C19"
  },
  {
   "property": "C78",
   "status": "partial",
   "theorems": [
    "C78_attribute",
    "C78_standard_writer",
    "C78_too_large",
    "C78_multiplier_refuted",
    "C78_compressed_writer",
    "C78_default"
   ],
   "note": "the last sentence is false of the code (C78_multiplier_refuted: with multiplier 2^(w-2) for ints of w bits a logo of 500 x 500 covers a whole default picture); the rest is proved"
  },
  {
   "property": "C79",
   "status": "proved",
   "theorems": [
    "C79_standard",
    "C79_standard_lossy",
    "C79_default_jpeg",
    "C79_compressed",
    "C79_command_line_png",
    "C79_command_line_jpeg",
    "C79_wasm_png",
    "C79_wasm_jpeg"
   ],
   "note": "for square modules without logo, gradient and halftone; circles and logos have no common module grid in the pixels"
  },
  {
   "property": "C80",
   "status": "proved",
   "theorems": [
    "C80_nothing_runs_on",
    "C80_result_stays"
   ],
   "note": ""
  },
  {
   "property": "C81",
   "status": "partial",
   "theorems": [
    "C81_percentage_kept",
    "C81_smaller_circles",
    "C81_reads_back",
    "C81_small_blocks_refuted",
    "C81_small_blocks_draw_nothing",
    "C81_one_after_the_other",
    "C81_shared_shape_refuted",
    "C81_shared_data_module"
   ],
   "note": "proved for radii of two pixels and more (one when the width is odd); false below that (0.7 with blocks of up to 3 pixels draws only the finder patterns) and when two goroutines share the shape; the coverage of edge pixels by gg is a parameter"
  },
  {
   "property": "C82",
   "status": "partial",
   "theorems": [
    "C82_trace_standard",
    "C82_only_this_file",
    "C82_old_or_beginning",
    "C82_every_beginning",
    "C82_old_picture_lost_refuted",
    "C82_decodable_is_right",
    "C82_compressed_mix",
    "C82_trace_compressed",
    "C82_compressed_refuted",
    "C82_trace_file",
    "C82_text_file",
    "C82_trace_cli",
    "C82_cli",
    "C82_cli_no_symbol"
   ],
   "note": "proved for the standard writer, the text file writer and the command line tool; false in two ways, both proved: saving is not all-or-nothing (New truncates at once, so the old picture is lost whenever the process ends early), and the compressed writer, which does not truncate, leaves a mix of the new beginning and the old rest. Only the end of the process is modelled: after a power failure the operating system may have lost or reordered writes"
  },
  {
   "property": "C83",
   "status": "proved",
   "theorems": [
    "C83_as_if_copied",
    "C83_new_panics_alike",
    "C83_colours_and_widths_are_copied",
    "C83_reads_back",
    "C83_pictures_are_copied_refuted",
    "C83_option_keeps_the_address",
    "C83_emptied_gradient_refuted",
    "C83_compressed_option_now",
    "C83_compressed_nil_refuted"
   ],
   "note": "the refuted theorems show that pictures, gradients and options themselves are not copies: an emptied gradient, or a nil compressed Option, makes Save panic; with WithBgTransparent the comparison with a fresh writer is for the first picture (C47)"
  },
  {
   "property": "C84",
   "status": "partial",
   "theorems": [
    "C84_no_race",
    "C84_one_answer",
    "C84_environment_asked_once",
    "C84_all_finish",
    "C84_stays_on",
    "C84_set_meanwhile_refuted"
   ],
   "note": "the last sentence is false of the code: SetDebugMode assigns the variable without synchronisation, which races with any goroutine that asks meanwhile (refuted); everything else proved. sync.Once is taken by its documented contract"
  },
  {
   "property": "C85",
   "status": "partial",
   "theorems": [
    "C85_own_files",
    "C85_own_files_crash",
    "C85_different_files",
    "C85_same_picture",
    "C85_same_file",
    "C85_different_pictures_refuted"
   ],
   "note": "the last sentence is false of the code: the file is truncated when it is opened and written without a lock, so both Saves can succeed and the file hold a mix (refuted); the rest is proved"
  },
  {
   "property": "C86",
   "status": "partial",
   "theorems": [
    "C86_what_is_in_the_file",
    "C86_after_close",
    "C86_alone",
    "C86_picture_twice_refuted",
    "C86_closed_by_the_other_refuted"
   ],
   "note": "the last sentence is false of the code for shared Writers (refuted for every encoder: both Saves return nil and the file holds the picture twice); it holds for a Writer used by one goroutine (C86_alone with C48, C62).  With WithBgTransparent drawing assigns to the shared options, a data race (C89)"
  },
  {
   "property": "C87",
   "status": "proved",
   "theorems": [
    "C87_count",
    "C87_which_kanji",
    "C87_injective",
    "C87_japanese_reads_back",
    "C87_japanese_accepted",
    "C87_distinct",
    "C87_contract_met"
   ],
   "note": "the table (SpecJisTable) is code page 932 as implemented by Python; that golang.org/x/text has the same ideographs is assumed (agrees).  C87_contract_met: the contract assumed of the conversion in the other theorems is met by such a conversion"
  },
  {
   "property": "C88",
   "status": "proved",
   "theorems": [
    "C88_wrap",
    "C88_same_as_unbounded",
    "C88_widths_agree",
    "C88_on_32_bits"
   ],
   "note": "model: ModelInt.v, the core with every +, - and * on ints reduced to w bits.  This also justifies the unbounded int of the other core files.  Not covered: a text of more than 128 MB with a forced version on 32 bits (its bit count overflows inside the bit-string library)"
  },
  {
   "property": "C89",
   "status": "partial",
   "theorems": [
    "C89_every_picture",
    "C89_opaque",
    "C89_transparent_partial",
    "C89_transparent_png_partial",
    "C89_alone",
    "C89_race_iff",
    "C89_no_race_refuted",
    "C89_finishes",
    "C89_same_picture_refuted"
   ],
   "note": "proved without WithBgTransparent.  With it the claim is false of the code: drawing stores into the shared options (C89_race_iff: there is a race exactly then), and the background of a JPEG depends on the schedule (C89_same_picture_refuted); a PNG shows the same picture (C89_transparent_png_partial: default shape, any gradient, logos without translucent pixels, halftone with block widths divisible by three), and in every case the picture is one that Write draws with some transparent background (C89_every_picture).  Loads and stores of one channel are atomic and sequentially consistent"
  },
  {
   "property": "C90",
   "status": "partial",
   "theorems": [
    "C90_qr_width",
    "C90_circle_shape",
    "C90_border_width",
    "C90_bg_transparent",
    "C90_bg_fg_color",
    "C90_bg_fg_color_refuted",
    "C90_fg_gradient",
    "C90_halftone_picture",
    "C90_logo_picture",
    "C90_example_main",
    "C90_simple",
    "C90_simple_buffer",
    "C90_migrating",
    "C90_custom_shape",
    "C90_gradient_color",
    "C90_minimum_version_9",
    "C90_auto_version",
    "C90_minimum_version_prints",
    "C90_assemble_shape",
    "C90_file_writer",
    "C90_terminal_writer",
    "C90_no_terminal",
    "C90_halftone",
    "C90_logosize_multiplier",
    "C90_cannot_create",
    "C90_no_mona_lisa",
    "C90_refused_text"
   ],
   "note": "proved for every program, but not with one reader for all: sky blue on lawn green (createQRWithBgFgColor) has its dark modules lighter than its light ones (C90_bg_fg_color_refuted) and is read by the blue channel; transparent backgrounds are read by opacity.  C90_example_main: all eight functions one after the other.  Out of scope: what is printed except with-minimum-version, v1() of migrating-from-v1 (another module), HChainBlock of assemble-shape (not used), base64 of simple; webassembly is C52"
  },
  {
   "property": "C91",
   "status": "proved",
   "theorems": [
    "C91_hidden_modules",
    "C91_any_logo",
    "C91_logo_sizes",
    "C91_default_logo_sizes"
   ],
   "note": "generalises C62 from the middle fifth to any set of modules and to every multiplier; the sizes are checked by the kernel for all 40 versions (check_mid), everything else for all sets.  logos whose bounds start at the origin, borders the same on opposite sides (C91_logo_sizes; C91_any_logo has no such condition)"
  },
  {
   "property": "C92",
   "status": "partial",
   "theorems": [
    "C92_pixels",
    "C92_logo_keeps_its_colors",
    "C92_displaced",
    "C92_middle_iff_origin",
    "C92_inside_iff",
    "C92_readable_partial",
    "C92_not_shown",
    "C92_logo_is_shown_refuted",
    "C92_finder_refuted",
    "C92_unreadable_refuted"
   ],
   "note": "false of the code: the size check and the safe zone use only the size of the bounds, gg draws point p of the logo at p plus the corner of its place (C92_displaced), so a cropped logo is in the middle iff its bounds start at the origin (C92_middle_iff_origin); it may not be shown at all (C92_logo_is_shown_refuted) or hide a finder pattern of every symbol, so that nothing is read from any side (C92_unreadable_refuted).  Proved: every pixel (C92_pixels), when it is inside the picture (C92_inside_iff), and that the text is read whenever error correction makes up for what is covered (C92_readable_partial)"
  },
  {
   "property": "C93",
   "status": "proved",
   "theorems": [
    "C93_issue_69_length",
    "C93_issue_69",
    "C93_issue_69_second_refused",
    "C93_issue_106",
    "C93_issue_106_refused",
    "C93_example"
   ],
   "note": "not modelled: encodeWithSkip2 of issue 69 (another module), which comes last, and what the programs print except the length"
  },
  {
   "property": "C94",
   "status": "partial",
   "theorems": [
    "C94_flags",
    "C94_example",
    "C94_help_is_no_text_refuted",
    "C94_help_is_shown",
    "C94_minus_needs_dashes",
    "C94_unknown_flag",
    "C94_two_forms",
    "C94_action",
    "C94_readme_file",
    "C94_readme_second_refuted",
    "C94_readme_second_corrected",
    "C94_readme_terminal"
   ],
   "note": "false in two ways: the texts help and h show the help (C94_help_is_no_text_refuted), and the second command of the README has a flag -m that does not exist (C94_readme_second_refuted; without it the claim holds, C94_readme_second_corrected).  A text that begins with a minus needs -- (C94_minus_needs_dashes).  Proved for all spellings otherwise.  The parsing is that of urfave/cli v2.3.0 and Go's flag package as documented; their code is not in /repo.  The numeral of --block is read by a parameter"
  }
 ]
}