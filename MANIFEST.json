{"claims": [
{"property": "C01", "status": "proved", "theorems": ["C01_subspan", "C01_first", "C01_last"], "note": ""},
{"property": "C02", "status": "proved", "theorems": ["C02_as_bytes", "C02_write_through_bytes", "C02_access", "C02_compose", "C02_split", "C02_range", "C02_begin_end", "C02_made"], "note": ""},
{"property": "C03", "status": "proved", "theorems": ["C03_reverse16", "C03_reverse32", "C03_involution16", "C03_involution32", "C03_all_words"], "note": ""},
{"property": "C04", "status": "proved", "theorems": ["C04_halves", "C04_halves_bytes", "C04_float_pattern", "C04_float_roundtrip"], "note": ""},
{"property": "C05", "status": "proved", "theorems": ["C05_finite_map"], "note": ""},
{"property": "C06", "status": "proved", "theorems": ["C06_set_fails_iff_full", "C06_used_space", "C06_overwrite_free"], "note": ""},
{"property": "C07", "status": "proved", "theorems": ["C07_reopen_identity"], "note": ""},
{"property": "C08", "status": "proved", "theorems": ["C08_open_any_bytes", "C08_refuted_hang", "C08_refuted_out_of_bounds", "C08_exact"], "note": "the two _refuted theorems show that the stated exclusion is necessary"},
{"property": "C09", "status": "proved", "theorems": ["C09_any_subset", "C09_ordered_histories", "C09_progress", "C09_any_names"], "note": ""},
{"property": "C10", "status": "proved", "theorems": ["C10_readback_iff_short", "C10_long_never_found", "C10_long_set", "C10_any_names"], "note": ""},
{"property": "C11", "status": "proved", "theorems": ["C11_big_never_found", "C11_big_set"], "note": ""},
{"property": "C12", "status": "proved", "theorems": ["C12_text", "C12_text_determined", "C12_prefix_kept"], "note": ""},
{"property": "C13", "status": "proved", "theorems": ["C13_overrun_iff", "C13_otherwise_inside", "C13_cstring_iff", "C13_float_iff"], "note": ""},
{"property": "C14", "status": "proved", "theorems": ["C14_width", "C14_width_keeps_digits_refuted"], "note": ""},
{"property": "C15", "status": "proved", "theorems": ["C15_canonical", "C15_text_unique"], "note": ""},
{"property": "C16", "status": "proved", "theorems": ["C16_float", "C16_no_minus_sign", "C16_no_room", "C16_all_or_nothing_refuted"], "note": ""},
{"property": "C17", "status": "proved", "theorems": ["C17_step", "C17_persist", "C17_manipulators_print_nothing", "C17_clear"], "note": ""},
{"property": "C18", "status": "proved", "theorems": ["C18_data", "C18_reachable"], "note": ""},
{"property": "C19", "status": "proved", "theorems": ["C19_line", "C19_end", "C19_lines"], "note": ""},
{"property": "C20", "status": "proved", "theorems": ["C20_corners", "C20_corners_defined", "C20_corners_refuted", "C20_translate", "C20_arith", "C20_assoc", "C20_sub_self"], "note": ""},
{"property": "C21", "status": "proved", "theorems": ["C21_transform", "C21_bijection", "C21_rect", "C21_rect_inside", "C21_rect_anywhere", "C21_setRotation"], "note": "C21_rect_anywhere has the exact condition; C21_rect and C21_rect_inside say where it holds"},
{"property": "C22", "status": "proved", "theorems": ["C22_drawPixel", "C22_anywhere", "C22_drawPixel2"], "note": ""},
{"property": "C23", "status": "proved", "theorems": ["C23_clear", "C23_clear_determined", "C23_setColor", "C23_even_colour"], "note": ""},
{"property": "C24", "status": "proved", "theorems": ["C24_left_columns", "C24_right_columns", "C24_never_intended", "C24_constructor"], "note": ""},
{"property": "C25", "status": "proved", "theorems": ["C25_geometry", "C25_accepted", "C25_partition"], "note": ""},
{"property": "C26", "status": "proved", "theorems": ["C26_clipping", "C26_pixel", "C26_operations"], "note": "drawing the result of each operation is covered by the paints theorems of C27-C32"},
{"property": "C27", "status": "proved", "theorems": ["C27_line", "C27_pixels", "C27_one_per_step"], "note": ""},
{"property": "C28", "status": "proved", "theorems": ["C28_symmetric"], "note": ""},
{"property": "C29", "status": "proved", "theorems": ["C29_border", "C29_any_size", "C29_empty_rectangle"], "note": ""},
{"property": "C30", "status": "proved", "theorems": ["C30_filled"], "note": ""},
{"property": "C31", "status": "proved", "theorems": ["C31_circle", "C31_ring", "C31_flat"], "note": ""},
{"property": "C32", "status": "proved", "theorems": ["C32_filled", "C32_rows"], "note": ""},
{"property": "C33", "status": "proved", "theorems": ["C33_rotation", "C33_line", "C33_glyph", "C33_wherever", "C33_line_wherever", "C33_line_exact", "C33_line_refuted", "C33_negative_radius_refuted"], "note": "glyph part in P_Font.v, the part for all coordinates and the exact condition for lines in P_Anywhere.v"},
{"property": "C34", "status": "proved", "theorems": ["C34_glyph", "C34_reads"], "note": "bit-exact for every font, symbol, position, rotation; out of bounds read iff the data is not inside the bitmap"},
{"property": "C35", "status": "proved", "theorems": ["C35_text", "C35_concatenation"], "note": ""},
{"property": "C36", "status": "proved", "theorems": ["C36_lookup", "C36_first", "C36_converter"], "note": ""},
{"property": "C37", "status": "proved", "theorems": ["C37_last_entry", "C37_view"], "note": ""},
{"property": "C38", "status": "proved", "theorems": ["C38_bounds", "C38_empty", "C38_inside", "C38_width", "C38_inside_refuted"], "note": ""},
{"property": "C39", "status": "proved", "theorems": ["C39_layout", "C39_codes", "C39_text"], "note": ""},
{"property": "C40", "status": "proved", "theorems": ["C40_packed", "C40_pieces", "C40_determined"], "note": "Bit stream with its 8-bit buffer; [packed] describes every bit of the output and determines it (C40_determined)."},
{"property": "C41", "status": "proved", "theorems": ["C41_data", "C41_drawn", "C41_any_size"], "note": "End to end through BitStream, table, offsets, getBitmap and drawCharAt; FreeType and iconv are arbitrary functions. The last entry is excluded because of C37. C41_any_size: bitmaps too large for a descriptor."},
{"property": "C42", "status": "proved", "theorems": ["C42_codes", "C42_lookup"], "note": ""},
{"property": "C43", "status": "proved", "theorems": ["C43_offsets", "C43_in_place", "C43_glyph_file"], "note": ""},
{"property": "C44", "status": "proved", "theorems": ["C44_array", "C44_head", "C44_read_back", "C44_limit"], "note": ""},
{"property": "C45", "status": "proved", "theorems": ["C45_step", "C45_inside", "C45_single", "C45_independent_refuted"], "note": ""},
{"property": "C46", "status": "proved", "theorems": ["C46_until", "C46_running_iff", "C46_ends", "C46_no_deadline", "C46_waits"], "note": ""},
{"property": "C47", "status": "proved", "theorems": ["C47_between", "C47_ends", "C47_small", "C47_search_ignores_clock", "C47_wrap", "C47_running_iff", "C47_waits"], "note": ""},
{"property": "C48", "status": "proved", "theorems": ["C48_receive", "C48_until", "C48_end_received_refuted", "C48_between", "C48_too_small", "C48_between_too_small", "C48_send", "C48_receive_running_iff", "C48_until_ends", "C48_between_running_iff"], "note": ""},
{"property": "C49", "status": "proved", "theorems": ["C49_esp_wrap", "C49_esp_not_early", "C49_arduino_wrap", "C49_arduino_not_early", "C49_light_wrap", "C56_light_not_early"], "note": ""},
{"property": "C50", "status": "proved", "theorems": ["C50_send", "C50_receive", "C50_exchange", "C50_nothing"], "note": ""},
{"property": "C51", "status": "proved", "theorems": ["C51_transfer", "C51_pieces", "C51_sent", "C51_lengths", "C51_full_duplex_send", "C51_no_init", "C51_no_init_rejected", "C51_receive_only"], "note": ""},
{"property": "C52", "status": "proved", "theorems": ["C52_removed", "C52_release", "C52_unused", "C52_life", "C52_init", "C52_frequency_refuted"], "note": ""},
{"property": "C53", "status": "proved", "theorems": ["C53_scope", "C53_after", "C53_nested_refuted", "C53_level", "C53_check"], "note": ""},
{"property": "C54", "status": "proved", "theorems": ["C54_send", "C54_receive", "C54_long_request", "C54_both", "C54_esp"], "note": ""},
{"property": "C55", "status": "proved", "theorems": ["C55_mapping", "C55_read", "C55_never_released", "C55_second_read_fails"], "note": ""},
{"property": "C56", "status": "proved", "theorems": ["C56_delay", "C56_deep", "C56_light", "C56_light_not_early", "C56_wakeup", "C56_oversleep_refuted", "C56_microseconds", "C56_microseconds_wrap", "C56_millisecond_ticks", "C56_elapsed", "C56_elapsed_us", "C56_elapsed_us_arduino"], "note": ""},
{"property": "C57", "status": "proved", "theorems": ["C57_counts", "C57_bounded_refuted", "C57_wait"], "note": ""},
{"property": "C58", "status": "proved", "theorems": ["C58_table", "C58_lines", "C58_offset", "C58_struct", "C58_file"], "note": ""},
{"property": "C59", "status": "proved", "theorems": ["C59_header", "C59_binary", "C59_bytes"], "note": "A closed computation about the shipped file, checked by the kernel; the file text is in M_FontFile.v."},
{"property": "C60", "status": "proved", "theorems": ["C60_esp", "C60_arduino"], "note": ""},
{"property": "C61", "status": "proved", "theorems": ["C61_init", "C61_again"], "note": ""},
{"property": "C62", "status": "proved", "theorems": ["C62_probe"], "note": ""},
{"property": "C63", "status": "proved", "theorems": ["C63_header", "C63_name_refuted", "C63_shipped"], "note": "C63_name_refuted shows the condition on the name is needed; C63_shipped is a closed computation about the shipped file."},
{"property": "C64", "status": "proved", "theorems": ["C64_text"], "note": "End to end; the last entry of the table is excluded because of C37."},
{"property": "C65", "status": "proved", "theorems": ["C65_text", "C65_binary", "C65_whole_bytes", "C65_no_pixels", "C65_text_refuted"], "note": "C65_text_refuted: a picture that is written whole and whose reading is undefined."},
{"property": "C66", "status": "proved", "theorems": ["C66_text_picture", "C66_binary_picture", "C66_padded_rows", "C66_rejects", "C66_sizes", "C66_any_file", "C66_compare"], "note": "Test support code; the C++ streams are modelled as far as the helper uses them."},
{"property": "C67", "status": "proved", "theorems": ["C67_command_line", "C67_total"], "note": "getopt is modelled as glibc's; its messages and POSIXLY_CORRECT are left out. The output directory is covered by C73 and C74."},
{"property": "C68", "status": "proved", "theorems": ["C68_name", "C68_identifier", "C68_header"], "note": "C68_header composes C67 with C63."},
{"property": "C69", "status": "proved", "theorems": ["C69_probe", "C69_link", "C69_init", "C69_reset"], "note": "The bus with its devices is an assumption about the driver (on_bus)."},
{"property": "C70", "status": "proved", "theorems": ["C70_rotations", "C70_lines"], "note": "The scenes and files are concrete; the proof covers every initial memory content. It also checks the model against pictures recorded by the authors."},
{"property": "C71", "status": "proved", "theorems": ["C71_text", "C71_drawn", "C71_check", "C71_compare"], "note": ""},
{"property": "C72", "status": "proved", "theorems": ["C72_scale", "C72_divide", "C72_divide_undefined", "C72_scale_divide", "C72_matrix", "C72_turns", "C72_convert", "C72_convert_wraps"], "note": ""},
{"property": "C73", "status": "proved", "theorems": ["C73_handles", "C73_failure", "C73_no_conversion", "C73_complete_first", "C73_requests", "C73_conversions", "C73_defined", "C73_error_texts", "C73_written_refuted", "C73_left_refuted", "C73_reported_refuted"], "note": ""},
{"property": "C74", "status": "proved", "theorems": ["C74_header", "C74_binary"], "note": ""},
{"property": "C75", "status": "proved", "theorems": ["C75_esp", "C75_arduino", "C75_same_byte", "C75_sent"], "note": ""},
{"property": "C76", "status": "proved", "theorems": ["C76_filled", "C76_distance", "C76_edge", "C76_closed", "C76_connected", "C76_nested", "C76_cover_refuted"], "note": ""},
{"property": "C77", "status": "proved", "theorems": ["C77_shared", "C77_one_writer", "C77_lost_refuted", "C77_hang_refuted"], "note": ""},
{"property": "C78", "status": "proved", "theorems": ["C78_arduino", "C78_esp", "C78_long_send", "C78_independent", "C78_nested_refuted"], "note": ""},
{"property": "C79", "status": "proved", "theorems": ["C79_arduino", "C79_esp"], "note": ""},
{"property": "C80", "status": "proved", "theorems": ["C80_esp_nothing_lost", "C80_esp_lines", "C80_arduino_pieces", "C80_arduino_lines", "C80_arduino_full_line", "C80_debug"], "note": ""},
{"property": "C81", "status": "proved", "theorems": ["C81_painter", "C81_overpaint", "C81_order", "C81_erase", "C81_clear"], "note": ""},
{"property": "C82", "status": "proved", "theorems": ["C82_shapes", "C82_texts", "C82_wherever"], "note": "One set per rotation for all canvases and displacements; for lines by the exact pixels of C27. C82_wherever: for all coordinates at which a call is defined."},
{"property": "C83", "status": "proved", "theorems": ["C83_pixel", "C83_line", "C83_outline", "C83_filled", "C83_circle", "C83_radii", "C83_radii_monotone_refuted", "C83_on_canvas"], "note": "All conditions are exact (iff), for all ints."},
{"property": "C84", "status": "proved", "theorems": ["C84_glyph", "C84_text", "C84_plain", "C84_bounds"], "note": "Conditions are exact (iff), for canvases with and without pixels."},
{"property": "C85", "status": "proved", "theorems": ["C85_use", "C85_uses"], "note": ""},
{"property": "C86", "status": "proved", "theorems": ["C86_arduino", "C86_esp", "C86_false_means_unseen_refuted", "C86_addresses_refuted"], "note": "The drivers below the calls are modelled by their documented behaviour (M_I2CShare)."}
]}
