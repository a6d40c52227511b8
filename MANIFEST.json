{
 "claims": [
  {
   "property": "C01",
   "status": "proved",
   "theorems": [
    "C01_regions_tile_D1",
    "C01_regions_tile_D2",
    "C01_regions_tile_D3",
    "C01_bad_dimension_D1",
    "C01_bad_dimension_D2",
    "C01_bad_dimension_D3"
   ],
   "note": ""
  },
  {
   "property": "C02",
   "status": "proved",
   "theorems": [
    "C02_is_overlap_iff_D1",
    "C02_is_overlap_iff_D2",
    "C02_is_overlap_iff_D3",
    "C02_is_overlap_iff_refuted"
   ],
   "note": "For non-empty boxes; the guard is needed (C02_is_overlap_iff_refuted)."
  },
  {
   "property": "C03",
   "status": "proved",
   "theorems": [
    "C03_overlap_exact_D1",
    "C03_overlap_exact_D2",
    "C03_overlap_exact_D3",
    "C03_overlap_throws_iff",
    "C03_unchecked_never_throws_D1",
    "C03_unchecked_never_throws_D2",
    "C03_unchecked_never_throws_D3"
   ],
   "note": "Exact for non-empty boxes whose faces and extents fit int; throws exactly when is_overlap is false."
  },
  {
   "property": "C04",
   "status": "proved",
   "theorems": [
    "C04_moves_D1",
    "C04_moves_D2",
    "C04_moves_D3",
    "C04_shift_points",
    "C04_undo_D1",
    "C04_undo_D2",
    "C04_undo_D3",
    "C04_add_up_D1",
    "C04_add_up_D2",
    "C04_add_up_D3"
   ],
   "note": ""
  },
  {
   "property": "C05",
   "status": "proved",
   "theorems": [
    "C05_check_range_D1",
    "C05_check_range_D2",
    "C05_check_range_D3",
    "C05_unchecked_never_throws"
   ],
   "note": ""
  },
  {
   "property": "C06",
   "status": "proved",
   "theorems": [
    "C06_mirror_D1",
    "C06_mirror_D2",
    "C06_mirror_D3"
   ],
   "note": "Guard: 2*(in-1) fits int, the code multiplies by two."
  },
  {
   "property": "C07",
   "status": "proved",
   "theorems": [
    "C07_periodic_D1",
    "C07_periodic_D2",
    "C07_periodic_D3"
   ],
   "note": ""
  },
  {
   "property": "C08",
   "status": "proved",
   "theorems": [
    "C08_flag_region_conversions"
   ],
   "note": ""
  },
  {
   "property": "C09",
   "status": "proved",
   "theorems": [
    "C09_access_total",
    "C09_access_iff",
    "C09_healthy"
   ],
   "note": "Arrays left half made by a failed 2D/3D allocation (C16) are excluded by 'healthy'; C09_healthy says where they cannot occur."
  },
  {
   "property": "C10",
   "status": "proved",
   "theorems": [
    "C10_face_alias"
   ],
   "note": ""
  },
  {
   "property": "C11",
   "status": "proved",
   "theorems": [
    "C11_no_alias",
    "C11_no_waste",
    "C11_buffer_size"
   ],
   "note": ""
  },
  {
   "property": "C12",
   "status": "proved",
   "theorems": [
    "C12_layout_1D",
    "C12_layout_2D",
    "C12_layout_3D"
   ],
   "note": ""
  },
  {
   "property": "C13",
   "status": "proved",
   "theorems": [
    "C13_histories",
    "C13_last_write"
   ],
   "note": "Legal programs: sizes within int, counts within 32 bits, explicit copy ranges inside the arrays. All failure patterns, all three classes."
  },
  {
   "property": "C14",
   "status": "proved",
   "theorems": [
    "C14_ranges_1D",
    "C14_ranges_2D",
    "C14_ranges_3D",
    "C14_loops_1D",
    "C14_loops_2D",
    "C14_loops_3D",
    "C14_call",
    "C14_histories",
    "C14_histories_0D",
    "C14_disp",
    "C14_unchecked_silent"
   ],
   "note": "Lock-step simulation of every function of the model that looks at the check switch; lifted to single calls and whole programs from any state, loops with arbitrary bodies, disp_data and 0D programs. Nothing is claimed where the checked run is undefined."
  },
  {
   "property": "C15",
   "status": "proved",
   "theorems": [
    "C15_alloc_occupied",
    "C15_alloc_rejects",
    "C15_alloc_nothing",
    "C15_alloc_succeeds"
   ],
   "note": ""
  },
  {
   "property": "C16",
   "status": "proved",
   "theorems": [
    "C16_first_request_fails",
    "C16_later_request_fails",
    "C16_access_after_late_failure_undefined",
    "C16_sized_constructor_leaks"
   ],
   "note": "General statements for the first and the later failing request; undefined access and leak by witness."
  },
  {
   "property": "C17",
   "status": "proved",
   "theorems": [
    "C17_clear_frees",
    "C17_clear_on_empty",
    "C17_empty_refuses"
   ],
   "note": ""
  },
  {
   "property": "C18",
   "status": "proved",
   "theorems": [
    "C18_realloc_refused",
    "C18_realloc_succeeds",
    "C18_realloc_loses"
   ],
   "note": ""
  },
  {
   "property": "C19",
   "status": "proved",
   "theorems": [
    "C19_ownership",
    "C19_no_leak",
    "C19_all_destroyed"
   ],
   "note": "All failure patterns; blocks lost by sized constructors are counted exactly."
  },
  {
   "property": "C20",
   "status": "proved",
   "theorems": [
    "C20_wrapped_count_is_empty",
    "C20_wrapped_count_1D"
   ],
   "note": "General for 2D/3D multiples of 2^32 and for 1D counts crossing 2^32 in the last component."
  },
  {
   "property": "C21",
   "status": "proved",
   "theorems": [
    "C21_points_enumerate",
    "C21_PD_For_1D",
    "C21_PD_For_N_1D",
    "C21_PD_For_2D",
    "C21_PD_For_N_2D",
    "C21_PD_For_3D",
    "C21_PD_For_N_3D",
    "C21_PD_For_reduced_dimensions",
    "C21_PD_For_N"
   ],
   "note": ""
  },
  {
   "property": "C22",
   "status": "proved",
   "theorems": [
    "C22_inverted_never_returns_D1",
    "C22_inverted_never_returns_D2",
    "C22_inverted_never_returns_D3",
    "C22_inverted_is_undefined_D1",
    "C22_inverted_calls_D1",
    "C22_component_interval_wraps"
   ],
   "note": ""
  },
  {
   "property": "C23",
   "status": "proved",
   "theorems": [
    "C23_PD_Reduce_1D",
    "C23_PD_Reduce_N_1D",
    "C23_PD_Reduce_2D",
    "C23_PD_Reduce_N_2D",
    "C23_PD_Reduce_3D",
    "C23_PD_Reduce_N_3D",
    "C23_PD_Reduce_reduced_dimensions",
    "C23_PD_Reduce_N",
    "C23_fold_twice_initial",
    "C23_int_reducers",
    "C23_max_abs_initial_refuted"
   ],
   "note": ""
  },
  {
   "property": "C24",
   "status": "proved",
   "theorems": [
    "C24_copy_effect"
   ],
   "note": "All four overloads, 1D/2D/3D, source may be the destination."
  },
  {
   "property": "C25",
   "status": "proved",
   "theorems": [
    "C25_copy_by_tags",
    "C25_copy_by_tags_unguarded_refuted"
   ],
   "note": "Guard stated in the property; the unguarded claim is refuted by a witness."
  },
  {
   "property": "C26",
   "status": "proved",
   "theorems": [
    "C26_guard_sound",
    "C26_snapshot",
    "C26_guard_incomplete"
   ],
   "note": "Sound (no slot read is written, result is that of a snapshot); incompleteness by witness."
  },
  {
   "property": "C27",
   "status": "proved",
   "theorems": [
    "C27_outside_undefined_1D",
    "C27_unchecked_ranges"
   ],
   "note": "Sufficiency is C24_copy_effect; 1D necessity in general, 2D witness."
  },
  {
   "property": "C28",
   "status": "proved",
   "theorems": [
    "C28_flags_align"
   ],
   "note": ""
  },
  {
   "property": "C29",
   "status": "proved",
   "theorems": [
    "C29_text",
    "C29_each_once",
    "C29_unwritten_undefined",
    "C29_no_data",
    "C29_no_data_half_refuted"
   ],
   "note": ""
  },
  {
   "property": "C30",
   "status": "proved",
   "theorems": [
    "C30_constructor",
    "C30_zero",
    "C30_histories",
    "C30_unchecked_outside",
    "C30_disp_data"
   ],
   "note": ""
  },
  {
   "property": "C31",
   "status": "proved",
   "theorems": [
    "C31_real_size",
    "C31_getters",
    "C31_negative_skip_refuted"
   ],
   "note": "For numbers of the zone within int and non-negative Skip, Begin, End. The part of the statement about negative Skip is C31_negative_skip_refuted."
  },
  {
   "property": "C32",
   "status": "proved",
   "theorems": [
    "C32_block",
    "C32_element",
    "C32_no_memory"
   ],
   "note": "For zones whose index products fit int; byte counts below 2^63. C32_block covers the three code paths, reads outside the user's array would be UB."
  },
  {
   "property": "C33",
   "status": "proved",
   "theorems": [
    "C33_extrema",
    "C33_nan_refuted"
   ],
   "note": "C33_nan_refuted: with a NaN in the data the recorded maximum can be below an element."
  },
  {
   "property": "C34",
   "status": "proved",
   "theorems": [
    "C34_parse"
   ],
   "note": "parse_plt is a separate reader of the layout; the file's bytes are determined by the description. Sizes below 2^63 bytes, numbers within int. That a run returns is C41_limits."
  },
  {
   "property": "C35",
   "status": "proved",
   "theorems": [
    "C35_log"
   ],
   "note": "Also sizes, times and the description copied to the log."
  },
  {
   "property": "C36",
   "status": "proved",
   "theorems": [
    "C36_round_trip"
   ],
   "note": "The source and target may have different element types and locations; the image of the source component in memory and the zone description are hypotheses, met by an example."
  },
  {
   "property": "C37",
   "status": "proved",
   "theorems": [
    "C37_refused",
    "C37_complete",
    "C37_done",
    "C37_own_logs",
    "C37_any_log_refuted",
    "C37_unchecked_component_refuted"
   ],
   "note": "C37_refused and C37_complete give the outcome for every case of a well-formed log, C37_done the successful one, C37_own_logs shows the logs of write_plt are well formed; the two refuted theorems exhibit undefined behaviour outside of that."
  },
  {
   "property": "C38",
   "status": "proved",
   "theorems": [
    "C38_sequence",
    "C38_number",
    "C38_large_number_refuted"
   ],
   "note": "Numbers as values: C38_number below 10^190; C38_large_number_refuted shows the buffer overrun at 1e200."
  },
  {
   "property": "C39",
   "status": "proved",
   "theorems": [
    "C39_modes",
    "C39_all_or_nothing_refuted"
   ],
   "note": "Bit strings by the C++ standard and by libstdc++ (parameter strict). All-or-nothing is refuted."
  },
  {
   "property": "C40",
   "status": "proved",
   "theorems": [
    "C40_texts",
    "C40_after_exception"
   ],
   "note": "No restriction on texts: user texts cannot create a reserved place."
  },
  {
   "property": "C41",
   "status": "proved",
   "theorems": [
    "C41_limits"
   ],
   "note": "Exact: short f is necessary and sufficient."
  },
  {
   "property": "C42",
   "status": "proved",
   "theorems": [
    "C42_refused",
    "C42_clean",
    "C42_leak"
   ],
   "note": "The leak is stated for the first allocation that fails."
  },
  {
   "property": "C43",
   "status": "proved",
   "theorems": [
    "C43_log_round_trip",
    "C43_variable_name_refuted",
    "C43_entity_refuted",
    "C43_exact_refuted"
   ],
   "note": "The conditions on texts are explicit (xml_safe) and three refuted theorems show that they, and the tolerance of numbers, are needed. sscanf and strtol are modelled (M_Scan.v), TinyXML2 parsing is modelled (M_Xml.v)."
  },
  {
   "property": "C44",
   "status": "proved",
   "theorems": [
    "C44_same_reads",
    "C44_from_disk"
   ],
   "note": "The second theorem is C36 with the log replaced by the one read from the XML file."
  },
  {
   "property": "C45",
   "status": "proved",
   "theorems": [
    "C45_blank_text"
   ],
   "note": "Any of the texts, anywhere in the description; all other texts must be kept by XML."
  },
  {
   "property": "C46",
   "status": "proved",
   "theorems": [
    "C46_cut_short"
   ],
   "note": "Blank texts are allowed here; a cut inside trailing blanks leaves a complete log."
  },
  {
   "property": "C47",
   "status": "proved",
   "theorems": [
    "C47_read_kept"
   ],
   "note": "Programs may call read_plt anywhere; the stored value is read back after any undisturbing continuation."
  },
  {
   "property": "C48",
   "status": "proved",
   "theorems": [
    "C48_loop_D1",
    "C48_loop_D2",
    "C48_loop_D3",
    "C48_loop_N_D1",
    "C48_loop_N_D2",
    "C48_loop_N_D3"
   ],
   "note": "One theorem for each of the six loop functions; in-place dependencies are allowed."
  },
  {
   "property": "C49",
   "status": "proved",
   "theorems": [
    "C49_reduce_D1",
    "C49_reduce_D2",
    "C49_reduce_D3",
    "C49_reduce_N_D1",
    "C49_reduce_N_D2",
    "C49_reduce_N_D3"
   ],
   "note": "One theorem for each of the six reductions; the initial value counts twice, as in C23."
  },
  {
   "property": "C50",
   "status": "proved",
   "theorems": [
    "C50_heat_1D"
   ],
   "note": "Arithmetic is uninterpreted; the number of passes of the time loop is a parameter."
  },
  {
   "property": "C51",
   "status": "proved",
   "theorems": [
    "C51_heat_2D"
   ],
   "note": "Arithmetic is uninterpreted; the number of passes of the time loop is a parameter. The Tecplot output of the program is not part of it."
  },
  {
   "property": "C52",
   "status": "proved",
   "theorems": [
    "C52_integration"
   ],
   "note": "Arithmetic is uninterpreted; the output is the list of values put out."
  },
  {
   "property": "C53",
   "status": "proved",
   "theorems": [
    "C53_restart"
   ],
   "note": "The conversion between the element types is a parameter; the values come back converted. The log is read back from the XML text."
  },
  {
   "property": "C54",
   "status": "proved",
   "theorems": [
    "C54_described",
    "C54_interior"
   ],
   "note": "The describing loop is the one of the Test_D*_tecfile programs. That a half-located array is not described rightly is part of the theorem (iff)."
  },
  {
   "property": "C55",
   "status": "proved",
   "theorems": [
    "C55_number",
    "C55_special",
    "C55_number_refuted",
    "C55_text",
    "C55_one_word",
    "C55_integer",
    "C55_blank",
    "C55_log"
   ],
   "note": "operator>> as in libstdc++ (C++11 and later), \"C\" locale; it is not part of the repository. float variables are not covered."
  },
  {
   "property": "C56",
   "status": "proved",
   "theorems": [
    "C56_message",
    "C56_distinct",
    "C56_range",
    "C56_size",
    "C56_array",
    "C56_array_0D",
    "C56_array_0D_other",
    "C56_data"
   ],
   "note": "operator<< for int and unsigned in the \"C\" locale. typeid(T).name() is a parameter (any text without ']'). Messages that contain a file name (read_plt) are not covered; disp_data is rendered for int elements only."
  },
  {
   "property": "C57",
   "status": "proved",
   "theorems": [
    "C57_json",
    "C57_finite",
    "C57_not_json",
    "C57_quote_refuted",
    "C57_backslash_refuted"
   ],
   "note": "Reader of JSON after RFC 8259 in Spec_Json.v (without \\u escapes). Refuted parts: quotes and backslashes are not escaped; nan and inf are printed as such."
  },
  {
   "property": "C58",
   "status": "proved",
   "theorems": [
    "C58_flag",
    "C58_screen",
    "C58_same",
    "C58_exception",
    "C58_same_refuted",
    "C58_dim_refuted"
   ],
   "note": "Names without NUL characters. Refuted parts: screen and log echo differ in the blanks before End; the Real_Max line shows the first Dim sizes."
  },
  {
   "property": "C59",
   "status": "proved",
   "theorems": [
    "C59_written",
    "C59_not_opened",
    "C59_zone_written",
    "C59_depth",
    "C59_frame",
    "C59_refused",
    "C59_lost",
    "C59_names",
    "C59_zone_names",
    "C59_all_zones",
    "C59_zone_read",
    "C59_session",
    "C59_zone_path_refuted",
    "C59_zone_files_refuted"
   ],
   "note": "Programs of any length over one set of files with any number of logs; paths are compared as strings (two names of one file are two files). C59_depth, C59_zone_path_refuted and C59_zone_files_refuted give what is not so."
  },
  {
   "property": "C60",
   "status": "proved",
   "theorems": [
    "C60_stays",
    "C60_current",
    "C60_gone",
    "C60_null",
    "C60_snapshot_refuted"
   ],
   "note": "A program before and one after registration, both of any length; the memory is read at write_plt. Reading through a pointer to deleted memory is undefined in the model. C60_snapshot_refuted: the file does not have the values at registration."
  },
  {
   "property": "C61",
   "status": "proved",
   "theorems": [
    "C61_state",
    "C61_array"
   ],
   "note": "Targets must be different components; memory must suffice for as many buffers as there are loads (one at a time). The conversion between the element types is a parameter."
  },
  {
   "property": "C62",
   "status": "proved",
   "theorems": [
    "C62_file",
    "C62_load"
   ],
   "note": "Floating-point operations and encodings are parameters; the stop criterion of the time loop is the number of steps k. The text output of the program is not modelled. Assumed: memory suffices and the two files can be opened."
  },
  {
   "property": "C63",
   "status": "proved",
   "theorems": [
    "C63_text",
    "C63_text_0D",
    "C63_reads",
    "C63_reads_float",
    "C63_double",
    "C63_six",
    "C63_integer",
    "C63_exact_refuted"
   ],
   "note": "The stream is a fresh ostringstream with its default format (%.6g in the C locale). C63_exact_refuted shows that exact recovery is false."
  },
  {
   "property": "C64",
   "status": "proved",
   "theorems": [
    "C64_layout",
    "C64_edit",
    "C64_edited_log",
    "C64_comment_refuted"
   ],
   "note": "C64_comment_refuted: a comment in front of the text of Title makes read_xml construct a std::string from a null pointer."
  },
  {
   "property": "C65",
   "status": "proved",
   "theorems": [
    "C65_ring",
    "C65_same",
    "C65_narrow_refuted"
   ],
   "note": "The client program is ours (M_Ring.v); all it calls is the modelled library. C65_narrow_refuted: with arrays narrower than the ghost zone the program is undefined, and with g = 0 the copy is refused."
  },
  {
   "property": "C66",
   "status": "proved",
   "theorems": [
    "C66_torus",
    "C66_same",
    "C66_cover",
    "C66_narrow_refuted"
   ],
   "note": "The client program is ours (M_Torus.v); all it calls is the modelled library. C66_narrow_refuted: with an array narrower than a ghost zone the program is undefined."
  },
  {
   "property": "C67",
   "status": "proved",
   "theorems": [
    "C67_session",
    "C67_other",
    "C67_strong",
    "C67_rollback",
    "C67_tell",
    "C67_memory_refuted"
   ],
   "note": "The time and the random number of the stamp are parameters. C67_tell is for blocks that print nothing themselves and do not read files. C67_memory_refuted: after a realloc that threw std::bad_alloc the old element is gone."
  },
  {
   "property": "C68",
   "status": "proved",
   "theorems": [
    "C68_defined",
    "C68_unique",
    "C68_throws",
    "C68_again",
    "C68_again_refuted"
   ],
   "note": "C68_again: for times below 2^64 s and sizes up to INT_MAX, numbers up to the error of seven digits. C68_again_refuted: a title a &lt; b is read, but what is then written is not XML. Numbers read but never assigned count as undefined because read_xml prints them into its texts."
  },
  {
   "property": "C69",
   "status": "proved",
   "theorems": [
    "C69_number",
    "C69_seconds",
    "C69_written",
    "C69_read"
   ],
   "note": "Printing and scanning are modelled as correctly rounded. C69_read: sizes up to INT_MAX, as in C68_again."
  },
  {
   "property": "C70",
   "status": "proved",
   "theorems": [
    "C70_saved",
    "C70_loaded",
    "C70_fixed",
    "C70_read",
    "C70_logs",
    "C70_drift",
    "C70_all_refuted"
   ],
   "note": "C70_drift and C70_all_refuted show the exceptions. Several declarations are not claimed. Writing to the file does not fail in the model."
  },
  {
   "property": "C71",
   "status": "proved",
   "theorems": [
    "C71_sum",
    "C71_sum_abs",
    "C71_product",
    "C71_product_abs",
    "C71_extremes",
    "C71_extremes_abs",
    "C71_floating",
    "C71_floating_abs",
    "C71_nan",
    "C71_order",
    "C71_floating_order",
    "C71_order_defined_refuted"
   ],
   "note": "Sums at double: C72. Sums at float and products at float and double are not modelled. C71_order_defined_refuted: whether an int sum is defined depends on the order."
  },
  {
   "property": "C72",
   "status": "proved",
   "theorems": [
    "C72_sum",
    "C72_sum_abs",
    "C72_nearest",
    "C72_exact",
    "C72_nan",
    "C72_order_refuted"
   ],
   "note": "Rounding to nearest even without excess precision is assumed (IEEE 754 with SSE2). All results that are NaN are the same pattern in the model. C72_order_refuted gives two orders with different sums."
  },
  {
   "property": "C73",
   "status": "proved",
   "theorems": [
    "C73_found",
    "C73_throws",
    "C73_defined",
    "C73_int",
    "C73_double",
    "C73_more",
    "C73_saved",
    "C73_number_refuted"
   ],
   "note": "The layouts are those of C64, saving is that of C70. sscanf is modelled as in C43 (correctly rounded; hexadecimal numbers are not modelled, a number the text continues behind without white space is not covered by C73_double). C73_number_refuted: 1e3 is 1000 for QueryDoubleText and 1 for QueryIntText, without an error."
  },
  {
   "property": "C74",
   "status": "proved",
   "theorems": [
    "C74_product",
    "C74_product_abs",
    "C74_nearest",
    "C74_nan",
    "C74_order_refuted"
   ],
   "note": "double at the level of bit patterns, round to nearest even, no excess precision (see M_FSum.v, M_FMul.v). C74_order_refuted is the witness that the order matters."
  },
  {
   "property": "C75",
   "status": "proved",
   "theorems": [
    "C75_mean",
    "C75_throws",
    "C75_sign",
    "C75_none"
   ],
   "note": "clock_t is a 64 bit long and CLOCKS_PER_SEC is 1000000 (POSIX); a difference outside long is undefined and excluded by the hypothesis on the differences. The state counts the calls of clock(), whose results are an arbitrary sequence."
  },
  {
   "property": "C76",
   "status": "proved",
   "theorems": [
    "C76_value",
    "C76_above",
    "C76_printed"
   ],
   "note": "pow(x, 0.5) is an arbitrary function, so nothing is said about the second number. The stream is as in C55: %.6g."
  },
  {
   "property": "C77",
   "status": "proved",
   "theorems": [
    "C77_ends",
    "C77_endless_refuted",
    "C77_heat_1D",
    "C77_file_1D",
    "C77_heat_2D",
    "C77_file_2D"
   ],
   "note": "C77_endless_refuted is the refutation of the unconditional claim that the loop always ends. The arithmetic on the elements and sin, cos, exp are arbitrary functions, as in C50 and C51; that on dt and flowtime is double. Literals are rounded to nearest by the compiler."
  },
  {
   "property": "C78",
   "status": "proved",
   "theorems": [
    "C78_range_1D",
    "C78_content_1D",
    "C78_range_2D",
    "C78_unstable_refuted"
   ],
   "note": "Exact arithmetic on the elements: the rounding of double on the elements is not covered here. C78_unstable_refuted refutes the claim without the bound on the step."
  },
  {
   "property": "C79",
   "status": "proved",
   "theorems": [
    "C79_passes",
    "C79_heat_1D"
   ],
   "note": "Operations of double rounded to nearest one by one (no fused multiply-add, no extended precision). The function computing the initial values is any function with finite results within the bound."
  },
  {
   "property": "C80",
   "status": "proved",
   "theorems": [
    "C80_passes",
    "C80_heat_2D"
   ],
   "note": "Operations of double rounded to nearest one by one (no fused multiply-add, no extended precision). The function computing the initial values is any function with finite results within the bound."
  },
  {
   "property": "C81",
   "status": "proved",
   "theorems": [
    "C81_uniform",
    "C81_heat_1D"
   ],
   "note": "Equality is that of the numbers: the sign of a zero is not followed. Operations of double rounded to nearest one by one."
  },
  {
   "property": "C82",
   "status": "proved",
   "theorems": [
    "C82_mirror_1D",
    "C82_mirror_refuted"
   ],
   "note": "C82_mirror_refuted is the witness in double: 4 points, one pass, a_hh = 2, dt = 1/4 (not the coefficients of the file)."
  }
 ]
}