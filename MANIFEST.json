{
 "claims": [
  {
   "property": "C01",
   "status": "proved",
   "theorems": [
    "C01_binary41_roundtrip"
   ],
   "note": "Consistency is Spec/Consistent.v consistent41; the result is via41 false: everything equal except real_tags (six digits) and empty nodes/elements sections (default)."
  },
  {
   "property": "C02",
   "status": "proved",
   "theorems": [
    "C02_ascii41_roundtrip"
   ],
   "note": "The rounding r is characterised over the rationals in Spec/Rounding.v (six_digits_of)."
  },
  {
   "property": "C03",
   "status": "proved",
   "theorems": [
    "C03_ascii22_roundtrip"
   ],
   "note": "kept22: nodes, elements, groups, data, splines in order; blocks are runs; entities gone."
  },
  {
   "property": "C04",
   "status": "proved",
   "theorems": [
    "C04_binary22_roundtrip",
    "C04_exact"
   ],
   "note": "C04_binary22_roundtrip covers every tag (tag32 of it comes back); C04_exact is the case of tags below 2^31."
  },
  {
   "property": "C05",
   "status": "proved",
   "theorems": [
    "C05_nodes",
    "C05_nodes_any"
   ],
   "note": ""
  },
  {
   "property": "C06",
   "status": "proved",
   "theorems": [
    "C06_class",
    "C06_class_any"
   ],
   "note": ""
  },
  {
   "property": "C07",
   "status": "proved",
   "theorems": [
    "C07_elements",
    "C07_elements_any"
   ],
   "note": ""
  },
  {
   "property": "C08",
   "status": "proved",
   "theorems": [
    "C08_entities",
    "C08_entities_any"
   ],
   "note": ""
  },
  {
   "property": "C09",
   "status": "proved",
   "theorems": [
    "C09_binary41",
    "C09_saved_again41",
    "C09_saved_again22",
    "C09_settled",
    "C09_subnormal_refuted"
   ],
   "note": "Also shown: subnormal numbers are not stable."
  },
  {
   "property": "C10",
   "status": "proved",
   "theorems": [
    "C10_agree41",
    "C10_agree22"
   ],
   "note": "Data tags below 2^31 (and all tags in 2.2), see C33 for larger ones."
  },
  {
   "property": "C11",
   "status": "proved",
   "theorems": [
    "C11_quoted"
   ],
   "note": "Stream level; whole files via C01/C02, whose specs have arbitrary names."
  },
  {
   "property": "C12",
   "status": "proved",
   "theorems": [
    "C12_int",
    "C12_size"
   ],
   "note": ""
  },
  {
   "property": "C13",
   "status": "proved",
   "theorems": [
    "C13_six_digits"
   ],
   "note": "Covers exact six-digit decimals and the nearest normal double to one."
  },
  {
   "property": "C14",
   "status": "proved",
   "theorems": [
    "C14_refuted",
    "C14_bound"
   ],
   "note": "Refuted with a witness; loss bounded by a relative error of 1/199998 for normal doubles."
  },
  {
   "property": "C15",
   "status": "proved",
   "theorems": [
    "C15_refuted",
    "C15_forever",
    "C15_condition"
   ],
   "note": "Refuted; exact condition proved, and Diverge shown to be an endless execution of the loops."
  },
  {
   "property": "C16",
   "status": "proved",
   "theorems": [
    "C16_saved41",
    "C16_saved22",
    "C16_binary41",
    "C16_refuted"
   ],
   "note": "A spec whose only fault is NaN or infinities is always written, and the file loads if and only if every double written as text is finite. Binary files load back bit for bit, except that real tags of data sections are text in every encoding and spoil binary files too. The claim itself is false: C16_refuted gives a spec whose ASCII file makes a release build loop forever and a debug build abort."
  },
  {
   "property": "C17",
   "status": "proved",
   "theorems": [
    "C17_consistent",
    "C17_data"
   ],
   "note": "Every byte string; sections of both versions may be mixed, only the last header must not be 2.2. Sizes are stated modulo 2^64."
  },
  {
   "property": "C18",
   "status": "proved",
   "theorems": [
    "C18_consistent"
   ],
   "note": ""
  },
  {
   "property": "C19",
   "status": "proved",
   "theorems": [
    "C19_nodes",
    "C19_overflow",
    "C19_elements"
   ],
   "note": "The byte counts of the raw reads are computed separately from the vector sizes, as in the source."
  },
  {
   "property": "C20",
   "status": "proved",
   "theorems": [
    "C20_refuted"
   ],
   "note": "The claim is false; three witnesses, each in release and debug builds."
  },
  {
   "property": "C21",
   "status": "proved",
   "theorems": [
    "C21_safe"
   ],
   "note": ""
  },
  {
   "property": "C22",
   "status": "proved",
   "theorems": [
    "C22_version",
    "C22_data_size",
    "C22_marker"
   ],
   "note": "The file type and the data size may be spelled in any way (signs, leading zeros, values that no int holds)."
  },
  {
   "property": "C23",
   "status": "proved",
   "theorems": [
    "C23_entities",
    "C23_nodes",
    "C23_elements",
    "C23_data",
    "C23_none"
   ],
   "note": "For binary data sections the tag lists are written as well before the throw; C23_data gives the exact bytes."
  },
  {
   "property": "C24",
   "status": "proved",
   "theorems": [
    "C24_not_loadable"
   ],
   "note": ""
  },
  {
   "property": "C25",
   "status": "proved",
   "theorems": [
    "C25_unknown_section",
    "C25_places"
   ],
   "note": ""
  },
  {
   "property": "C26",
   "status": "proved",
   "theorems": [
    "C26_between",
    "C26_after"
   ],
   "note": ""
  },
  {
   "property": "C27",
   "status": "proved",
   "theorems": [
    "C27_iff",
    "C27_only"
   ],
   "note": "Also assumes 3 + dim does not overflow for parametric blocks (C28_exact covers that case)."
  },
  {
   "property": "C28",
   "status": "proved",
   "theorems": [
    "C28_refuted",
    "C28_refuted_short",
    "C28_exact"
   ],
   "note": "False as stated; exact condition proved, including the signed overflow of 3 + dim."
  },
  {
   "property": "C29",
   "status": "proved",
   "theorems": [
    "C29_refuted",
    "C29_refuted_width",
    "C29_saved"
   ],
   "note": "False as stated; true with the unchecked side conditions, for every version and file type."
  },
  {
   "property": "C30",
   "status": "proved",
   "theorems": [
    "C30_refuted",
    "C30_refuted22",
    "C30_kept41",
    "C30_kept22"
   ],
   "note": "False as stated in two corners (elements written without nodes; 2.2 binary element tags >= 2^31); proved outside them, all four encodings."
  },
  {
   "property": "C31",
   "status": "proved",
   "theorems": [
    "C31_tables"
   ],
   "note": ""
  },
  {
   "property": "C32",
   "status": "proved",
   "theorems": [
    "C32_refuted",
    "C32_not_written",
    "C32_none_left"
   ],
   "note": "False of the program: refuted with a witness; the loss is total."
  },
  {
   "property": "C33",
   "status": "proved",
   "theorems": [
    "C33_refuted",
    "C33_binary22",
    "C33_binary41",
    "C33_kept"
   ],
   "note": "False of the program: refuted with a witness; exactly what comes back is proved."
  },
  {
   "property": "C34",
   "status": "proved",
   "theorems": [
    "C34_throws",
    "C34_loaded"
   ],
   "note": ""
  },
  {
   "property": "C35",
   "status": "proved",
   "theorems": [
    "C35_over",
    "C35_exact",
    "C35_refuted"
   ],
   "note": "A block going beyond the declared count throws InvalidFormat and a normal return appends exactly the declared number; but whole extra blocks after the declared number are skipped silently (C35_refuted)."
  },
  {
   "property": "C36",
   "status": "proved",
   "theorems": [
    "C36_layout",
    "C36_format",
    "C36_stopped"
   ],
   "note": "2.2 files have no $Entities; NanoSplineFormat is always written when the extension is compiled in."
  },
  {
   "property": "C37",
   "status": "proved",
   "theorems": [
    "C37_release",
    "C37_release_any",
    "C37_debug",
    "C37_end_marker",
    "C37_refuted"
   ],
   "note": "As the property says, detection is false in release builds: the exact mesh returned for every cut inside the coordinates of every block, a normal return for every cut inside the $Nodes payload, Abort for the same cuts in debug builds; cuts inside the end marker are never noticed. Other sections are not covered."
  },
  {
   "property": "C38",
   "status": "proved",
   "theorems": [
    "C38_load",
    "C38_only",
    "C38_throws",
    "C38_round_trip"
   ],
   "note": "Round trip by name reduces to C01/C02."
  },
  {
   "property": "C39",
   "status": "proved",
   "theorems": [
    "C39_nodes",
    "C39_section_any",
    "C39_bounds_any"
   ],
   "note": ""
  },
  {
   "property": "C40",
   "status": "proved",
   "theorems": [
    "C40_ascii",
    "C40_binary",
    "C40_refuted"
   ],
   "note": "Holds for ASCII; in binary files the elements accumulate but num_elements is that of the last section (C40_binary), so the claim is refuted there."
  },
  {
   "property": "C41",
   "status": "proved",
   "theorems": [
    "C41_kept",
    "C41_kept22",
    "C41_not_loaded",
    "C41_not_saved"
   ],
   "note": ""
  },
  {
   "property": "C42",
   "status": "proved",
   "theorems": [
    "C42_rejected"
   ],
   "note": ""
  },
  {
   "property": "C43",
   "status": "proved",
   "theorems": [
    "C43_converted"
   ],
   "note": "For all four choices of encodings."
  },
  {
   "property": "C44",
   "status": "proved",
   "theorems": [
    "C44_refuted",
    "C44_prefix"
   ],
   "note": "False as stated: every short device goes unnoticed; stored bytes are a prefix."
  },
  {
   "property": "C45",
   "status": "proved",
   "theorems": [
    "C45_bytes41",
    "C45_bytes22",
    "C45_loads41",
    "C45_loads22"
   ],
   "note": ""
  },
  {
   "property": "C46",
   "status": "proved",
   "theorems": [
    "C46_int",
    "C46_size",
    "C46_double",
    "C46_int_range",
    "C46_size_range",
    "C46_size_negative"
   ],
   "note": "About the modelled stream extractors (libstdc++, C locale); numerals denoting doubles beyond the largest finite one are outside C46_double."
  },
  {
   "property": "C47",
   "status": "proved",
   "theorems": [
    "C47_loaded",
    "C47_encodings"
   ],
   "note": "The layout is specified in Spec/Text41.v without using the model; raw sections need exactly one character after their opening word."
  },
  {
   "property": "C48",
   "status": "proved",
   "theorems": [
    "C48_order",
    "C48_last_counts"
   ],
   "note": ""
  },
  {
   "property": "C49",
   "status": "proved",
   "theorems": [
    "C49_loaded"
   ],
   "note": "Sections other than $Nodes and $Elements are specified as for 4.1 (Spec/Text41.v)."
  },
  {
   "property": "C50",
   "status": "proved",
   "theorems": [
    "C50_exactly",
    "C50_22",
    "C50_points",
    "C50_refuted"
   ],
   "note": "Refuted for parametric blocks of points; proved exactly when it holds."
  },
  {
   "property": "C51",
   "status": "proved",
   "theorems": [
    "C51_report",
    "C51_integers",
    "C51_refuted"
   ],
   "note": "Refuted for parametric blocks on surfaces and for integer tags of a million and more; proved otherwise."
  },
  {
   "property": "C52",
   "status": "proved",
   "theorems": [
    "C52_usage",
    "C52_unloadable",
    "C52_done",
    "C52_only",
    "C52_kept"
   ],
   "note": "std::cerr and failures of std::cout are not modelled."
  },
  {
   "property": "C53",
   "status": "proved",
   "theorems": [
    "C53_load",
    "C53_mesh",
    "C53_one_mesh",
    "C53_save",
    "C53_refuted"
   ],
   "note": "Holds up to failed asserts and std::bad_alloc; refuted without these exceptions."
  },
  {
   "property": "C54",
   "status": "proved",
   "theorems": [
    "C54_undefined",
    "C54_exception",
    "C54_load",
    "C54_binary41",
    "C54_hazards_occur",
    "C54_all_occur",
    "C54_save",
    "C54_save_occur",
    "C54_files"
   ],
   "note": ""
  },
  {
   "property": "C55",
   "status": "proved",
   "theorems": [
    "C55_respaced",
    "C55_dos",
    "C55_saved",
    "C55_saved_dos",
    "C55_newline_refuted",
    "C55_binary_refuted",
    "C55_dollar_refuted"
   ],
   "note": ""
  },
  {
   "property": "C56",
   "status": "proved",
   "theorems": [
    "C56_common",
    "C56_mesh",
    "C56_counts",
    "C56_release",
    "C56_curves",
    "C56_refuted"
   ],
   "note": ""
  },
  {
   "property": "C57",
   "status": "proved",
   "theorems": [
    "C57_prefix",
    "C57_layout",
    "C57_saved",
    "C57_saved_binary",
    "C57_refuted_22",
    "C57_refuted_release"
   ],
   "note": ""
  },
  {
   "property": "C58",
   "status": "proved",
   "theorems": [
    "C58_int",
    "C58_size",
    "C58_double",
    "C58_one_meaning",
    "C58_common",
    "C58_mesh",
    "C58_refuted_release"
   ],
   "note": ""
  },
  {
   "property": "C59",
   "status": "proved",
   "theorems": [
    "C59_int",
    "C59_size",
    "C59_double",
    "C59_determined",
    "C59_nothing",
    "C59_failed"
   ],
   "note": ""
  },
  {
   "property": "C60",
   "status": "proved",
   "theorems": [
    "C60_mesh",
    "C60_nodes",
    "C60_elements",
    "C60_length",
    "C60_refuted_cut",
    "C60_refuted_release"
   ],
   "note": ""
  },
  {
   "property": "C61",
   "status": "proved",
   "theorems": [
    "C61_hang",
    "C61_saved_hang",
    "C61_marker",
    "C61_saved_cut",
    "C61_undefined",
    "C61_exception",
    "C61_binary",
    "C61_saved",
    "C61_refuted"
   ],
   "note": "C61_refuted shows the last sentence: the clause about debug builds does not extend to 2.2 files."
  },
  {
   "property": "C62",
   "status": "proved",
   "theorems": [
    "C62_shown",
    "C62_utf8",
    "C62_same",
    "C62_blind",
    "C62_refuted"
   ],
   "note": "C62_refuted shows the last sentence. nanobind's and CPython's conversions are trusted (DESIGN.md)."
  },
  {
   "property": "C63",
   "status": "proved",
   "theorems": [
    "C63_good",
    "C63_failed",
    "C63_eof",
    "C63_end",
    "C63_again",
    "C63_saved",
    "C63_written"
   ],
   "note": ""
  },
  {
   "property": "C64",
   "status": "proved",
   "theorems": [
    "C64_exact41",
    "C64_exact22",
    "C64_number",
    "C64_six",
    "C64_needed",
    "C64_unreadable"
   ],
   "note": ""
  },
  {
   "property": "C65",
   "status": "proved",
   "theorems": [
    "C65_same",
    "C65_exactly",
    "C65_finite",
    "C65_words",
    "C65_saved41",
    "C65_saved22",
    "C65_file41",
    "C65_file22",
    "C65_silent"
   ],
   "note": ""
  },
  {
   "property": "C66",
   "status": "proved",
   "theorems": [
    "C66_validate",
    "C66_validate_iff",
    "C66_load",
    "C66_known",
    "C66_data_size",
    "C66_endianness",
    "C66_save",
    "C66_what"
   ],
   "note": "The messages of std::length_error and std::bad_alloc are the standard library's and not modelled. The version message is C22_version, the missing files are C38."
  },
  {
   "property": "C67",
   "status": "proved",
   "theorems": [
    "C67_load",
    "C67_unicode",
    "C67_save",
    "C67_validate",
    "C67_tables"
   ],
   "note": "How nanobind turns C++ exceptions into Python ones and CPython decodes their text is trusted (Model/PyCalls.v)."
  },
  {
   "property": "C68",
   "status": "proved",
   "theorems": [
    "C68_compares",
    "C68_blind",
    "C68_renumbered",
    "C68_run41",
    "C68_run22",
    "C68_line",
    "C68_nan_refuted"
   ],
   "note": "C68_nan_refuted is the last sentence of the statement, not a refutation of it. Catch2 is trusted: a failed REQUIRE ends the test case, and each leaf SECTION is a run of its own."
  },
  {
   "property": "C69",
   "status": "proved",
   "theorems": [
    "C69_41",
    "C69_22",
    "C69_22_exact",
    "C69_crash_refuted",
    "C69_flag_refuted"
   ],
   "note": "The two _refuted theorems are the last sentence of the statement: the conditions of the first are needed."
  },
  {
   "property": "C70",
   "status": "proved",
   "theorems": [
    "C70_41",
    "C70_41_iff",
    "C70_exact41",
    "C70_binary41",
    "C70_22",
    "C70_versions",
    "C70_digits_refuted",
    "C70_tags_refuted"
   ],
   "note": "The two _refuted theorems are the last sentence of the statement: files can be equal where the exceptions say so."
  },
  {
   "property": "C71",
   "status": "proved",
   "theorems": [
    "C71_22",
    "C71_gmsh",
    "C71_any",
    "C71_kept41",
    "C71_lost22",
    "C71_sections_refuted",
    "C71_valid_refuted"
   ],
   "note": "The two _refuted theorems are the last sentence of the statement."
  },
  {
   "property": "C72",
   "status": "proved",
   "theorems": [
    "C72_span",
    "C72_no_nodes",
    "C72_petabytes",
    "C72_never",
    "C72_overflow"
   ],
   "note": ""
  },
  {
   "property": "C73",
   "status": "proved",
   "theorems": [
    "C73_longer",
    "C73_read41",
    "C73_read22",
    "C73_back41",
    "C73_back22",
    "C73_dollar_refuted"
   ],
   "note": "Unrestricted it is false of binary files (C73_dollar_refuted)."
  },
  {
   "property": "C74",
   "status": "proved",
   "theorems": [
    "C74_built",
    "C74_six",
    "C74_field",
    "C74_tests",
    "C74_load",
    "C74_load_refuted",
    "C74_conditions_refuted"
   ],
   "note": "The conditions are needed (C74_conditions_refuted). Test case Load is proved for the binary sample files; the text samples are computed in Tests/Samples.v only."
  },
  {
   "property": "C75",
   "status": "proved",
   "theorems": [
    "C75_saved",
    "C75_two",
    "C75_views",
    "C75_files",
    "C75_files22"
   ],
   "note": ""
  },
  {
   "property": "C76",
   "status": "proved",
   "theorems": [
    "C76_rewritten",
    "C76_lossless",
    "C76_upgraded",
    "C76_dropped"
   ],
   "note": ""
  },
  {
   "property": "C77",
   "status": "proved",
   "theorems": [
    "C77_same",
    "C77_equal",
    "C77_determined"
   ],
   "note": ""
  },
  {
   "property": "C78",
   "status": "proved",
   "theorems": [
    "C78_enough",
    "C78_enough22"
   ],
   "note": ""
  },
  {
   "property": "C79",
   "status": "proved",
   "theorems": [
    "C79_assign",
    "C79_read",
    "C79_nested",
    "C79_new",
    "C79_built",
    "C79_empty"
   ],
   "note": ""
  },
  {
   "property": "C80",
   "status": "proved",
   "theorems": [
    "C80_binary",
    "C80_lossless",
    "C80_text",
    "C80_negative_refuted"
   ],
   "note": ""
  },
  {
   "property": "C81",
   "status": "proved",
   "theorems": [
    "C81_loaded",
    "C81_binary",
    "C81_lossless",
    "C81_text"
   ],
   "note": ""
  },
  {
   "property": "C82",
   "status": "proved",
   "theorems": [
    "C82_room",
    "C82_binary",
    "C82_lossless",
    "C82_text"
   ],
   "note": ""
  },
  {
   "property": "C83",
   "status": "proved",
   "theorems": [
    "C83_order",
    "C83_met",
    "C83_sequence",
    "C83_version",
    "C83_plain",
    "C83_again"
   ],
   "note": ""
  },
  {
   "property": "C84",
   "status": "proved",
   "theorems": [
    "C84_mesh",
    "C84_rest"
   ],
   "note": ""
  },
  {
   "property": "C85",
   "status": "proved",
   "theorems": [
    "C85_binary",
    "C85_any",
    "C85_upgrade"
   ],
   "note": ""
  }
 ]
}
