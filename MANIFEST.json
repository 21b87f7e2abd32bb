{
 "claims": [
  {
   "property": "C01",
   "status": "proved",
   "theorems": [
    "C01_footprint_round_trip"
   ],
   "note": "All 18 element kinds, arbitrary lists; module_ok is a boolean listing exactly the representable values."
  },
  {
   "property": "C02",
   "status": "proved",
   "theorems": [
    "C02_footprint_reread"
   ],
   "note": "module_clean lists the values that can be read but not written back."
  },
  {
   "property": "C03",
   "status": "proved",
   "theorems": [
    "C03_rect_delta_refuted",
    "C03_rect_delta_readable_refuted"
   ],
   "note": "Property is false of the code: the written text of every pad with rect_delta is rejected."
  },
  {
   "property": "C04",
   "status": "proved",
   "theorems": [
    "C04_drill_exact",
    "C04_drill_round_trip",
    "C04_drill_refuted"
   ],
   "note": "Exact result for all drills; the keep-values claim holds on drill_ok and is refuted outside."
  },
  {
   "property": "C05",
   "status": "proved",
   "theorems": [
    "C05_layer_round_trip",
    "C05_layer_text_stable",
    "C05_layer_text_refuted"
   ],
   "note": "Iff characterisation; text stability for names with at most one dot, refuted for more."
  },
  {
   "property": "C06",
   "status": "proved",
   "theorems": [
    "C06_stamp_round_trip",
    "C06_negative_stamp_refuted"
   ],
   "note": "Non-negative stamps round trip; all negative ones fail to read back."
  },
  {
   "property": "C07",
   "status": "proved",
   "theorems": [
    "C07_layout_round_trip",
    "C07_layout_reread",
    "C07_domain_refuted",
    "C07_reread_refuted"
   ],
   "note": "All twelve element kinds; layout_ok lists the representable values, refutations show the excluded ones fail."
  },
  {
   "property": "C08",
   "status": "proved",
   "theorems": [
    "C08_table_roundtrip",
    "C08_document",
    "C08_extra_refuted"
   ],
   "note": ""
  },
  {
   "property": "C09",
   "status": "proved",
   "theorems": [
    "C09_schematic_round_trip",
    "C09_schematic_reread",
    "C09_default_refuted",
    "C09_new_sheet_refuted",
    "C09_field_name_refuted",
    "C09_quote_refuted"
   ],
   "note": "All element kinds, any number of fields, sheets, labels; sch_ok lists the representable values, excluded ones are refuted."
  },
  {
   "property": "C10",
   "status": "proved",
   "theorems": [
    "C10_symbol_round_trip",
    "C10_symbol_reread",
    "C10_bold_refuted",
    "C10_new_symbol_refuted",
    "C10_one_field_refuted",
    "C10_dropped_refuted",
    "C10_pin_name_refuted",
    "C10_field_name_refuted"
   ],
   "note": "symbol_lib_ok lists the representable values, excluded ones are refuted."
  },
  {
   "property": "C100",
   "status": "proved",
   "theorems": [
    "C100_same",
    "C100_sheet",
    "C100_all",
    "C100_component",
    "C100_module",
    "C100_module_same",
    "C100_net",
    "C100_shown",
    "C100_deeper_refuted"
   ],
   "note": "Errors of the system and of other crates stand for their texts."
  },
  {
   "property": "C101",
   "status": "proved",
   "theorems": [
    "C101_all",
    "C101_component",
    "C101_at_hand",
    "C101_outside_refuted"
   ],
   "note": "Paths as in C72; links in the file system are arbitrary, since reading is a function of the path."
  },
  {
   "property": "C102",
   "status": "proved",
   "theorems": [
    "C102_lines",
    "C102_trees",
    "C102_file",
    "C102_opened",
    "C102_sheets",
    "C102_quoted_refuted"
   ],
   "note": "same_but_ends relates texts whose line ends may each be of either sort; results equal, errors and printed lines included; a line end inside quotes is part of the value (refuted witness)"
  },
  {
   "property": "C103",
   "status": "proved",
   "theorems": [
    "C103_consistent",
    "C103_one_number",
    "C103_joined",
    "C103_fresh",
    "C103_update",
    "C103_failed_refuted"
   ],
   "note": "places carry a name and a number (none in net classes); equivalences for the connections; the failing update is a refuted witness"
  },
  {
   "property": "C104",
   "status": "proved",
   "theorems": [
    "C104_module",
    "C104_module_moved",
    "C104_table",
    "C104_table_moved",
    "C104_board",
    "C104_board_moved",
    "C104_schematic",
    "C104_library",
    "C104_closed_refuted",
    "C104_twice_refuted"
   ],
   "note": "equivalences for joining parts; permutations of entries; the two exceptions are refuted witnesses"
  },
  {
   "property": "C105",
   "status": "proved",
   "theorems": [
    "C105_choice",
    "C105_lost",
    "C105_line",
    "C105_one",
    "C105_short",
    "C105_panic",
    "C105_rest",
    "C105_lib_choice",
    "C105_lib_lost",
    "C105_lib_line",
    "C105_lib_one",
    "C105_lib_short",
    "C105_lib_panic",
    "C105_lib_rest",
    "C105_closed_refuted"
   ],
   "note": "for all lists of lines and all texts; the last one shows why the closing line is excluded"
  },
  {
   "property": "C106",
   "status": "proved",
   "theorems": [
    "C106_module_same",
    "C106_layout_same",
    "C106_module",
    "C106_layout",
    "C106_module_other",
    "C106_layout_other",
    "C106_one",
    "C106_named_refuted"
   ],
   "note": "equivalences for all trees; how the dependency shows a tree and how a number is shown for debugging are parameters"
  },
  {
   "property": "C107",
   "status": "proved",
   "theorems": [
    "C107_text",
    "C107_bytes",
    "C107_one",
    "C107_cut",
    "C107_refused",
    "C107_ascii",
    "C107_latin",
    "C107_mark",
    "C107_loss",
    "C107_library",
    "C107_schematic",
    "C107_save",
    "C107_complete",
    "C107_module",
    "C107_layout"
   ],
   "note": "The coding is that of the standard library, modelled from its definition; the texts of footprints and boards are assumed to be texts (scalar values), as every Rust string is."
  },
  {
   "property": "C108",
   "status": "proved",
   "theorems": [
    "C108_module",
    "C108_layout",
    "C108_table",
    "C108_ascii",
    "C108_own",
    "C108_schematic",
    "C108_library",
    "C108_line_own"
   ],
   "note": "for all quoting rules"
  },
  {
   "property": "C109",
   "status": "proved",
   "theorems": [
    "C109_same",
    "C109_module",
    "C109_layout",
    "C109_table",
    "C109_quoted",
    "C109_keep",
    "C109_module_escaped",
    "C109_layout_escaped",
    "C109_table_escaped"
   ],
   "note": "the meaning of a backslash pair is a parameter of the reader; the writer puts the words between the quotes as they are"
  },
  {
   "property": "C11",
   "status": "proved",
   "theorems": [
    "C11_one_blank",
    "C11_words",
    "C11_blank_line",
    "C11_count",
    "C11_count_short",
    "C11_quote_refuted",
    "C11_exact",
    "C11_total",
    "C11_count_exact",
    "C11_white",
    "C11_lines"
   ],
   "note": ""
  },
  {
   "property": "C110",
   "status": "proved",
   "theorems": [
    "C110_component",
    "C110_sheet",
    "C110_sections",
    "C110_fields_refuted"
   ],
   "note": "fields, AR lines, labels and elements keep their order; that two fields swapped are seen is the refuted form"
  },
  {
   "property": "C111",
   "status": "proved",
   "theorems": [
    "C111_moved",
    "C111_alias_first"
   ],
   "note": "that KiCad writes the alias line first is not part of the model; the theorem is about the two orders"
  },
  {
   "property": "C112",
   "status": "proved",
   "theorems": [
    "C112_board",
    "C112_end",
    "C112_other",
    "C112_footprint",
    "C112_table",
    "C112_saved",
    "C112_found"
   ],
   "note": "texts at character level; a place is a gap between spelt entries"
  },
  {
   "property": "C113",
   "status": "proved",
   "theorems": [
    "C113_footprint",
    "C113_board",
    "C113_parts",
    "C113_zone",
    "C113_row",
    "C113_pad",
    "C113_footprint_once",
    "C113_board_once",
    "C113_pad_parts",
    "C113_net_class",
    "C113_points_refuted"
   ],
   "note": "that the order of points is free without effect is refuted: C113_points_refuted"
  },
  {
   "property": "C114",
   "status": "proved",
   "theorems": [
    "C114_board",
    "C114_silent",
    "C114_broken",
    "C114_broken_one",
    "C114_other_kinds",
    "C114_asked",
    "C114_again",
    "C114_dump_layout",
    "C114_adjust_layout",
    "C114_klc_kicad_mod",
    "C114_klc_symbol_lib",
    "C114_fix"
   ],
   "note": ""
  },
  {
   "property": "C115",
   "status": "proved",
   "theorems": [
    "C115_same_edits",
    "C115_same_outcome",
    "C115_same_count",
    "C115_same_box",
    "C115_number",
    "C115_taken",
    "C115_range",
    "C115_distinct",
    "C115_distinct_refuted",
    "C115_lookup",
    "C115_name_lost",
    "C115_count",
    "C115_sheet",
    "C115_sheet_true",
    "C115_sheet_refuted"
   ],
   "note": "that numbers stay distinct without room and that the box contains the sheet are refuted: C115_distinct_refuted, C115_sheet_refuted"
  },
  {
   "property": "C116",
   "status": "proved",
   "theorems": [
    "C116_exact",
    "C116_exact_element",
    "C116_near",
    "C116_near_element",
    "C116_size",
    "C116_program",
    "C116_exact_refuted",
    "C116_unplaced_refuted"
   ],
   "note": "exactness for vias and movement of footprints without a place are refuted: C116_exact_refuted, C116_unplaced_refuted"
  },
  {
   "property": "C117",
   "status": "proved",
   "theorems": [
    "C117_check",
    "C117_fix_moved",
    "C117_fix_turned",
    "C117_courtyard",
    "C117_front",
    "C117_flip_refuted"
   ],
   "note": "that fixing commutes with flipping without a courtyard is refuted: C117_flip_refuted"
  },
  {
   "property": "C118",
   "status": "proved",
   "theorems": [
    "C118_check",
    "C118_fix",
    "C118_fix_courtyard",
    "C118_courtyard",
    "C118_box",
    "C118_board_box",
    "C118_rename",
    "C118_lookup",
    "C118_deep_box",
    "C118_deep_edits",
    "C118_check_refuted",
    "C118_box_refuted"
   ],
   "note": "two texts of one kind or two places: refuted by C118_check_refuted and C118_box_refuted"
  },
  {
   "property": "C119",
   "status": "proved",
   "theorems": [
    "C119_footprint",
    "C119_board",
    "C119_silent",
    "C119_schematic",
    "C119_fix",
    "C119_info"
   ],
   "note": "the text Rust gives for a number with {:?} is a parameter"
  },
  {
   "property": "C12",
   "status": "proved",
   "theorems": [
    "C12_pretty",
    "C12_module_text",
    "C12_layout_text",
    "C12_table_text"
   ],
   "note": "For every quoting rule that quotes empty atoms and atoms with white space, parentheses or quotes; atoms holding a quote character are excluded (no escape is modelled)."
  },
  {
   "property": "C120",
   "status": "proved",
   "theorems": [
    "C120_symbol",
    "C120_library",
    "C120_field",
    "C120_number",
    "C120_update",
    "C120_add",
    "C120_components",
    "C120_search",
    "C120_modify",
    "C120_box",
    "C120_set_name_refuted",
    "C120_twice_refuted"
   ],
   "note": "set_name and doubled names or references: refuted by C120_set_name_refuted and C120_twice_refuted"
  },
  {
   "property": "C121",
   "status": "proved",
   "theorems": [
    "C121_nets",
    "C121_update",
    "C121_rename",
    "C121_board",
    "C121_add",
    "C121_modify",
    "C121_reference",
    "C121_schematic",
    "C121_fields",
    "C121_count",
    "C121_fix_refuted"
   ],
   "note": "with two texts for the reference the fix does depend on it: C121_fix_refuted"
  },
  {
   "property": "C122",
   "status": "proved",
   "theorems": [
    "C122_board",
    "C122_part",
    "C122_fix",
    "C122_unboxed",
    "C122_footprint",
    "C122_footprint_part",
    "C122_negative_refuted",
    "C122_schematic_refuted"
   ],
   "note": "false for vias of negative size and for schematics: the two refutations"
  },
  {
   "property": "C123",
   "status": "proved",
   "theorems": [
    "C123_box",
    "C123_outline",
    "C123_points",
    "C123_every"
   ],
   "note": ""
  },
  {
   "property": "C124",
   "status": "proved",
   "theorems": [
    "C124_redrawn",
    "C124_repinned",
    "C124_shift",
    "C124_mirror",
    "C124_pin",
    "C124_shift_refuted",
    "C124_turn_refuted"
   ],
   "note": "off the grid and for turned symbols it is false: the two refutations"
  },
  {
   "property": "C125",
   "status": "proved",
   "theorems": [
    "C125_module",
    "C125_layout",
    "C125_table",
    "C125_schematic",
    "C125_library",
    "C125_module_refuted",
    "C125_layout_refuted",
    "C125_schematic_refuted",
    "C125_library_refuted"
   ],
   "note": "schematics under 2^31 bytes; false for documents that do not survive saving: the four refutations"
  },
  {
   "property": "C126",
   "status": "proved",
   "theorems": [
    "C126_box",
    "C126_board_box",
    "C126_report",
    "C126_edits",
    "C126_board_edits",
    "C126_dump_footprint",
    "C126_klc_kicad_mod",
    "C126_board_programs",
    "C126_report_refuted"
   ],
   "note": "the report changes for fonts of negative size: the refutation"
  },
  {
   "property": "C127",
   "status": "proved",
   "theorems": [
    "C127_module",
    "C127_layout",
    "C127_schematic",
    "C127_library",
    "C127_module_refuted"
   ],
   "note": "the refutation is about new texts that hold a quote"
  },
  {
   "property": "C13",
   "status": "proved",
   "theorems": [
    "C13_restored",
    "C13_nesting",
    "C13_module",
    "C13_table",
    "C13_layout",
    "C13_unnamed_refuted"
   ],
   "note": "Holds for documents whose lists start with a non-empty atom; refuted otherwise."
  },
  {
   "property": "C14",
   "status": "proved",
   "theorems": [
    "C14_update_lub",
    "C14_update_neutral",
    "C14_update_comm",
    "C14_update_assoc",
    "C14_merge_order",
    "C14_merge_covers",
    "C14_swap"
   ],
   "note": "Least upper bound, laws and order independence for all non-NaN boxes."
  },
  {
   "property": "C15",
   "status": "proved",
   "theorems": [
    "C15_layout_box",
    "C15_layout_box_modules"
   ],
   "note": "Finite coordinates, via sizes not negative. Circles count with their centre, footprints with their own box."
  },
  {
   "property": "C16",
   "status": "proved",
   "theorems": [
    "C16_module_box_refuted",
    "C16_module_box_ascending",
    "C16_element_box_exact"
   ],
   "note": "The full claim is refuted (lines and arcs drawn in descending direction). Proved whenever lines and arcs ascend; for a single element this condition is exact."
  },
  {
   "property": "C17",
   "status": "proved",
   "theorems": [
    "C17_component_box",
    "C17_component_box_exact",
    "C17_component_box_refuted",
    "C17_schematic_box_refuted",
    "C17_schematic_box_upright",
    "C17_schematic_box_some",
    "C17_schematic_box_least",
    "C17_sheet_box",
    "C17_sheet_box_exact",
    "C17_sheet_box_defined",
    "C17_component_box_points"
   ],
   "note": "The claim is refuted (the box is built from y,y,x,y). Proved exactly: the box contains the position iff y <= x; schematic boxes for such components, and sheets."
  },
  {
   "property": "C18",
   "status": "proved",
   "theorems": [
    "C18_module_adjust",
    "C18_layout_adjust",
    "C18_views_complete",
    "C18_adjust_zero"
   ],
   "note": "Footprints and all twelve layout element kinds."
  },
  {
   "property": "C19",
   "status": "proved",
   "theorems": [
    "C19_flip_twice",
    "C19_flip_parts",
    "C19_flip_rotation_refuted",
    "C19_flip_justify_refuted",
    "C19_flip_changes_side"
   ],
   "note": "Holds on exact angles and unjustified/mirrored texts; refuted for other rotations and left/right justification."
  },
  {
   "property": "C20",
   "status": "proved",
   "theorems": [
    "C20_rotate_range_refuted",
    "C20_rotate_range",
    "C20_rotate_exact",
    "C20_rotate_back"
   ],
   "note": "[0,360) is refuted; [0,360] always holds; exact on multiples of 2^-43."
  },
  {
   "property": "C21",
   "status": "proved",
   "theorems": [
    "C21_set_reference",
    "C21_old_gone",
    "C21_new_present",
    "C21_undo",
    "C21_get_reference",
    "C21_is_reference",
    "C21_get_text",
    "C21_modify_text"
   ],
   "note": ""
  },
  {
   "property": "C22",
   "status": "proved",
   "theorems": [
    "C22_rename",
    "C22_old_gone",
    "C22_views_complete"
   ],
   "note": ""
  },
  {
   "property": "C23",
   "status": "proved",
   "theorems": [
    "C23_all_or_nothing_refuted",
    "C23_outcome",
    "C23_success",
    "C23_failure"
   ],
   "note": "All-or-nothing is false; exact behaviour proved."
  },
  {
   "property": "C24",
   "status": "proved",
   "theorems": [
    "C24_get_module",
    "C24_modify_module"
   ],
   "note": ""
  },
  {
   "property": "C25",
   "status": "proved",
   "theorems": [
    "C25_recognised",
    "C25_exact",
    "C25_set",
    "C25_set_other",
    "C25_form_refuted"
   ],
   "note": "Holds for texts without - ( ); refuted with them."
  },
  {
   "property": "C26",
   "status": "proved",
   "theorems": [
    "C26_get_update",
    "C26_get_other",
    "C26_absent",
    "C26_present",
    "C26_sequence"
   ],
   "note": ""
  },
  {
   "property": "C27",
   "status": "proved",
   "theorems": [
    "C27_lookup",
    "C27_add_or_update",
    "C27_outcome",
    "C27_defined",
    "C27_hash",
    "C27_hash_distinct",
    "C27_hash_refuted",
    "C27_saved_refuted"
   ],
   "note": "Lookup, frame and outcome; the map view and the saved file disagree in the refuted cases."
  },
  {
   "property": "C28",
   "status": "proved",
   "theorems": [
    "C28_fresh",
    "C28_defined",
    "C28_new_field",
    "C28_first_free_refuted",
    "C28_overflow_refuted"
   ],
   "note": ""
  },
  {
   "property": "C29",
   "status": "proved",
   "theorems": [
    "C29_history",
    "C29_last_write"
   ],
   "note": ""
  },
  {
   "property": "C30",
   "status": "proved",
   "theorems": [
    "C30_exact",
    "C30_views_complete",
    "C30_other_hidden_refuted",
    "C30_all_same_named_refuted",
    "C30_only_named",
    "C30_rename"
   ],
   "note": "The claim is false; exact effect proved and the claim under the conditions where it holds."
  },
  {
   "property": "C31",
   "status": "proved",
   "theorems": [
    "C31_modify_component",
    "C31_modify_components",
    "C31_components",
    "C31_sheet_count"
   ],
   "note": ""
  },
  {
   "property": "C32",
   "status": "proved",
   "theorems": [
    "C32_all_components",
    "C32_steps",
    "C32_terminates",
    "C32_cycle_refuted",
    "C32_cycle",
    "C32_missing"
   ],
   "note": "Exact on readable acyclic hierarchies; termination is refuted for cycles, an unreadable sheet fails the call. File system is a parameter."
  },
  {
   "property": "C33",
   "status": "proved",
   "theorems": [
    "C33_by_reference",
    "C33_sound",
    "C33_own",
    "C33_missing_refuted",
    "C33_cycle_refuted"
   ],
   "note": "Holds when the whole tree can be read; refuted otherwise."
  },
  {
   "property": "C34",
   "status": "proved",
   "theorems": [
    "C34_fix_total",
    "C34_fix_twice",
    "C34_fix_remaining"
   ],
   "note": "fixing always succeeds, is idempotent, and the findings that remain are exactly the three kinds no fix repairs (texts missing, smd attribute on a through-hole part)"
  },
  {
   "property": "C35",
   "status": "proved",
   "theorems": [
    "C35_fix_frame",
    "C35_fix_name",
    "C35_fix_untouched",
    "C35_user_text_refuted",
    "C35_side_refuted"
   ],
   "note": "exact frame; refuted parts: the first user text loses its content, and added lines are on the front for back footprints"
  },
  {
   "property": "C36",
   "status": "proved",
   "theorems": [
    "C36_reports",
    "C36_positions",
    "C36_accepts"
   ],
   "note": ""
  },
  {
   "property": "C37",
   "status": "proved",
   "theorems": [
    "C37_pin_reports",
    "C37_pin_silent",
    "C37_symbol_silent",
    "C37_no_false_alarm",
    "C37_grid_refuted"
   ],
   "note": "the documented 100/50 mil grids are refuted: the code tests multiples of 10 and 5; the exact acceptance conditions of the code are proved"
  },
  {
   "property": "C38",
   "status": "proved",
   "theorems": [
    "C38_flatter_keeps",
    "C38_flatter_unwraps",
    "C38_flatter_others",
    "C38_dump",
    "C38_dump_lines",
    "C38_sections",
    "C38_sections_differ",
    "C38_section_names",
    "C38_flatter_item_refuted"
   ],
   "note": ""
  },
  {
   "property": "C39",
   "status": "proved",
   "theorems": [
    "C39_kind",
    "C39_sound",
    "C39_exclusive",
    "C39_unknown",
    "C39_read_module",
    "C39_read_schematic",
    "C39_read_layout",
    "C39_read_symbol_lib",
    "C39_read_project",
    "C39_read_table"
   ],
   "note": ""
  },
  {
   "property": "C40",
   "status": "proved",
   "theorems": [
    "C40_module",
    "C40_layout",
    "C40_table",
    "C40_schematic",
    "C40_symbol_lib",
    "C40_project",
    "C40_others"
   ],
   "note": "under the representability conditions of C09, C10 and C12; writing is assumed to succeed"
  },
  {
   "property": "C41",
   "status": "proved",
   "theorems": [
    "C41_schematic_refuted",
    "C41_schematic_calm",
    "C41_schematic_total",
    "C41_symbol_refuted",
    "C41_symbol_calm",
    "C41_symbol_total"
   ],
   "note": "Both readers: refuted with concrete texts; under a condition on the text they never abort."
  },
  {
   "property": "C42",
   "status": "proved",
   "theorems": [
    "C42_total",
    "C42_exact",
    "C42_value",
    "C42_order",
    "C42_list",
    "C42_defined_refuted",
    "C42_prefix_refuted",
    "C42_suffix_refuted",
    "C42_overflow_refuted"
   ],
   "note": "Defined for every non-empty reference, panics on the empty one; only the first letter counts."
  },
  {
   "property": "C43",
   "status": "proved",
   "theorems": [
    "C43_float_text_exact",
    "C43_float_text_injective",
    "C43_int_text_exact",
    "C43_int_text_range"
   ],
   "note": "f64 codec exact for every value; i64 for the whole range."
  },
  {
   "property": "C44",
   "status": "proved",
   "theorems": [
    "C44_layer_equivalence",
    "C44_pad_equivalence",
    "C44_text_equivalence",
    "C44_layer_refuted",
    "C44_pad_refuted",
    "C44_text_refuted",
    "C44_layer_exact",
    "C44_pad_exact",
    "C44_text_exact"
   ],
   "note": "Equivalence laws hold (reflexivity exactly without NaN); interchangeability refuted."
  },
  {
   "property": "C45",
   "status": "proved",
   "theorems": [
    "C45_pads",
    "C45_fp_lines",
    "C45_layout_views",
    "C45_add",
    "C45_has_net",
    "C45_pins",
    "C45_components",
    "C31_components",
    "C21_get_text"
   ],
   "note": "There is no accessor listing all texts; the one finding a text by name is covered by C21_get_text."
  },
  {
   "property": "C46",
   "status": "proved",
   "theorems": [
    "C46_find",
    "C46_set_name",
    "C46_set_name_total",
    "C46_set_name_exact",
    "C46_set_name_abort",
    "C46_basic",
    "C46_new",
    "C46_new_refuted"
   ],
   "note": ""
  },
  {
   "property": "C47",
   "status": "proved",
   "theorems": [
    "C47_fix_saves"
   ],
   "note": ""
  },
  {
   "property": "C48",
   "status": "proved",
   "theorems": [
    "C48_courtyard_added",
    "C48_courtyard_encloses",
    "C48_courtyard_margin",
    "C48_courtyard_refuted"
   ],
   "note": "holds when lines and arcs are drawn towards larger coordinates; refuted otherwise (same cause as C16)"
  },
  {
   "property": "C49",
   "status": "proved",
   "theorems": [
    "C49_footprint_reports"
   ],
   "note": ""
  },
  {
   "property": "C50",
   "status": "proved",
   "theorems": [
    "C50_module",
    "C50_layout",
    "C50_table",
    "C50_module_tree",
    "C50_layout_tree",
    "C50_table_tree",
    "C50_text_tree",
    "C50_read_file",
    "C50_empty_refuted",
    "C50_read_layout_refuted"
   ],
   "note": "refuted for trees holding the empty expression (not producible from text) and for read_layout on a truncated schematic"
  },
  {
   "property": "C51",
   "status": "proved",
   "theorems": [
    "C51_parts",
    "C51_replace",
    "C51_exact",
    "C51_every",
    "C51_untouched",
    "C51_undo",
    "C51_neighbours_refuted",
    "C51_undo_refuted"
   ],
   "note": "every occurrence is refuted for equal neighbours (/a/a/ keeps the second)"
  },
  {
   "property": "C52",
   "status": "proved",
   "theorems": [
    "C52_equal",
    "C52_nets_ignored",
    "C52_symmetric",
    "C52_transitive",
    "C52_reflexive",
    "C52_reflexive_refuted"
   ],
   "note": ""
  },
  {
   "property": "C53",
   "status": "proved",
   "theorems": [
    "C53_identify",
    "C53_identify_sound",
    "C53_identify_aborts",
    "C53_identify_abort_refuted",
    "C53_dump_footprint",
    "C53_dump_layout",
    "C53_dump_layout_aborts",
    "C53_adjust_layout",
    "C53_dump_footprint_refuted",
    "C53_klc_kicad_mod",
    "C53_klc_symbol_lib",
    "C53_klc_symbol_silent"
   ],
   "note": "some texts make identify abort; the whole output of dump_footprint is no footprint file"
  },
  {
   "property": "C54",
   "status": "proved",
   "theorems": [
    "C54_exact",
    "C54_nonneg",
    "C54_swap",
    "C54_covers",
    "C54_merge"
   ],
   "note": ""
  },
  {
   "property": "C55",
   "status": "proved",
   "theorems": [
    "C55_unique",
    "C55_tstamp",
    "C55_tedit",
    "C55_place",
    "C55_side",
    "C55_smd"
   ],
   "note": ""
  },
  {
   "property": "C56",
   "status": "proved",
   "theorems": [
    "C56_module",
    "C56_layout",
    "C56_table",
    "C56_open_save_open",
    "C56_no_quotes",
    "C56_lost_refuted"
   ],
   "note": "refuted without the clean condition: a footprint with rect_delta can be opened but not reopened after saving"
  },
  {
   "property": "C57",
   "status": "proved",
   "theorems": [
    "C57_reads",
    "C57_accepts",
    "C57_nearest",
    "C57_overflow",
    "C57_int",
    "C57_hex"
   ],
   "note": ""
  },
  {
   "property": "C58",
   "status": "proved",
   "theorems": [
    "C58_layout_some",
    "C58_layout_least",
    "C58_layout_points",
    "C58_module_least",
    "C58_pad",
    "C58_circle",
    "C58_gr_circle",
    "C58_text_line",
    "C58_via",
    "C58_via_refuted"
   ],
   "note": "the box of a via is twice as large as the via"
  },
  {
   "property": "C59",
   "status": "proved",
   "theorems": [
    "C59_flip",
    "C59_rotate",
    "C59_parts",
    "C59_arc_refuted"
   ],
   "note": "a flipped arc is not the mirrored arc"
  },
  {
   "property": "C60",
   "status": "proved",
   "theorems": [
    "C60_module",
    "C60_layout",
    "C60_schematic",
    "C60_symbol",
    "C60_quote_refuted",
    "C60_blank_refuted"
   ],
   "note": "new texts must fit their place: refuted without"
  },
  {
   "property": "C61",
   "status": "proved",
   "theorems": [
    "C61_new_module",
    "C61_default_layout",
    "C61_text",
    "C61_text_setters",
    "C61_pad",
    "C61_pad_setters",
    "C61_set"
   ],
   "note": ""
  },
  {
   "property": "C62",
   "status": "proved",
   "theorems": [
    "C62_module_tree",
    "C62_layout_tree",
    "C62_module",
    "C62_layout",
    "C62_table"
   ],
   "note": ""
  },
  {
   "property": "C63",
   "status": "proved",
   "theorems": [
    "C63_module",
    "C63_layout"
   ],
   "note": ""
  },
  {
   "property": "C64",
   "status": "proved",
   "theorems": [
    "C64_shortest",
    "C64_plain",
    "C64_exact"
   ],
   "note": ""
  },
  {
   "property": "C65",
   "status": "proved",
   "theorems": [
    "C65_schematic",
    "C65_symbol_lib",
    "C65_schematic_once_refuted",
    "C65_symbol_once_refuted",
    "C65_schematic_unbounded_refuted",
    "C65_symbol_unbounded_refuted"
   ],
   "note": ""
  },
  {
   "property": "C66",
   "status": "proved",
   "theorems": [
    "C66_tree",
    "C66_module",
    "C66_layout",
    "C66_write_module",
    "C66_write_layout",
    "C66_table",
    "C66_other",
    "C66_state_refuted"
   ],
   "note": ""
  },
  {
   "property": "C67",
   "status": "proved",
   "theorems": [
    "C67_module",
    "C67_layout",
    "C67_table",
    "C67_opened_refuted"
   ],
   "note": ""
  },
  {
   "property": "C68",
   "status": "proved",
   "theorems": [
    "C68_module",
    "C68_layout",
    "C68_table",
    "C68_saved_refuted"
   ],
   "note": ""
  },
  {
   "property": "C69",
   "status": "proved",
   "theorems": [
    "C69_module",
    "C69_layout",
    "C69_table",
    "C69_order_refuted"
   ],
   "note": ""
  },
  {
   "property": "C70",
   "status": "proved",
   "theorems": [
    "C70_exact",
    "C70_one_meaning"
   ],
   "note": ""
  },
  {
   "property": "C71",
   "status": "proved",
   "theorems": [
    "C71_exact",
    "C71_one_meaning"
   ],
   "note": ""
  },
  {
   "property": "C72",
   "status": "proved",
   "theorems": [
    "C72_place",
    "C72_none",
    "C72_beside",
    "C72_alone",
    "C72_nested"
   ],
   "note": ""
  },
  {
   "property": "C73",
   "status": "proved",
   "theorems": [
    "C73_exact"
   ],
   "note": ""
  },
  {
   "property": "C74",
   "status": "proved",
   "theorems": [
    "C74_exact",
    "C74_panic"
   ],
   "note": ""
  },
  {
   "property": "C75",
   "status": "proved",
   "theorems": [
    "C75_schematic",
    "C75_symbol",
    "C75_schematic_error",
    "C75_symbol_error"
   ],
   "note": ""
  },
  {
   "property": "C76",
   "status": "proved",
   "theorems": [
    "C76_module",
    "C76_layout",
    "C76_table",
    "C76_layer",
    "C76_module_crash",
    "C76_layout_crash",
    "C76_module_error",
    "C76_layout_error",
    "C76_usual_module",
    "C76_usual_layout"
   ],
   "note": ""
  },
  {
   "property": "C77",
   "status": "proved",
   "theorems": [
    "C77_tree",
    "C77_one_tree",
    "C77_module",
    "C77_layout",
    "C77_table",
    "C77_module_error",
    "C77_layout_error",
    "C77_table_error",
    "C77_file",
    "C77_file_unknown",
    "C77_file_crash",
    "C77_file_error",
    "C77_file_one"
   ],
   "note": "the text level reader of symbolic_expressions is part of the trusted base (see DESIGN.md)"
  },
  {
   "property": "C78",
   "status": "proved",
   "theorems": [
    "C78_flip_twice",
    "C78_rotate",
    "C78_rotations",
    "C78_there_and_back"
   ],
   "note": ""
  },
  {
   "property": "C79",
   "status": "proved",
   "theorems": [
    "C79_footprint",
    "C79_settings",
    "C79_one_report",
    "C79_symbol",
    "C79_fix",
    "C79_fix_one"
   ],
   "note": ""
  },
  {
   "property": "C80",
   "status": "proved",
   "theorems": [
    "C80_module_tree",
    "C80_layout_tree",
    "C80_table_tree",
    "C80_module",
    "C80_layout",
    "C80_layout_written",
    "C80_table"
   ],
   "note": ""
  },
  {
   "property": "C81",
   "status": "proved",
   "theorems": [
    "C81_kept",
    "C81_significant",
    "C81_distinct",
    "C81_unique",
    "C81_num",
    "C81_sixteen_refuted"
   ],
   "note": ""
  },
  {
   "property": "C82",
   "status": "proved",
   "theorems": [
    "C82_schematic",
    "C82_schematic_read",
    "C82_library",
    "C82_schematic_text",
    "C82_library_text"
   ],
   "note": "for schematics with a text of less than 2^31 characters; longer ones are not covered"
  },
  {
   "property": "C83",
   "status": "proved",
   "theorems": [
    "C83_file",
    "C83_module",
    "C83_schematic",
    "C83_layout",
    "C83_library",
    "C83_project",
    "C83_table",
    "C83_texts"
   ],
   "note": ""
  },
  {
   "property": "C84",
   "status": "proved",
   "theorems": [
    "C84_fails",
    "C84_aborts",
    "C84_never",
    "C84_one",
    "C84_cycle"
   ],
   "note": "The outcome with a list is C32_all_components."
  },
  {
   "property": "C85",
   "status": "proved",
   "theorems": [
    "C85_finds",
    "C85_fails",
    "C85_aborts",
    "C85_never",
    "C85_one",
    "C85_cycle",
    "C85_error_refuted"
   ],
   "note": ""
  },
  {
   "property": "C86",
   "status": "proved",
   "theorems": [
    "C86_names",
    "C86_rename",
    "C86_update",
    "C86_update_fails",
    "C86_rename_pads",
    "C86_set_reference"
   ],
   "note": ""
  },
  {
   "property": "C87",
   "status": "proved",
   "theorems": [
    "C87_positions",
    "C87_adjust",
    "C87_modify_module",
    "C87_add_net",
    "C87_add_netclass",
    "C87_setup"
   ],
   "note": ""
  },
  {
   "property": "C88",
   "status": "proved",
   "theorems": [
    "C88_component",
    "C88_components",
    "C88_reference",
    "C88_name",
    "C88_field",
    "C88_new_field",
    "C88_count",
    "C88_set_name",
    "C88_library"
   ],
   "note": ""
  },
  {
   "property": "C89",
   "status": "proved",
   "theorems": [
    "C89_rename_undo",
    "C89_rename_again",
    "C89_rename_chain",
    "C89_rename_swap",
    "C89_rename_move",
    "C89_move_zero",
    "C89_move_back",
    "C89_move_back_refuted",
    "C89_move_near",
    "C89_setup_absorb",
    "C89_setup_swap",
    "C89_reference_undo",
    "C89_flip_reference",
    "C89_rotate_reference"
   ],
   "note": ""
  },
  {
   "property": "C90",
   "status": "proved",
   "theorems": [
    "C90_reference_absorb",
    "C90_name_absorb",
    "C90_reference_name",
    "C90_field_absorb",
    "C90_field_swap",
    "C90_field_undo",
    "C90_field_reference",
    "C90_field_name",
    "C90_component_swap",
    "C90_component_fuse",
    "C90_components_fuse",
    "C90_set_name_again",
    "C90_set_name_absorb_refuted"
   ],
   "note": ""
  },
  {
   "property": "C91",
   "status": "proved",
   "theorems": [
    "C91_text",
    "C91_poly",
    "C91_shapes",
    "C91_lost_end",
    "C91_pad",
    "C91_built",
    "C91_layers",
    "C91_schematic"
   ],
   "note": "Tree level, all choices of optional parts in the order the reader expects; C91_lost_end records the silently dropped end point."
  },
  {
   "property": "C92",
   "status": "proved",
   "theorems": [
    "C92_whole",
    "C92_stopped",
    "C92_bare",
    "C92_saved",
    "C92_saved_quiet_refuted",
    "C92_silent_refuted",
    "C92_kinds",
    "C92_module",
    "C92_identify",
    "C92_identify_other",
    "C92_dump",
    "C92_aborted_refuted"
   ],
   "note": "Exact standard output of the schematic reader and of the programs; the refuted ones record lines lost silently and reports printed before an abort."
  },
  {
   "property": "C93",
   "status": "proved",
   "theorems": [
    "C93_one_reading",
    "C93_expanded",
    "C93_missing",
    "C93_ends",
    "C93_succeeds",
    "C93_depends",
    "C93_plain",
    "C93_variable",
    "C93_home",
    "C93_again_refuted"
   ],
   "note": "shellexpand 1.0 is modelled from its documentation and published source, which are not in the sandbox: a trusted assumption."
  },
  {
   "property": "C94",
   "status": "proved",
   "theorems": [
    "C94_klc_kicad_mod",
    "C94_klc_symbol_lib",
    "C94_klc_aborts",
    "C94_one_list",
    "C94_dump_footprint",
    "C94_dump_layout",
    "C94_adjust_layout",
    "C94_moved_one",
    "C94_dump_aborts",
    "C94_identify",
    "C94_identify_aborts",
    "C94_reports",
    "C94_reports_one"
   ],
   "note": "Combines the meaning of texts (C77), the rule table (C79), the writer specification (C66), moving (C18) and the reports (C92) into whole-program statements."
  },
  {
   "property": "C95",
   "status": "proved",
   "theorems": [
    "C95_same",
    "C95_message",
    "C95_panic",
    "C95_read",
    "C95_one",
    "C95_complete",
    "C95_line_refuted"
   ],
   "note": "Exact error text of the schematic reader; the refuted one records that the text need not show the line."
  },
  {
   "property": "C96",
   "status": "proved",
   "theorems": [
    "C96_same",
    "C96_message",
    "C96_panic",
    "C96_read",
    "C96_one",
    "C96_complete"
   ],
   "note": "Exact error text of the symbol library reader."
  },
  {
   "property": "C97",
   "status": "proved",
   "theorems": [
    "C97_same",
    "C97_file",
    "C97_module",
    "C97_schematic",
    "C97_layout",
    "C97_library",
    "C97_project",
    "C97_table",
    "C97_one",
    "C97_worded",
    "C97_named_refuted"
   ],
   "note": "Exact error text of opening a file, for the errors made by this library; the texts of input/output errors and of errors about trees come from other crates."
  },
  {
   "property": "C98",
   "status": "proved",
   "theorems": [
    "C98_tree",
    "C98_module",
    "C98_layout",
    "C98_table",
    "C98_file",
    "C98_blank",
    "C98_saved_module",
    "C98_saved_layout",
    "C98_saved_table",
    "C98_library",
    "C98_schematic",
    "C98_schematic_lines",
    "C98_library_refuted",
    "C98_wire_refuted"
   ],
   "note": "The refuted ones record that cut libraries and schematics can go unnoticed."
  },
  {
   "property": "C99",
   "status": "proved",
   "theorems": [
    "C99_save",
    "C99_complete",
    "C99_module",
    "C99_layout",
    "C99_lost_refuted"
   ],
   "note": "The answers of the system are arbitrary; a part of a text ends between characters. The refuted one records that the earlier content can be lost."
  }
 ]
}