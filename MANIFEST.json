{
 "claims": [
  {
   "property": "C01",
   "status": "proved",
   "theorems": [
    "C01_constructor",
    "C01_constructed_wf"
   ],
   "note": ""
  },
  {
   "property": "C02",
   "status": "partial",
   "theorems": [
    "C02_constructor_range_refuted",
    "C02_constructor_upper_bound_partial",
    "C02_constructor_exact"
   ],
   "note": "REFUTED: negative initial values are accepted in every configuration (C02_constructor_range_refuted). The upper bound does hold. Exactly: a field is made if and only if width, numbering and order are valid and the value is at most 2^width - 1."
  },
  {
   "property": "C03",
   "status": "proved",
   "theorems": [
    "C03_bit_read",
    "C03_weight_is_layout"
   ],
   "note": ""
  },
  {
   "property": "C04",
   "status": "proved",
   "theorems": [
    "C04_bit_write",
    "C04_bit_write_invalid"
   ],
   "note": ""
  },
  {
   "property": "C05",
   "status": "proved",
   "theorems": [
    "C05_slice_read_msb_left"
   ],
   "note": ""
  },
  {
   "property": "C06",
   "status": "proved",
   "theorems": [
    "C06_slice_write_msb_left"
   ],
   "note": ""
  },
  {
   "property": "C07",
   "status": "partial",
   "theorems": [
    "C07_slice_lsb_left_edge_partial",
    "C07_slice_read_lsb_left_exact",
    "C07_slice_read_lsb_left_refuted",
    "C07_slice_write_lsb_left_refuted",
    "C07_slice_write_lsb_left_exact"
   ],
   "note": "REFUTED for every proper multi-bit range of an LSB-left field: the mask is shifted to the wrong end. Proved for one-bit and full-width ranges, with the exact wrong result for all others. The result of every accepted assignment to such a range is given bit by bit."
  },
  {
   "property": "C08",
   "status": "partial",
   "theorems": [
    "C08_oversize_rejected_partial",
    "C08_misfit_accepted_refuted",
    "C08_slice_exact",
    "C08_bit_exact"
   ],
   "note": "REFUTED: the check is value > 2^n, so 2^n and every negative number are accepted. Rejection of every value > 2^n is proved. The result of every accepted assignment is given bit by bit: a slice keeps all the bits of the number, also those beyond the slice."
  },
  {
   "property": "C09",
   "status": "proved",
   "theorems": [
    "C09_value_in_range"
   ],
   "note": ""
  },
  {
   "property": "C10",
   "status": "proved",
   "theorems": [
    "C10_rejected_no_effect"
   ],
   "note": ""
  },
  {
   "property": "C11",
   "status": "proved",
   "theorems": [
    "C11_set_clear"
   ],
   "note": ""
  },
  {
   "property": "C12",
   "status": "partial",
   "theorems": [
    "C12_set_clear_index0_refuted",
    "C12_index0_exact"
   ],
   "note": "REFUTED: set(0)/clear(0) act on the whole field in the 0-based schemes. Indices other than 0 are C11. Exactly: set(0) and clear(0) are set() and clear()."
  },
  {
   "property": "C13",
   "status": "proved",
   "theorems": [
    "C13_indices_lsb_msb"
   ],
   "note": ""
  },
  {
   "property": "C14",
   "status": "proved",
   "theorems": [
    "C14_isBit"
   ],
   "note": ""
  },
  {
   "property": "C15",
   "status": "partial",
   "theorems": [
    "C15_isRangeSet_partial",
    "C15_isRangeSet_refuted",
    "C15_isRangeSet_exact"
   ],
   "note": "REFUTED: on an MSB-left field isRangeSet is False for every range that does not end at the units bit. Proved for ranges ending there and for the full width. The exact condition is proved for every valid range of both bit orders."
  },
  {
   "property": "C16",
   "status": "partial",
   "theorems": [
    "C16_isRange_zero_partial",
    "C16_isRangeClr_refuted",
    "C16_isRange_exact"
   ],
   "note": "REFUTED: isRangeClr is the negation of isRangeSet, so it is True for mixed ranges. isRange(..,0) is right on MSB-left fields. The exact condition is proved for every valid range of both bit orders."
  },
  {
   "property": "C17",
   "status": "proved",
   "theorems": [
    "C17_geometry_immutable"
   ],
   "note": ""
  },
  {
   "property": "C18",
   "status": "proved",
   "theorems": [
    "C18_repr"
   ],
   "note": ""
  },
  {
   "property": "C19",
   "status": "proved",
   "theorems": [
    "C19_array_of_bits"
   ],
   "note": ""
  },
  {
   "property": "C20",
   "status": "proved",
   "theorems": [
    "C20_word_values"
   ],
   "note": ""
  },
  {
   "property": "C21",
   "status": "proved",
   "theorems": [
    "C21_instruction_word_packing",
    "C21_value_digits"
   ],
   "note": ""
  },
  {
   "property": "C22",
   "status": "proved",
   "theorems": [
    "C22_fields_independent"
   ],
   "note": ""
  },
  {
   "property": "C23",
   "status": "partial",
   "theorems": [
    "C23_set_exact",
    "C23_misfit_rejected_refuted",
    "C23_oversize_rejected_partial"
   ],
   "note": "REFUTED: the field check is value > 2^12, so 4096 and every negative number are accepted; a=4096 sets the low bit of the command field and the command setter can make the value 2^48. Rejection of every value > 4096 is proved. The value after every accepted assignment is given bit by bit."
  },
  {
   "property": "C24",
   "status": "proved",
   "theorems": [
    "C24_rejected_write_unobservable"
   ],
   "note": ""
  },
  {
   "property": "C25",
   "status": "proved",
   "theorems": [
    "C25_bank_is_array",
    "C25_width"
   ],
   "note": ""
  },
  {
   "property": "C26",
   "status": "proved",
   "theorems": [
    "C26_bad_addresses_values"
   ],
   "note": ""
  },
  {
   "property": "C27",
   "status": "proved",
   "theorems": [
    "C27_slices"
   ],
   "note": ""
  },
  {
   "property": "C28",
   "status": "partial",
   "theorems": [
    "C28_failing_slice_refuted",
    "C28_failing_slice_partial"
   ],
   "note": "REFUTED: a slice that starts in the bank and ends beyond it writes every cell up to 2047 before KeyError. Every other failing slice assignment is proved to have no effect."
  },
  {
   "property": "C29",
   "status": "partial",
   "theorems": [
    "C29_loop_exact",
    "C29_first_loop_partial",
    "C29_later_loops_refuted"
   ],
   "note": "REFUTED: the cursor is never reset, so every loop after the first complete one visits nothing. The first loop is proved to visit all 2048 words in order. After any history a loop visits exactly the words that the next() calls in it have not passed."
  },
  {
   "property": "C30",
   "status": "proved",
   "theorems": [
    "C30_modules",
    "C30_classes",
    "C30_slices",
    "C30_open_slice"
   ],
   "note": ""
  },
  {
   "property": "C31",
   "status": "partial",
   "theorems": [
    "C31_value_property_refuted",
    "C31_functions_refuted"
   ],
   "note": "REFUTED: the property functions take extra positional arguments, so reading and assigning always raise TypeError. Called directly with an address (and a value) they raise TypeError too, or ValueError if one is out of range, as a Word supports neither int() nor item assignment."
  },
  {
   "property": "C32",
   "status": "proved",
   "theorems": [
    "C32_names"
   ],
   "note": ""
  },
  {
   "property": "C33",
   "status": "proved",
   "theorems": [
    "C33_constructor",
    "C33_value_setter"
   ],
   "note": ""
  },
  {
   "property": "C34",
   "status": "proved",
   "theorems": [
    "C34_register_bits"
   ],
   "note": ""
  },
  {
   "property": "C35",
   "status": "proved",
   "theorems": [
    "C35_lookup"
   ],
   "note": ""
  },
  {
   "property": "C36",
   "status": "partial",
   "theorems": [
    "C36_alias_lookup_refuted",
    "C36_register_names_partial"
   ],
   "note": "REFUTED: a group rejects every alias (RAC, DRAC, WAC, DWAC) with ValueError, although registerNumber resolves them. Lookup by the 32 register names is proved."
  },
  {
   "property": "C37",
   "status": "partial",
   "theorems": [
    "C37_assignment_refuted"
   ],
   "note": "REFUTED for every key: a string key is stored beside the registers (length 33) and no lookup returns the new register; an int key raises KeyError. Nothing positive is left to prove."
  },
  {
   "property": "C38",
   "status": "partial",
   "theorems": [
    "C38_clear_exact",
    "C38_first_clear_partial",
    "C38_second_clear_refuted"
   ],
   "note": "REFUTED: clear() iterates over the one-shot cursor, so a second clear() changes nothing. The first clear() of a group or register file whose cursors have not moved is proved to zero everything (and a group clear only that group). After any history clear() zeroes exactly the registers at or after the places reached by earlier iteration and clearing, and no other."
  },
  {
   "property": "C39",
   "status": "proved",
   "theorems": [
    "C39_independent_cells",
    "C39_bad_width"
   ],
   "note": ""
  },
  {
   "property": "C40",
   "status": "partial",
   "theorems": [
    "C40_loop_exact",
    "C40_first_loop_partial",
    "C40_second_loop_refuted"
   ],
   "note": "REFUTED: cursors are never reset, so every loop after the first complete one visits nothing. The first loop is proved to visit every element in order. After any history a loop visits exactly the elements at or after the place reached, in order."
  },
  {
   "property": "C41",
   "status": "partial",
   "theorems": [
    "C41_any_int_accepted_refuted",
    "C41_valid_keys_partial"
   ],
   "note": "REFUTED: every integer key is accepted; regs[8]=g makes len 9 and regs[8] still raises. Keys 0..7 and non-integer keys are proved right."
  },
  {
   "property": "C42",
   "status": "proved",
   "theorems": [
    "C42_masked_encoding"
   ],
   "note": ""
  },
  {
   "property": "C43",
   "status": "proved",
   "theorems": [
    "C43_unmasked_encoding"
   ],
   "note": ""
  },
  {
   "property": "C44",
   "status": "proved",
   "theorems": [
    "C44_peripheral_encoding",
    "C44_print_encoding",
    "C44_simulator_encoding",
    "C44_no_opcode"
   ],
   "note": ""
  },
  {
   "property": "C45",
   "status": "proved",
   "theorems": [
    "C45_fields_read_back",
    "C45_data_slices"
   ],
   "note": ""
  },
  {
   "property": "C46",
   "status": "proved",
   "theorems": [
    "C46_argument_checks"
   ],
   "note": ""
  },
  {
   "property": "C47",
   "status": "partial",
   "theorems": [
    "C47_paddr_everywhere_refuted",
    "C47_classes_reject_paddr_partial"
   ],
   "note": "REFUTED: Instruction(opcode, paddr=p) and Peripheral(opcode, p) accept every opcode of the table for all p in 0..63. Proved: the named non-peripheral classes take no paddr argument (TypeError)."
  },
  {
   "property": "C48",
   "status": "partial",
   "theorems": [
    "C48_same_code_refuted",
    "C48_distinct_codes_partial"
   ],
   "note": "REFUTED: NotEqualAlphabetic (unmasked) and FloatingNotEqualNormalized have the same code for all operand bits. Every other pair of different mnemonics (and masked NA against FNN) is proved distinct."
  },
  {
   "property": "C49",
   "status": "proved",
   "theorems": [
    "C49_injective_masked",
    "C49_injective_unmasked",
    "C49_injective_peripheral"
   ],
   "note": ""
  },
  {
   "property": "C50",
   "status": "proved",
   "theorems": [
    "C50_tables_disjoint",
    "C50_opcode_fields"
   ],
   "note": ""
  },
  {
   "property": "C51",
   "status": "partial",
   "theorems": [
    "C51_class_name_refuted",
    "C51_class_names_partial"
   ],
   "note": "REFUTED for TS: its c field is TransferAndChangeSequence, no such class exists (the class is TransferChangeSequence). Proved for the other 63 opcodes."
  },
  {
   "property": "C52",
   "status": "proved",
   "theorems": [
    "C52_listing_sound_complete_sorted",
    "C52_listing_is_opcodes_txt"
   ],
   "note": ""
  },
  {
   "property": "C53",
   "status": "partial",
   "theorems": [
    "C53_controls_refuted"
   ],
   "note": "REFUTED: PseudoInstruction passes keyword arguments Instruction.__init__ does not have, so every construction raises TypeError. Nothing positive is left to prove."
  },
  {
   "property": "C54",
   "status": "proved",
   "theorems": [
    "C54_constants"
   ],
   "note": ""
  },
  {
   "property": "C55",
   "status": "proved",
   "theorems": [
    "C55_word_decodes"
   ],
   "note": ""
  },
  {
   "property": "C96",
   "status": "proved",
   "theorems": [
    "C96_masked_diagram",
    "C96_unmasked_diagram",
    "C96_other_diagrams"
   ],
   "note": ""
  },
  {
   "property": "C56",
   "status": "proved",
   "theorems": [
    "C56_fields",
    "C56_fields_names"
   ],
   "note": ""
  },
  {
   "property": "C57",
   "status": "proved",
   "theorems": [
    "C57_record"
   ],
   "note": ""
  },
  {
   "property": "C58",
   "status": "proved",
   "theorems": [
    "C58_newline"
   ],
   "note": ""
  },
  {
   "property": "C59",
   "status": "proved",
   "theorems": [
    "C59_comment",
    "C59_not_comment"
   ],
   "note": ""
  },
  {
   "property": "C60",
   "status": "partial",
   "theorems": [
    "C60_remarks_refuted",
    "C60_remarks_partial"
   ],
   "note": "REFUTED: the remark is taken from column 10 (line[9:]), so every remark card with a non-blank column 9 loses its first character. Proved: remarks is the trimmed text from column 10, which is the whole remark when column 9 is blank or absent."
  },
  {
   "property": "C61",
   "status": "proved",
   "theorems": [
    "C61_remark_card",
    "C61_other_card"
   ],
   "note": ""
  },
  {
   "property": "C62",
   "status": "proved",
   "theorems": [
    "C62_instruction"
   ],
   "note": ""
  },
  {
   "property": "C63",
   "status": "proved",
   "theorems": [
    "C63_deck_lines",
    "C63_deck_exists"
   ],
   "note": ""
  },
  {
   "property": "C64",
   "status": "proved",
   "theorems": [
    "C64_deck_file",
    "C64_deck_file_complete",
    "C64_ranked"
   ],
   "note": ""
  },
  {
   "property": "C65",
   "status": "partial",
   "theorems": [
    "C65_terminates_refuted",
    "C65_acyclic_partial",
    "C65_exact"
   ],
   "note": "REFUTED: include files that include each other are read without end (RecursionError whatever the stack limit). Proved: with an acyclic include structure reading ends for every file system, with or without missing files. Among finitely many files the reading is without end exactly if the file is in a set of files that include each other."
  },
  {
   "property": "C66",
   "status": "proved",
   "theorems": [
    "C66_missing",
    "C66_no_input"
   ],
   "note": ""
  },
  {
   "property": "C67",
   "status": "proved",
   "theorems": [
    "C67_file_vs_lines"
   ],
   "note": ""
  },
  {
   "property": "C68",
   "status": "proved",
   "theorems": [
    "C68_log_section",
    "C68_log_section_total"
   ],
   "note": ""
  },
  {
   "property": "C69",
   "status": "proved",
   "theorems": [
    "C69_deck_str",
    "C69_deck_str_file"
   ],
   "note": ""
  },
  {
   "property": "C70",
   "status": "proved",
   "theorems": [
    "C70_lookup",
    "C70_count"
   ],
   "note": ""
  },
  {
   "property": "C71",
   "status": "proved",
   "theorems": [
    "C71_undefines",
    "C71_undefines_In"
   ],
   "note": ""
  },
  {
   "property": "C72",
   "status": "partial",
   "theorems": [
    "C72_update_refuted"
   ],
   "note": "REFUTED: every call with a non-empty name ends in AttributeError and leaves the table unchanged (a missing attribute for unknown names, a property without setter for known ones); nothing positive is left."
  },
  {
   "property": "C73",
   "status": "proved",
   "theorems": [
    "C73_resolve",
    "C73_resolve_reachable"
   ],
   "note": ""
  },
  {
   "property": "C74",
   "status": "partial",
   "theorems": [
    "C74_prune_exact",
    "C74_prune_refuted",
    "C74_prune_partial"
   ],
   "note": "REFUTED: the loop deletes from the list it enumerates, so of two neighbours with values the second survives. Proved: it never removes a symbol without a value, and removes all symbols with values when no two neighbours have one. Exactly: of each run of neighbours with values the first, third, fifth and so on are removed."
  },
  {
   "property": "C75",
   "status": "proved",
   "theorems": [
    "C75_kinds"
   ],
   "note": ""
  },
  {
   "property": "C76",
   "status": "proved",
   "theorems": [
    "C76_recorded",
    "C76_plain"
   ],
   "note": ""
  },
  {
   "property": "C77",
   "status": "proved",
   "theorems": [
    "C77_errors"
   ],
   "note": ""
  },
  {
   "property": "C78",
   "status": "partial",
   "theorems": [
    "C78_exact",
    "C78_multiple_refuted"
   ],
   "note": "REFUTED: outside segments called simple or complex the count is exactly the number of ill-formed labels, so multiple definitions are never counted (with a two-card deck as witness). The exact count is proved for all files: ill-formed labels, and cards that define a symbol again when it is also in a segment with the name of the kind of definition."
  },
  {
   "property": "C79",
   "status": "proved",
   "theorems": [
    "C79_frame"
   ],
   "note": ""
  },
  {
   "property": "C80",
   "status": "proved",
   "theorems": [
    "C80_subsegment",
    "C80_unique"
   ],
   "note": ""
  },
  {
   "property": "C81",
   "status": "proved",
   "theorems": [
    "C81_complex_only"
   ],
   "note": ""
  },
  {
   "property": "C82",
   "status": "partial",
   "theorems": [
    "C82_absolute_refuted",
    "C82_absolute_partial"
   ],
   "note": "REFUTED: the flag that stops the search is never reset, so after the first hit only the least segment of each symbol is examined. Proved: an exact characterisation of what is listed, in ascending order without duplicates."
  },
  {
   "property": "C83",
   "status": "proved",
   "theorems": [
    "C83_exact",
    "C83_begin_end",
    "C83_fuzzy"
   ],
   "note": ""
  },
  {
   "property": "C84",
   "status": "partial",
   "theorems": [
    "C84_exact",
    "C84_build_refuted",
    "C84_build_partial"
   ],
   "note": "REFUTED: for a file called simple.* a redefinition by EQUALS raises KeyError. Proved: it returns for every readable deck when neither the segment nor a segment of the table is called simple or complex. Exactly: it fails at the first EQUALS card whose symbol is in its segment and subsegment already and also in a segment called simple, with KeyError, or AttributeError if it is in a subsegment called card there."
  },
  {
   "property": "C97",
   "status": "proved",
   "theorems": [
    "C97_print"
   ],
   "note": ""
  },
  {
   "property": "C85",
   "status": "proved",
   "theorems": [
    "C85_genlines"
   ],
   "note": ""
  },
  {
   "property": "C86",
   "status": "partial",
   "theorems": [
    "C86_beyond_refuted",
    "C86_beyond_partial"
   ],
   "note": "REFUTED: whenever step does not divide end - start a number beyond end is printed. Proved: when it divides, exactly start, start+step, ..., end are printed."
  },
  {
   "property": "C87",
   "status": "proved",
   "theorems": [
    "C87_accounts",
    "C87_invalid_option",
    "C87_total"
   ],
   "note": ""
  },
  {
   "property": "C88",
   "status": "proved",
   "theorems": [
    "C88_list",
    "C88_unknown"
   ],
   "note": ""
  },
  {
   "property": "C89",
   "status": "partial",
   "theorems": [
    "C89_total_partial",
    "C89_total_refuted"
   ],
   "note": "REFUTED: the count of each file overwrites that of the previous one, so only the symbol errors of the last file are in the total (any ill-formed label in an earlier file makes it too small). Proved: total = symbol errors of the last file + invalid instructions of all files."
  },
  {
   "property": "C90",
   "status": "partial",
   "theorems": [
    "C90_one_partial",
    "C90_distinct_partial",
    "C90_distinct_refuted",
    "C90_all_partial"
   ],
   "note": "REFUTED: names that differ only in the extension share one listing, all names without a dot share '.lst', and p.lst overwrites its own source. Proved: one line per card in order for every readable source, nothing else written, and for several sources with one common extension other than lst (and no listing included anywhere) each gets its own complete listing."
  },
  {
   "property": "C91",
   "status": "proved",
   "theorems": [
    "C91_genpages",
    "C91_genpages_only",
    "C91_failures",
    "C91_malformed"
   ],
   "note": ""
  },
  {
   "property": "C92",
   "status": "proved",
   "theorems": [
    "C92_charset",
    "C92_table"
   ],
   "note": ""
  },
  {
   "property": "C93",
   "status": "proved",
   "theorems": [
    "C93_save",
    "C93_restore",
    "C93_reset"
   ],
   "note": ""
  },
  {
   "property": "C94",
   "status": "partial",
   "theorems": [
    "C94_new_refuted"
   ],
   "note": "REFUTED: SymbolTable is not defined in the module, so construction always raises (NameError when options has verbose and debug). Nothing positive is left."
  },
  {
   "property": "C95",
   "status": "partial",
   "theorems": [
    "C95_resolve_refuted",
    "C95_bound_partial",
    "C95_first_partial",
    "C95_success_refuted",
    "C95_stuck_partial",
    "C95_effect_partial",
    "C95_errors_partial",
    "C95_unfit_partial",
    "C95_stopped_partial"
   ],
   "note": "REFUTED: nothing in the class sets context, so resolve raises AttributeError on every assembler the class can make; with a context and records supplied from outside every parseable record is replaced by the current record, so a second pass reports success although an incomplete record was there. Proved for supplied context and records: at most min(3, maxPasses) passes, success in the first pass exactly when no parseable record is incomplete, failure only when one is, the pass number and error count it leaves, nothing else changed, and the exception for record lists that do not fit."
  },
  {
   "property": "C98",
   "status": "partial",
   "theorems": [
    "C98_reread_refuted",
    "C98_reread_partial"
   ],
   "note": "REFUTED: a section card with a blank column 8 is written with the text None in columns 8-11, so the next reader sees column 8 = N. Proved: the card reads back unchanged when column 8 is not blank."
  },
  {
   "property": "C99",
   "status": "partial",
   "theorems": [
    "C99_count_refuted",
    "C99_count_partial"
   ],
   "note": "REFUTED: a deck without instruction cards ends in ZeroDivisionError. Proved: the whole report for every deck with at least one instruction card. Percentages are an arbitrary function here; C137 has their values."
  },
  {
   "property": "C100",
   "status": "proved",
   "theorems": [
    "C100_total"
   ],
   "note": ""
  },
  {
   "property": "C101",
   "status": "partial",
   "theorems": [
    "C101_default_refuted",
    "C101_match_partial"
   ],
   "note": "REFUTED: without options the match is exact, so a text that is only a proper part of defined symbols is never found, and --exact changes nothing. Proved: the exact match, --begin, --end and the refused combinations (--fuzzy is delegated to the external package and only modelled as an arbitrary function)."
  },
  {
   "property": "C102",
   "status": "proved",
   "theorems": [
    "C102_list"
   ],
   "note": ""
  },
  {
   "property": "C103",
   "status": "partial",
   "theorems": [
    "C103_save_refuted",
    "C103_reset_refuted",
    "C103_save_partial"
   ],
   "note": "REFUTED: coloc is set only by load, so save raises AttributeError on every other context (also after reset), with the record half overwritten. Proved: save succeeds exactly when the nine attributes exist."
  },
  {
   "property": "C104",
   "status": "partial",
   "theorems": [
    "C104_set_refuted",
    "C104_set_partial",
    "C104_when_partial"
   ],
   "note": "REFUTED: memmap is never set by the class, so both raise AttributeError and change nothing. Proved when a caller adds memmap and log, with the exact conditions under which the methods return and that a failing call changes nothing."
  },
  {
   "property": "C105",
   "status": "partial",
   "theorems": [
    "C105_snapshot_refuted",
    "C105_snapshot_partial"
   ],
   "note": "REFUTED: the code list is shared, so appending to context.code changes the saved record. Proved: reset after save does not (it makes a new list)."
  },
  {
   "property": "C106",
   "status": "proved",
   "theorems": [
    "C106_create"
   ],
   "note": ""
  },
  {
   "property": "C107",
   "status": "proved",
   "theorems": [
    "C107_assemble"
   ],
   "note": ""
  },
  {
   "property": "C108",
   "status": "partial",
   "theorems": [
    "C108_list_refuted",
    "C108_for_partial",
    "C108_in_partial",
    "C108_reversed_partial"
   ],
   "note": "REFUTED: the classes have __getitem__ but no __iter__, and an index beyond the end raises ValueError instead of IndexError, so list(field) always raises ValueError (as does list(register)). Proved: the loop body sees all bits in order before the exception when bits are numbered from 0, and nothing at all when they are numbered from 1; 'x in field' answers True when such a bit is found and raises otherwise; reversed works exactly for numbering from 0."
  },
  {
   "property": "C109",
   "status": "proved",
   "theorems": [
    "C109_text_determined",
    "C109_value_determined",
    "C109_register_repr",
    "C109_bank_repr",
    "C109_file_repr"
   ],
   "note": ""
  },
  {
   "property": "C110",
   "status": "partial",
   "theorems": [
    "C110_truth_refuted",
    "C110_len_int_partial"
   ],
   "note": "REFUTED: bool(field) is computed from len, so every field of positive width is true, also with value 0. Proved: len, int and index."
  },
  {
   "property": "C111",
   "status": "partial",
   "theorems": [
    "C111_module_list_refuted",
    "C111_module_for_partial",
    "C111_in_bank_refuted",
    "C111_bank_partial",
    "C111_group_reversed_partial"
   ],
   "note": "REFUTED: iterating a module ends in KeyError after the last bank; 'v in bank' is False for every int (it compares Word objects) and exhausts the bank's iterator. Proved: the banks seen before the exception, membership of Word objects, and reversed for modules, banks and groups."
  },
  {
   "property": "C112",
   "status": "proved",
   "theorems": [
    "C112_messages",
    "C112_one_reason",
    "C112_count"
   ],
   "note": ""
  },
  {
   "property": "C113",
   "status": "partial",
   "theorems": [
    "C113_create_partial",
    "C113_unchanged_refuted",
    "C113_left_partial",
    "C113_exact"
   ],
   "note": "REFUTED: the table is modified in place; in a file called simple.* a DEC and an EQUALS card for the same symbol raise KeyError and leave the first definition in the caller's table. Proved: the table (and the assembler) is unchanged when the file cannot be read; a failure after that only happens at an EQUALS card when a segment is called simple or complex, and then only definitions made by the cards before it differ; for a table built from files the table left holds exactly the definitions in force (C194) just before the refused EQUALS."
  },
  {
   "property": "C114",
   "status": "proved",
   "theorems": [
    "C114_report",
    "C114_usage",
    "C114_failed"
   ],
   "note": ""
  },
  {
   "property": "C115",
   "status": "partial",
   "theorems": [
    "C115_str_refuted",
    "C115_error_partial",
    "C115_kinds_partial"
   ],
   "note": "REFUTED: RecordType is not defined in the module, so str(context) never returns. Proved: it raises NameError exactly when the attributes used before that exist and the line numbers are integers."
  },
  {
   "property": "C116",
   "status": "partial",
   "theorems": [
    "C116_silent_refuted",
    "C116_exact_partial",
    "C116_usage_partial"
   ],
   "note": "REFUTED: with --begin nothing is printed when no symbol matches. Proved for the exact match: either the definitions are printed or the error line."
  },
  {
   "property": "C117",
   "status": "proved",
   "theorems": [
    "C117_deck",
    "C117_check_instructions",
    "C117_list_instructions",
    "C117_parse",
    "C117_symbols",
    "C117_listing"
   ],
   "note": ""
  },
  {
   "property": "C118",
   "status": "proved",
   "theorems": [
    "C118_missing",
    "C118_only",
    "C118_named"
   ],
   "note": ""
  },
  {
   "property": "C119",
   "status": "proved",
   "theorems": [
    "C119_progress",
    "C119_lines",
    "C119_no_input"
   ],
   "note": ""
  },
  {
   "property": "C120",
   "status": "proved",
   "theorems": [
    "C120_transcript",
    "C120_missing"
   ],
   "note": ""
  },
  {
   "property": "C121",
   "status": "proved",
   "theorems": [
    "C121_transcript",
    "C121_count",
    "C121_no_instructions",
    "C121_only_unused",
    "C121_missing"
   ],
   "note": ""
  },
  {
   "property": "C122",
   "status": "partial",
   "theorems": [
    "C122_silent_refuted",
    "C122_failed_partial",
    "C122_unbound_partial"
   ],
   "note": "REFUTED: Instruction.__init__ prints a debugging line (opcode, sequence, mask, a, b, c, paddr) on stdout for every object made. Proved: the exact line, that it is also printed when the arguments are rejected with ValueError, and that nothing is printed exactly when the call itself is wrong (TypeError, NameError)."
  },
  {
   "property": "C123",
   "status": "proved",
   "theorems": [
    "C123_understood",
    "C123_help",
    "C123_usage"
   ],
   "note": ""
  },
  {
   "property": "C124",
   "status": "proved",
   "theorems": [
    "C124_position",
    "C124_arguments"
   ],
   "note": ""
  },
  {
   "property": "C125",
   "status": "proved",
   "theorems": [
    "C125_check_instructions",
    "C125_symbol_tools",
    "C125_other_tools"
   ],
   "note": ""
  },
  {
   "property": "C126",
   "status": "partial",
   "theorems": [
    "C126_countdown_refuted",
    "C126_countdown_partial",
    "C126_zero_partial"
   ],
   "note": "REFUTED: a third word such as -5 is taken for an option letter, so counting down is always a usage error. Proved: with -- in front of the numbers it prints START, START-STEP, ... down to END (or the last number above END-STEP), and step 0 raises ValueError."
  },
  {
   "property": "C127",
   "status": "proved",
   "theorems": [
    "C127_append",
    "C127_refused"
   ],
   "note": ""
  },
  {
   "property": "C128",
   "status": "proved",
   "theorems": [
    "C128_int",
    "C128_rejected"
   ],
   "note": ""
  },
  {
   "property": "C129",
   "status": "proved",
   "theorems": [
    "C129_genlines",
    "C129_rejected"
   ],
   "note": ""
  },
  {
   "property": "C130",
   "status": "proved",
   "theorems": [
    "C130_no_files",
    "C130_find",
    "C130_opcode"
   ],
   "note": ""
  },
  {
   "property": "C131",
   "status": "proved",
   "theorems": [
    "C131_list_instructions",
    "C131_check_instructions",
    "C131_symbols",
    "C131_list_symbols",
    "C131_parse",
    "C131_listing"
   ],
   "note": ""
  },
  {
   "property": "C132",
   "status": "proved",
   "theorems": [
    "C132_prune",
    "C132_resolve",
    "C132_history",
    "C132_unique"
   ],
   "note": ""
  },
  {
   "property": "C133",
   "status": "proved",
   "theorems": [
    "C133_file_wins",
    "C133_empty_name"
   ],
   "note": ""
  },
  {
   "property": "C134",
   "status": "partial",
   "theorems": [
    "C134_again_refuted",
    "C134_again_partial"
   ],
   "note": "REFUTED: every further run succeeds and appends one more section card with all the page headings; the n-th file is characterised exactly. Proved: all runs append the same text as the first when the source has a section card, or when the name taken from the '# Filename:' line has no outer blanks and at most 73 characters."
  },
  {
   "property": "C135",
   "status": "proved",
   "theorems": [
    "C135_blocks",
    "C135_dumps",
    "C135_multiple"
   ],
   "note": ""
  },
  {
   "property": "C136",
   "status": "proved",
   "theorems": [
    "C136_forms"
   ],
   "note": ""
  },
  {
   "property": "C137",
   "status": "proved",
   "theorems": [
    "C137_rate",
    "C137_order",
    "C137_ends",
    "C137_report"
   ],
   "note": ""
  },
  {
   "property": "C138",
   "status": "proved",
   "theorems": [
    "C138_transcript",
    "C138_missing",
    "C138_unknown",
    "C138_determined"
   ],
   "note": ""
  },
  {
   "property": "C139",
   "status": "proved",
   "theorems": [
    "C139_transcript",
    "C139_missing",
    "C139_runs"
   ],
   "note": ""
  },
  {
   "property": "C140",
   "status": "proved",
   "theorems": [
    "C140_check",
    "C140_find",
    "C140_list",
    "C140_missing"
   ],
   "note": ""
  },
  {
   "property": "C141",
   "status": "proved",
   "theorems": [
    "C141_definitions",
    "C141_determined",
    "C141_names",
    "C141_fuzzy"
   ],
   "note": ""
  },
  {
   "property": "C142",
   "status": "proved",
   "theorems": [
    "C142_refused",
    "C142_help",
    "C142_starts",
    "C142_only"
   ],
   "note": ""
  },
  {
   "property": "C143",
   "status": "partial",
   "theorems": [
    "C143_success_partial",
    "C143_unreadable_partial",
    "C143_instructions_refuted",
    "C143_symbols_refuted",
    "C143_listing_partial"
   ],
   "note": "REFUTED: the main functions return nothing, so check-instructions and check-symbols end with status 0 whatever number of errors they report. Proved: status 0 whenever every source can be read (with --count if there is an instruction card), status 1 or the traceback of the exception when one cannot, for listing what each status means for the listings written."
  },
  {
   "property": "C144",
   "status": "proved",
   "theorems": [
    "C144_lines",
    "C144_tools",
    "C144_pages"
   ],
   "note": ""
  },
  {
   "property": "C145",
   "status": "proved",
   "theorems": [
    "C145_read",
    "C145_write",
    "C145_range_test",
    "C145_range_value",
    "C145_registers"
   ],
   "note": ""
  },
  {
   "property": "C146",
   "status": "proved",
   "theorems": [
    "C146_order"
   ],
   "note": ""
  },
  {
   "property": "C147",
   "status": "proved",
   "theorems": [
    "C147_faults",
    "C147_count"
   ],
   "note": ""
  },
  {
   "property": "C148",
   "status": "proved",
   "theorems": [
    "C148_found"
   ],
   "note": ""
  },
  {
   "property": "C149",
   "status": "proved",
   "theorems": [
    "C149_listing"
   ],
   "note": ""
  },
  {
   "property": "C150",
   "status": "proved",
   "theorems": [
    "C150_table"
   ],
   "note": ""
  },
  {
   "property": "C151",
   "status": "proved",
   "theorems": [
    "C151_parse"
   ],
   "note": ""
  },
  {
   "property": "C152",
   "status": "proved",
   "theorems": [
    "C152_code",
    "C152_remark",
    "C152_others"
   ],
   "note": ""
  },
  {
   "property": "C153",
   "status": "partial",
   "theorems": [
    "C153_bank_refuted",
    "C153_field_refuted",
    "C153_register_refuted",
    "C153_module_refuted",
    "C153_refused_partial",
    "C153_step_one_partial"
   ],
   "note": "REFUTED: the step is never looked at: a bank slice with a step of 2 or more reads and overwrites every cell in between, a slice of a module contains every bank in between, and a slice of a field or a register reads and writes the whole range whatever the step. Proved: register groups and the register file refuse every slice with ValueError and change nothing; a step of 1 selects the same positions as none."
  },
  {
   "property": "C154",
   "status": "proved",
   "theorems": [
    "C154_list",
    "C154_check",
    "C154_find",
    "C154_names"
   ],
   "note": ""
  },
  {
   "property": "C155",
   "status": "proved",
   "theorems": [
    "C155_genlines",
    "C155_numbers",
    "C155_genpages"
   ],
   "note": ""
  },
  {
   "property": "C156",
   "status": "proved",
   "theorems": [
    "C156_source",
    "C156_found",
    "C156_faults",
    "C156_symbols",
    "C156_check"
   ],
   "note": ""
  },
  {
   "property": "C157",
   "status": "proved",
   "theorems": [
    "C157_key",
    "C157_list",
    "C157_symbols",
    "C157_names",
    "C157_parse",
    "C157_found",
    "C157_errors",
    "C157_count"
   ],
   "note": ""
  },
  {
   "property": "C158",
   "status": "proved",
   "theorems": [
    "C158_case",
    "C158_table",
    "C158_parse"
   ],
   "note": ""
  },
  {
   "property": "C159",
   "status": "proved",
   "theorems": [
    "C159_literal",
    "C159_ordinary",
    "C159_apart",
    "C159_blocks",
    "C159_list"
   ],
   "note": ""
  },
  {
   "property": "C160",
   "status": "proved",
   "theorems": [
    "C160_determined",
    "C160_columns"
   ],
   "note": ""
  },
  {
   "property": "C161",
   "status": "proved",
   "theorems": [
    "C161_parse",
    "C161_check",
    "C161_count",
    "C161_none",
    "C161_search",
    "C161_list",
    "C161_symbols",
    "C161_answer",
    "C161_names",
    "C161_fuzzy",
    "C161_determined"
   ],
   "note": ""
  },
  {
   "property": "C162",
   "status": "proved",
   "theorems": [
    "C162_told",
    "C162_stops",
    "C162_one",
    "C162_exclusive",
    "C162_listing",
    "C162_lists"
   ],
   "note": ""
  },
  {
   "property": "C163",
   "status": "partial",
   "theorems": [
    "C163_only_partial",
    "C163_blame_refuted",
    "C163_times_refuted"
   ],
   "note": "REFUTED: the first pass replaces every parseable record by the context's current record, so the errors all go to that record, once for every parseable record, complete or not; an incomplete record other than the current one is never told. Proved: the blamed record is incomplete, is the current one, gets the message 'undefined symbol', and errors are reported only after two passes and when a record was incomplete."
  },
  {
   "property": "C164",
   "status": "proved",
   "theorems": [
    "C164_resolve",
    "C164_alone",
    "C164_create",
    "C164_unread",
    "C164_assemble",
    "C164_parse"
   ],
   "note": ""
  },
  {
   "property": "C165",
   "status": "proved",
   "theorems": [
    "C165_list",
    "C165_check",
    "C165_names",
    "C165_fuzzy"
   ],
   "note": ""
  },
  {
   "property": "C166",
   "status": "proved",
   "theorems": [
    "C166_cells",
    "C166_frame",
    "C166_groups"
   ],
   "note": ""
  },
  {
   "property": "C167",
   "status": "partial",
   "theorems": [
    "C167_any_refuted",
    "C167_fits_partial"
   ],
   "note": "REFUTED: a word's field is a public attribute and its value setter accepts every negative number and 2**48, so any number up to 2**48 can be put into any cell and is then read from the bank. Proved: if what is assigned through fields fits its place, every cell reads a number from 0 to 2**48 - 1."
  },
  {
   "property": "C168",
   "status": "partial",
   "theorems": [
    "C168_whole_partial",
    "C168_accepted_refuted",
    "C168_no_bits_partial",
    "C168_history_partial"
   ],
   "note": "REFUTED: with a negative width every negative value is accepted. Proved of such a field: it has no bits, every index, range and assignment of value raises and changes nothing, len, bool and repr raise, and only set() and clear() (also with index 0) change it, set() to a float."
  },
  {
   "property": "C169",
   "status": "proved",
   "theorems": [
    "C169_names",
    "C169_answer",
    "C169_complex",
    "C169_errors",
    "C169_any_names",
    "C169_any_answer",
    "C169_any_complex",
    "C169_any_errors"
   ],
   "note": ""
  },
  {
   "property": "C170",
   "status": "partial",
   "theorems": [
    "C170_counts_partial",
    "C170_counts_refuted",
    "C170_counts_exact"
   ],
   "note": "REFUTED: list-instructions takes the blanks out of the operation, check-instructions does not, so a card with the operation D A is found as DA but counted as an error and not as DA. Proved: the numbers agree whenever no operation has white space before its first comma. Exactly: the numbers differ by the cards of the mnemonic written with blanks, less those written with other white space."
  },
  {
   "property": "C171",
   "status": "partial",
   "theorems": [
    "C171_all_refuted",
    "C171_find_partial",
    "C171_check_partial"
   ],
   "note": "REFUTED: getAbsoluteSymbols never resets the flag that stops the search, so after the first hit a symbol whose least segment has only a complex definition is left out of the choices of both tools. Proved: with files of one segment the choices are exactly the symbols with a simple definition; C161 gives the exact choices in general."
  },
  {
   "property": "C172",
   "status": "proved",
   "theorems": [
    "C172_check",
    "C172_found",
    "C172_symbols",
    "C172_names",
    "C172_fuzzy",
    "C172_list",
    "C172_parse",
    "C172_answer"
   ],
   "note": ""
  },
  {
   "property": "C173",
   "status": "proved",
   "theorems": [
    "C173_found",
    "C173_check",
    "C173_count",
    "C173_list",
    "C173_names",
    "C173_symbols"
   ],
   "note": ""
  },
  {
   "property": "C174",
   "status": "proved",
   "theorems": [
    "C174_operation_code",
    "C174_number_of_bits"
   ],
   "note": ""
  },
  {
   "property": "C175",
   "status": "partial",
   "theorems": [
    "C175_asterisk_refuted",
    "C175_characters_partial"
   ],
   "note": "REFUTED: code 54 (octal) has no character in CHARSET, Table I gives it the asterisk, and no other code gives an asterisk. Proved: every other character has exactly the codes of Table I."
  },
  {
   "property": "C176",
   "status": "proved",
   "theorems": [
    "C176_mask"
   ],
   "note": ""
  },
  {
   "property": "C177",
   "status": "partial",
   "theorems": [
    "C177_tags_partial",
    "C177_links_refuted",
    "C177_illegal_refuted"
   ],
   "note": "REFUTED: every link tag and out-of-sequence tag (L,X and X,X, and X, alone) is counted as an error; and location fields that are no tags - digits only, more than eight characters, with a plus sign - are accepted without a word. Proved: all the other tags of the manual (symbolic, mask, special register) are accepted and their names become symbols, and the errors counted are at most the lines with no tag, a link or out-of-sequence tag, or no command code."
  },
  {
   "property": "C178",
   "status": "partial",
   "theorems": [
    "C178_unnumbered_refuted",
    "C178_common_refuted",
    "C178_subsegment_partial"
   ],
   "note": "REFUTED: after a SETLOC without a number the symbols go to subsegment 0, which the manual does not have, and after SETLOC,nC to a subsegment of the name nC. Proved: where every SETLOC is written SETLOC,n with n from 1 to 7, a symbol is recorded in a subsegment exactly if a line that defines it is in that subsegment by the manual."
  },
  {
   "property": "C179",
   "status": "partial",
   "theorems": [
    "C179_tas_refuted",
    "C179_complex_partial"
   ],
   "note": "REFUTED: only ASSIGN is looked for: a tag on a TAS line is recorded as simple in every source, never as complex because of it. Proved: in sources without TAS a symbol is recorded as complex, and as simple, exactly as the manual has it."
  },
  {
   "property": "C180",
   "status": "partial",
   "theorems": [
    "C180_check_refuted",
    "C180_list_partial"
   ],
   "note": "REFUTED: check-instructions reports every processed line with a blank within the mnemonic as an invalid instruction, whatever the mnemonic is. Proved: list-instructions finds corresponding lines in sources that differ in blanks within the operations only."
  },
  {
   "property": "C181",
   "status": "partial",
   "theorems": [
    "C181_codes_partial",
    "C181_calls_refuted"
   ],
   "note": "REFUTED: every line that calls a macro routine (L,name or P,name), gives test data (X, D) or has a LAMP code is reported. Proved: the other codes of the manual are known; besides them only EBA, EBS, FCON, COREDUMP and DUMP; a source has no complaint exactly if its processed lines have these codes only."
  },
  {
   "property": "C182",
   "status": "proved",
   "theorems": [
    "C182_list",
    "C182_symbols",
    "C182_names",
    "C182_fuzzy"
   ],
   "note": ""
  },
  {
   "property": "C183",
   "status": "proved",
   "theorems": [
    "C183_read_back",
    "C183_decoded"
   ],
   "note": ""
  },
  {
   "property": "C184",
   "status": "partial",
   "theorems": [
    "C184_check_refuted",
    "C184_list_refuted",
    "C184_check_partial",
    "C184_list_partial"
   ],
   "note": "REFUTED: the column is read as a part of the operation; every instruction without a comma and with an S or a C in it is reported as invalid (C184_check_refuted) and not found (C184_list_refuted). Proved in part: where a comma ends the mnemonic before that column, two sources that differ in it get the same complaints and the same lines are found."
  },
  {
   "property": "C185",
   "status": "proved",
   "theorems": [
    "C185_array"
   ],
   "note": ""
  },
  {
   "property": "C186",
   "status": "proved",
   "theorems": [
    "C186_address",
    "C186_stored",
    "C186_loaded"
   ],
   "note": ""
  },
  {
   "property": "C187",
   "status": "partial",
   "theorems": [
    "C187_made",
    "C187_codes_partial",
    "C187_simulator_refuted"
   ],
   "note": "REFUTED: the class Simulator takes no address, and no class makes a simulator code other than 7 and 4007 octal (C187_simulator_refuted). Proved: every code made shows a line of the table with zeros at the irrelevant places, masked exactly if a mask was given; every code that shows a line so is made by a class of that mnemonic."
  },
  {
   "property": "C188",
   "status": "proved",
   "theorems": [
    "C188_control_memory",
    "C188_names"
   ],
   "note": ""
  },
  {
   "property": "C189",
   "status": "proved",
   "theorems": [
    "C189_account",
    "C189_cards",
    "C189_same",
    "C189_alone"
   ],
   "note": ""
  },
  {
   "property": "C190",
   "status": "proved",
   "theorems": [
    "C190_bit",
    "C190_ends"
   ],
   "note": ""
  },
  {
   "property": "C191",
   "status": "proved",
   "theorems": [
    "C191_class",
    "C191_names",
    "C191_table"
   ],
   "note": ""
  },
  {
   "property": "C192",
   "status": "proved",
   "theorems": [
    "C192_own_life",
    "C192_no_spill"
   ],
   "note": ""
  },
  {
   "property": "C193",
   "status": "proved",
   "theorems": [
    "C193_shared",
    "C193_no_copy",
    "C193_new_group",
    "C193_given_register",
    "C193_printed"
   ],
   "note": ""
  },
  {
   "property": "C194",
   "status": "proved",
   "theorems": [
    "C194_definitions",
    "C194_list",
    "C194_check",
    "C194_find",
    "C194_plain"
   ],
   "note": ""
  },
  {
   "property": "C195",
   "status": "proved",
   "theorems": [
    "C195_list",
    "C195_check",
    "C195_find",
    "C195_names",
    "C195_fuzzy",
    "C195_parse",
    "C195_determined"
   ],
   "note": ""
  },
  {
   "property": "C196",
   "status": "proved",
   "theorems": [
    "C196_command",
    "C196_determined",
    "C196_status",
    "C196_same"
   ],
   "note": ""
  },
  {
   "property": "C197",
   "status": "proved",
   "theorems": [
    "C197_looks",
    "C197_writes",
    "C197_needed"
   ],
   "note": ""
  },
  {
   "property": "C198",
   "status": "proved",
   "theorems": [
    "C198_session",
    "C198_order",
    "C198_again"
   ],
   "note": ""
  },
  {
   "property": "C199",
   "status": "partial",
   "theorems": [
    "C199_ints",
    "C199_calls_partial",
    "C199_history",
    "C199_reads",
    "C199_new",
    "C199_order",
    "C199_float_held",
    "C199_refuted",
    "C199_words",
    "C199_whole"
   ],
   "note": "REFUTED: b[i] = 0.5 clears the bit, b.value = 3.5 stores 3 (also through a word), b.set(0.0) and b.set('') set every bit, and BitField(2.5) is accepted; it then holds a float, every read of bits raises TypeError or ValueError, and only value, set() and clear() bring it back. Proved: every call with arguments of any type either is exactly one given call with integers or raises and changes nothing, so a field made with an integer holds one for ever; every read with a key that is not made of integers raises; a word is never made from anything but an integer."
  },
  {
   "property": "C200",
   "status": "partial",
   "theorems": [
    "C200_calls_partial",
    "C200_history",
    "C200_refuted",
    "C200_modules_partial",
    "C200_modules_refuted"
   ],
   "note": "REFUTED: a float equal to an address reads and writes that word, and a float from 0 to 2^48 - 1 is stored as its whole part. Proved: every call with arguments of any type is exactly one given call with integers, or raises and changes nothing (an assignment to an empty range does neither), so that the words of a bank hold integers for ever. Modules: a float equal to the number of a bank gives that bank; every other key that is no integer or range of integers raises."
  },
  {
   "property": "C201",
   "status": "proved",
   "theorems": [
    "C201_ints",
    "C201_values",
    "C201_history",
    "C201_keys",
    "C201_refused"
   ],
   "note": ""
  },
  {
   "property": "C202",
   "status": "proved",
   "theorems": [
    "C202_encoded",
    "C202_refused",
    "C202_equal"
   ],
   "note": ""
  },
  {
   "property": "C203",
   "status": "proved",
   "theorems": [
    "C203_ints",
    "C203_refused",
    "C203_history"
   ],
   "note": ""
  },
  {
   "property": "C204",
   "status": "partial",
   "theorems": [
    "C204_reads_partial",
    "C204_width_refuted",
    "C204_items_partial",
    "C204_bits_partial",
    "C204_history_partial"
   ],
   "note": "REFUTED: every float up to 64 is accepted as width, 7.5 as well as 8.0, if the value is not above 2 ** width - 1. Proved of every such field: range assignments and the clearing of a bit always raise and change nothing; a bit can be set only where the positions are counted from the least significant bit on the left, and there exactly below the width; after any history the width and the maximum are the same and the value is an integer or, after set(), the float maximum, with which no item can be read or written; indices, lsb, msb, len and bool raise TypeError."
  }
 ]
}
