{"claims": [
  {"property": "C01", "status": "proved", "theorems": ["C01_reads_are_consecutive_slices"], "note": ""},
  {"property": "C02", "status": "proved", "theorems": ["C02_pos_exact", "C02_pos_never_behind", "C02_pos_one_call"], "note": ""},
  {"property": "C03", "status": "proved", "theorems": ["C03_write_read_round_trip", "C03_writing_succeeds"], "note": "The stream must end on a byte boundary: bits of an incomplete last byte are never emitted (C04)."},
  {"property": "C04", "status": "proved", "theorems": ["C04_writer_output"], "note": "Errors of the io.Writer are the subject of C81."},
  {"property": "C05", "status": "proved", "theorems": ["C05_signed_round_trip", "C05_sign_magnitude"], "note": ""},
  {"property": "C06", "status": "proved", "theorems": ["C06_peek_agrees_with_reading", "C06_peek_off_boundary_is_an_error", "C06_peek_too_far_is_an_error", "C06_peek_leaves_the_reader_unchanged"], "note": ""},
  {"property": "C07", "status": "proved", "theorems": ["C07_truncation_reported"], "note": ""},
  {"property": "C08", "status": "partial", "theorems": ["C08_read_binary_truncation_refuted", "C08_read_binary_nil_iff_short"], "note": "The property is false: a short stream gives (nil, nil). The second theorem characterises when."},
  {"property": "C09", "status": "proved", "theorems": ["C09_bit_strings", "C09_other_strings_rejected", "C09_read_binary_text"], "note": ""},
  {"property": "C10", "status": "partial", "theorems": ["C10_binary_from_uint_refuted"], "note": "The property is false: the call never returns, whatever the arguments."},
  {"property": "C11", "status": "proved", "theorems": ["C11_calls_take_scalars_in_order"], "note": ""},
  {"property": "C12", "status": "partial", "theorems": ["C12_peek_transparent_refuted", "C12_peek_transparent_partial"], "note": "False for documents with null tokens; proved for all others."},
  {"property": "C13", "status": "partial", "theorems": ["C13_peek_distance_refuted", "C13_peek_distance_partial"], "note": "False after a farther peek; the second theorem says for every state which token is returned."},
  {"property": "C14", "status": "partial", "theorems": ["C14_read_float32_refuted", "C14_read_float32_partial"], "note": "False: never returns on an empty cache. Proved to return only when a peeked number is cached."},
  {"property": "C15", "status": "proved", "theorems": ["C15_read_descriptor", "C15_decompose", "C15_distinct"], "note": ""},
  {"property": "C16", "status": "proved", "theorems": ["C16_first_group_wins", "C16_fails_only_if_unknown", "C16_kind_follows_F", "C16_always_and_never"], "note": ""},
  {"property": "C17", "status": "proved", "theorems": ["C17_write_lock_is_exclusive", "C17_no_map_race", "C17_loaded_at_most_once", "C17_answers_come_from_loads", "C17_one_shared_object", "C17_failures_not_cached", "C17_no_deadlock"], "note": "All interleavings of the statement-level machine of table/manager.go."},
  {"property": "C18", "status": "proved", "theorems": ["C18_keys_do_not_collide"], "note": "filepath.Join/Clean are modelled for Unix paths."},
  {"property": "C19", "status": "partial", "theorems": ["C19_groups_added", "C19_local_shadows_wmo", "C19_missing_files", "C19_broken_fails", "C19_wmo_only_refuted", "C19_no_local_tables_fails"], "note": "The last sentence (only the WMO group when no local group exists) is false: the call fails. Everything else is proved, including which files count as missing and that a broken local file is an error."},
  {"property": "C20", "status": "partial", "theorems": ["C20_record_loaded_faithfully", "C20_units_recognised", "C20_wrong_type_rejected", "C20_loads", "C20_table_is_the_file", "C20_code_tables_recognised_refuted", "C20_short_record_refuted"], "note": "Recognition of code/flag tables is false for the spellings of shipped tables v35+; short records panic instead of being rejected. Exact recognition set proved."},
  {"property": "C21", "status": "partial", "theorems": ["C21_expand_partial", "C21_flatten_partial", "C21_overrun_refuted", "C21_terminates", "C21_cycle_diverges"], "note": "False in general: a nested replication announcing more identifiers than its enclosing block holds duplicates descriptors (C21_overrun_refuted). Proved for every template whose replications nest properly, with termination on acyclic tables."},
  {"property": "C22", "status": "proved", "theorems": ["C22_walk", "C22_walk_complete", "C22_well_nested", "C22_dump", "C22_expanded"], "note": ""},
  {"property": "C23", "status": "proved", "theorems": ["C23_terminates", "C23_cycle_diverges"], "note": "Termination for every table group whose sequences carry a rank (no cycle); divergence for a sequence that begins with itself."},
  {"property": "C24", "status": "proved", "theorems": ["C24_grammar", "C24_document_order", "C24_exact", "C24_sequences"], "note": "Parse is characterised by an inductive grammar; document order up to padded zeros; exact without 206YYY and with 000000 absent from Table B."},
  {"property": "C25", "status": "proved", "theorems": ["C25_scope", "C25_everywhere"], "note": "Both directions for a replication followed by the identifiers it announces, and the members of every nested replication."},
  {"property": "C26", "status": "proved", "theorems": ["C26_state", "C26_history"], "note": "Any history of accepted and rejected templates."},
  {"property": "C27", "status": "partial", "theorems": ["C27_never_marked", "C27_reads_data_refuted"], "note": "The claim is false of the code: no element is ever marked as not present, and the element after 221001 consumes its bits."},
  {"property": "C28", "status": "proved", "theorems": ["C28_kinds", "C28_own_descriptor", "C28_undocumented", "C28_undocumented_anywhere"], "note": ""},
  {"property": "C29", "status": "proved", "theorems": ["C29_partition"], "note": ""},
  {"property": "C30", "status": "partial", "theorems": ["C30_local_refuted", "C30_panic_refuted", "C30_complete_partial", "C30_truncated_partial"], "note": "False for 206YYY (a local descriptor 000000 is made up) and for a trailing assessment operator (panic); proved where no 206YYY occurs and 000000 is not in Table B."},
  {"property": "C31", "status": "proved", "theorems": ["C31_missing_all_ones", "C31_one_bit_never_missing"], "note": "Element unpacking from bits; compressed elements: C33 (column_values)."},
  {"property": "C32", "status": "proved", "theorems": ["C32_formula", "C32_exact", "C32_nearest", "C32_nearest_negative_scale", "C32_accuracy", "C32_injective", "C32_injective_limit", "C32_accuracy_wide", "C32_injective_wide"], "note": "Real-valued statements through Flocq; they depend on the axioms of the standard library's real numbers."},
  {"property": "C33", "status": "proved", "theorems": ["C33_compressed_values", "C33_bits_consumed", "C33_missing_minimum"], "note": "Exact characterisation of the streams that decode."},
  {"property": "C34", "status": "proved", "theorems": ["C34_compressed_same", "C34_element_columns", "C34_any_template", "C34_bitmaps_must_agree"], "note": "Whole payloads: any template of elements, sequences, replications and 201, 202, 204, 205, 207, 208, any number of subsets, any legal minimum and increment width per column. C34_any_template: the same for templates of every kind (222-225, 232, 235-237, 221 included) when the subsets agree on the bits of the bitmaps; C34_bitmaps_must_agree shows that this is needed. 206YYY (BINARY) never decodes in compressed form: C36."},
  {"property": "C35", "status": "proved", "theorems": ["C35_uncompressed_string", "C35_compressed_string", "C35_nonempty_common_string"], "note": ""},
  {"property": "C36", "status": "partial", "theorems": ["C36_compressed_local_refuted", "C36_hangs", "C36_no_binary_value", "C36_uncompressed_local"], "note": "The property is false of the code: a compressed local element never decodes to its bits. Proved instead: decoding hangs, no binary value is ever produced; the uncompressed form works."},
  {"property": "C37", "status": "partial", "theorems": ["C37_refuted", "C37_never"], "note": "False of the code: the map of new reference values is never allocated, so decoding a 203YYY definition that names an element panics (witness), and no template containing one is ever decoded."},
  {"property": "C38", "status": "proved", "theorems": ["C38_count", "C38_compressed_shared"], "note": ""},
  {"property": "C39", "status": "proved", "theorems": ["C39_cells"], "note": ""},
  {"property": "C40", "status": "proved", "theorems": ["C40_independent"], "note": ""},
  {"property": "C41", "status": "partial", "theorems": ["C41_segments_partial", "C41_columns_partial", "C41_column_values", "C41_refuted"], "note": "Proved whenever no local (206YYY) value is nil. False otherwise: a 206YYY field cut off by the end of data decodes successfully to nil (witness)."},
  {"property": "C42", "status": "proved", "theorems": ["C42_transparent"], "note": ""},
  {"property": "C43", "status": "proved", "theorems": ["C43_C44_packing", "C43_order", "C43_C44_element", "C43_scope", "C43_latest"], "note": ""},
  {"property": "C44", "status": "proved", "theorems": ["C43_C44_packing", "C43_C44_element", "C44_nesting", "C44_none", "C44_items"], "note": ""},
  {"property": "C45", "status": "proved", "theorems": ["C45_repeats", "C45_repeats_converse", "C45_factor", "C45_missing", "C45_unequal"], "note": "The factor is the last cell decoded when the repetitions start; C45_factor shows it is the factor element's own cell."},
  {"property": "C46", "status": "proved", "theorems": ["C46_targets", "C46_reference", "C46_bitmap"], "note": ""},
  {"property": "C47", "status": "partial", "theorems": ["C47_refuted", "C47_markers"], "note": "False of the code: the 225255 test looks at the target's identifier; every marker is decoded with its target's own packing (C47_markers), witness in C47_refuted."},
  {"property": "C48", "status": "partial", "theorems": ["C48_refuted", "C48_never"], "note": "False of the code: a bitmap without 236000 calls a method on a nil descriptor; such templates are never decoded."},
  {"property": "C49", "status": "partial", "theorems": ["C49_refuted", "C49_flat_partial"], "note": "False of the code below sequences and replications (their blocks are never attached to the root); proved for templates without them."},
  {"property": "C50", "status": "proved", "theorems": ["C50_signature_cases", "C50_seek", "C50_run", "C50_run_none"], "note": "Binary input at a byte boundary; fuel bounds the number of bytes skipped."},
  {"property": "C51", "status": "partial", "theorems": ["C51_section_lengths_partial", "C51_section_starts", "C51_padding", "C51_section_lengths_refuted"], "note": "False as stated: a section 2 announcing less than 4 bytes takes 4, and negative element widths (201YYY) make section 4 overrun its length; both messages decode. Exact in all other cases."},
  {"property": "C52", "status": "proved", "theorems": ["C52_template"], "note": "Complete case analysis, including the panic when earlier fields overran the section by 16 bits or more."},
  {"property": "C53", "status": "proved", "theorems": ["C53_sound", "C53_complete", "C53_layout", "C53_editions"], "note": "Run returns the sections of the message at the first signature, and every message is decoded."},
  {"property": "C54", "status": "partial", "theorems": ["C54_stop_signature_unchecked", "C54_stop_signature_refuted"], "note": "False: the stop signature is never compared; any four bytes are accepted."},
  {"property": "C55", "status": "partial", "theorems": ["C55_never_true", "C55_CheckEOF_refuted", "C55_CheckEOF_partial"], "note": "False: CheckEOF never returns true, because the error compared with io.EOF is wrapped."},
  {"property": "C56", "status": "partial", "theorems": ["C56_binary_partial", "C56_json", "C56_json_refuted"], "note": "Holds for binary input; for JSON the eighth scalar is returned instead of the third."},
  {"property": "C57", "status": "proved", "theorems": ["C57_FieldByName", "C57_ProxyField", "C57_NewField_registers", "C57_decoded"], "note": "All sequences of additions and registrations."},
  {"property": "C58", "status": "partial", "theorems": ["C58_refuted", "C58_read_back_partial", "C58_only_survivors", "C58_survivors", "C58_form", "C58_strings", "C58_columns_refuted", "C58_agreeing", "C58_document"], "note": "False as stated: strings come back as base64 and missing values (null) stop the reader. Proved: the payload is read back exactly when every value survives (no missing value, no non-empty string, no integer that is not a double), for all templates; strings are written as standard base64 (C58_strings). Excluded: compressed data of several subsets that differ in a bit of a bitmap used by a 222-225/232 operator, where C58_columns_refuted shows it can fail; C58_agreeing gives the case of agreeing subsets in terms of the data written. C58_document gives the whole document, with null for missing values."},
  {"property": "C59", "status": "proved", "theorems": ["C59_round_trip", "C59_writing_succeeds", "C59_factors"], "note": "Data fit a template by the relation carries of SpecPack.v; the packing of each datum follows from the operators before it (packing_after)."},
  {"property": "C60", "status": "proved", "theorems": ["C60_all_messages", "C60_only_messages", "C60_position"], "note": "The converse direction assumes payloads without negative widths."},
  {"property": "C61", "status": "partial", "theorems": ["C61_which", "C61_own", "C61_whole", "C61_float_exact", "C61_rounds", "C61_negative_refuted", "C61_wraps"], "note": "Which views exist, the identity views, exact conversion of whole numbers and rounding half away from zero (in rationals) are proved; the literal claim is false for numbers the requested type cannot hold, which wrap modulo 2^64 without an error. Out-of-range float conversions are platform-defined and left open."},
  {"property": "C62", "status": "partial", "theorems": ["C62_refuted", "C62_same_partial", "C62_short_partial"], "note": "False in general (zero cells shift what later bitmaps refer to: C62_refuted). Proved in both directions for templates whose bitmaps all refer to the first assessment operator, and forward whenever no bitmap reaches over an operator that gets a cell. Missing: replication factors that are not plain elements, assessments nested in bitmaps."},
  {"property": "C63", "status": "partial", "theorems": ["C63_elements_partial", "C63_assoc_partial", "C63_new_refval_partial", "C63_replication", "C63_lint_refuted", "C63_panic_refuted"], "note": "False as stated: lint compares the number of replications with the number of members, and panics (\"implement me\") on the root, sequences and most operators. Proved: elements, 204YYY with 031021 and 203YYY before elements are accepted."},
  {"property": "C64", "status": "proved", "theorems": ["C64_dump", "C64_one_line_per_node", "C64_fails_only_with_writer", "C64_indentation_after_error_refuted"], "note": "For any writer. Members of a composite factor are not shown. The indentation is restored on success; after a write error inside a bitmap it is not (refuted)."},
  {"property": "C65", "status": "partial", "theorems": ["C65_no_crash", "C65_reasons", "C65_plain_has_none", "C65_cut_off", "C65_truncation_partial", "C65_truncation_refuted", "C65_crash_refuted", "C65_marker_refuted"], "note": "Proved for all tables as loaded, all bit streams and all templates made of elements, sequences, replications, 201, 202, balanced 204, 205, 206, 207 and 208 (compressed data: without 206 and with at least one subset): no crash, whatever the bits (C65_no_crash). For templates of every other kind C65_reasons gives, for each kind of panic and for the endless loop, what the template must contain for it to happen (table `excluded`); C65_plain_has_none connects the two; C65_crash_refuted and C65_marker_refuted are witnesses. A payload cut short is reported as an error for every such template without 206YYY (C65_cut_off, C65_truncation_partial); with 206YYY that is false of the code, which swallows the end of the stream inside a local field (C65_truncation_refuted)."},
  {"property": "C66", "status": "proved", "theorems": ["C66_sequence_loaded_faithfully", "C66_bad_member_rejected", "C66_accepted", "C66_loads", "C66_table_is_the_file"], "note": ""},
  {"property": "C67", "status": "proved", "theorems": ["C67_members", "C67_fields", "C67_no_members"], "note": "Members of every value node, for all parsed templates; the members of block and operator nodes are covered by C49 (where the flat part is proved and the rest refuted)."},
  {"property": "C68", "status": "proved", "theorems": ["C68_writes", "C68_round_trip", "C68_stream", "C68_payload", "C68_only"], "note": "The converse (C68_only) is for payloads without negative widths, without numbers over 64 bits, without local fields cut off by the end of the stream, and for compressed data with at least one subset; bits of signed codes are not determined (two zeros)."},
  {"property": "C69", "status": "proved", "theorems": ["C69_round_trip", "C69_writing_succeeds", "C69_compressed", "C69_only", "C69_trees", "C69_any_columns", "C69_only_columns"], "note": "Layouts are defined by the relation lays of SpecPlan.v, which mentions no reader. The compressed converse covers fields of every kind whose width is not negative."},
  {"property": "C70", "status": "partial", "theorems": ["C70_operators", "C70_events", "C70_total", "C70_distinct", "C70_units_refuted", "C70_units_partial", "C70_types_partial"], "note": "Proved for operators and event codes; totality and distinctness for all four types. False for units and data types: unit_string.go and datatype_string.go were not regenerated (NONNEG_CODE prints CODE, CODE prints FLAG, FLAG prints COMMON_CODE, BINARY prints BIN). C70_units_partial and C70_types_partial say exactly which constants print their names; finding 34."},
  {"property": "C71", "status": "proved", "theorems": ["C71_descriptors", "C71_nodes", "C71_templates", "C71_cells"], "note": ""},
  {"property": "C72", "status": "proved", "theorems": ["C72_loads", "C72_available", "C72_groups", "C72_parsing_ends"], "note": "The rows of all 40 shipped tables are in ModelShipped.v (generated); names and CREX columns are arbitrary in the theorems."},
  {"property": "C73", "status": "partial", "theorems": ["C73_sequences_partial", "C73_templates_partial", "C73_templates_recent", "C73_templates_refuted"], "note": "Proved exactly: a sequence parses iff it is not in the list `broken`, and every template composed of known elements and unbroken sequences parses; hence all of them from WMO version 19 on, alone or behind local versions 2 and 3. False for WMO versions 6-18 and local versions 1 and 101, whose Table D names descriptors that no table defines (e.g. 305018 of version 13): templates that use these sequences are rejected."},
  {"property": "C74", "status": "proved", "theorems": ["C74_numbers", "C74_distinct", "C74_operators", "C74_widths"], "note": "Real-valued; uses the axioms of the standard library's reals."},
  {"property": "C75", "status": "partial", "theorems": ["C75_units_partial", "C75_units_recent", "C75_operators_partial", "C75_operators_refuted", "C75_units_refuted", "C75_strings"], "note": "True for WMO versions 6-15 and the local tables, and up to version 34 for all elements but 001032. False from version 35 on: the tables say \"Code table\" and \"Flag table\", unitOf expects \"CODE TABLE\" and \"FLAG TABLE\", so no code or flag table is recognised; their values decode as floating-point numbers and 201YYY changes their width, so that the rest of the data is misread. Character elements are recognised in all versions (C75_strings)."},
  {"property": "C76", "status": "partial", "theorems": ["C76_values", "C76_values_refuted", "C76_bits", "C76_bits_refuted"], "note": "False: replication factors are counted as the first value and the first bit. Data with as many values as zero bits always fail (index out of range), and so do bitmaps covering all elements. C76_values and C76_bits say, for all templates and data, what a successful decoding then has done: fewer values than selected elements, each attached one element too far (the factor to the first); more elements than bits, the right elements selected unless there are no bits."},
  {"property": "C77", "status": "partial", "theorems": ["C77_outcome", "C77_shipped", "C77_crash_refuted", "C77_template_refuted"], "note": "False as stated. C77_outcome names all causes, for all byte strings and reader states: a section 3 shorter than its own header (make with a negative length), a stream that ends inside the padding of section 1, 3 or 4 (nil dereference), or a template that has what this kind of panic needs (the table `excluded` of C65; an endless loop needs compressed data with 206YYY); in every other case one call ends with a message or an error. C77_shipped: the shipped tables meet the hypothesis, in whatever combination a message asks for. The other two theorems are witnesses for the causes."},
  {"property": "C78", "status": "partial", "theorems": ["C78_document", "C78_never", "C78_refuted"], "note": "C78_document proves the first half, for all messages whose fields can be marshalled. The second half is false of every message: C78_never shows that the JSON form of any message decoded from bytes is rejected with an error by the JSON reader, because the start signature is written in base64 and the signature search compares it with BUFR; C78_refuted shows such a message. Messages are decoded with the binary reader in C78_never (fc_json = false), and fuel 2 stands for a search that may take two steps."},
  {"property": "C79", "status": "proved", "theorems": ["C79_bits", "C79_json"], "note": "C79_bits speaks of the exact real value of a float and uses the axioms of the standard library's reals. ReadBinary at the end of binary data returns no error but a nil bit string (C08)."},
  {"property": "C80", "status": "proved", "theorems": ["C80_fields", "C80_value"], "note": "Beyond 64 bits the code takes the number 0 for missing (see C31)."},
  {"property": "C81", "status": "proved", "theorems": ["C81_reported", "C81_first_failure", "C81_wrong_size"], "note": "Go-bitstream's error propagation is modelled from its documented contract: a byte is handed to the io.Writer when complete, and a failing Write ends the call. Calls made after a failed one are not covered."},
  {"property": "C82", "status": "proved", "theorems": ["C82_nearest", "C82_round_trip"], "note": "The payload bits of NaN are not modelled."},
  {"property": "C83", "status": "proved", "theorems": ["C83_same", "C83_value", "C83_number", "C83_other", "C83_limits"], "note": ""},
  {"property": "C84", "status": "partial", "theorems": ["C84_line", "C84_same_line", "C84_same_value", "C84_missing", "C84_quoted_refuted"], "note": "False in one point: character data are []byte, not string, and print as a list of numbers in brackets (C84_quoted_refuted). The rest is proved. A local field cut off by the end of the stream (a nil bit string) prints as <nil>, too."},
  {"property": "C85", "status": "partial", "theorems": ["C85_result", "C85_stack", "C85_successes", "C85_bounded_refuted"], "note": "The last part is false: a decoding that fails leaves its error message on the Lua stack, which is never removed; a message of an unsupported edition, which is found again by every call, makes it grow without bound (C85_bounded_refuted). The rest is proved. Which stack size go-lua tolerates is not modelled."},
  {"property": "C86", "status": "proved", "theorems": ["C86_order", "C86_done", "C86_complete", "C86_never_stuck", "C86_unattended", "C86_ends", "C86_goroutines", "C86_abandoned", "C86_released", "C86_schedule"], "note": "Schedules are sequences of steps of the goroutine machine in ModelWalkers.v; a caller that reads on and answers each factor with one count."},
  {"property": "C87", "status": "proved", "theorems": ["C87_same", "C87_frozen", "C87_kept", "C87_append_only", "C87_sound", "C87_others", "C87_new_message", "C87_stale_section", "C87_every_script_refuted"], "note": "Messages and sections are addresses in a store (ModelObjects.v), fields are values, since no operation changes one. That the proviso is needed: C87_stale_section, C87_every_script_refuted."},
  {"property": "C88", "status": "proved", "theorems": ["C88_compiles", "C88_same", "C88_Run", "C88_stream", "C88_any_calls", "C88_any_append_only", "C88_bound"], "note": "The scripts are constants in GenScripts.v, character by character; ModelLuaText.v reads and ModelInterp.v runs the part of Lua they are written in (no assignment, no loop). C88_same is about the decoder with Lua numbers (ModelLua.v), for any reader; C88_Run about that of ModelScript.v, for binary input."},
  {"property": "C89", "status": "proved", "theorems": ["C89_same", "C89_never_stuck", "C89_bounded", "C89_completes", "C89_no_race"], "note": "A runtime is cut at its requests to the cache (ModelProcess.v); between them it touches nothing that is shared. The files do not change meanwhile. A Go panic in one runtime is that runtime's outcome here; in a process without recover it ends all of them."},
  {"property": "C90", "status": "proved", "theorems": ["C90_same", "C90_pieces", "C90_Run"], "note": "bufio.Reader and go-bitstream are modelled as they are documented (ModelBufio.v); their source is not at hand. A Read that gives neither a byte nor an error is excluded; C90_example shows that the reader takes it for a zero. At its end the io.Reader reports the same error again."},
  {"property": "C91", "status": "proved", "theorems": ["C91_consumes", "C91_count", "C91_loop_ends", "C91_early", "C91_cut_off"], "note": "Binary input. C91_early and C91_cut_off for inputs of whole bytes, cut at whole bytes. C91_loop_ends: the call that ends the loop fails, panics or exceeds the bound (fc_fuel) on its steps; C77 says when it does what."},
  {"property": "C92", "status": "partial", "theorems": ["C92_ends_partial", "C92_walkable_partial", "C92_no_cycle_partial", "C92_refuted"], "note": "False as stated: C92_refuted is a template and input whose view has a circle reachable from the root. Proved for templates without quality, statistics and substitution operators (no KAssessment node). Missing: which templates with such operators are free of circles, e.g. those without associated fields."}
]}
