{"claims": [
{"property": "C01", "status": "proved", "theorems": ["C01_tokenize_total", "C01_ascii"], "note": ""},
{"property": "C02", "status": "proved", "theorems": ["C02_tokens_tile", "C02_positions_increase", "C02_tokens_unique"], "note": ""},
{"property": "C03", "status": "proved", "theorems": ["C03_case_insensitive"], "note": ""},
{"property": "C04", "status": "proved", "theorems": ["C04_relayout", "C04_separated"], "note": ""},
{"property": "C05", "status": "proved", "theorems": ["C05_att_list"], "note": ""},
{"property": "C06", "status": "proved", "theorems": ["C06_error_position"], "note": ""},
{"property": "C07", "status": "proved", "theorems": ["C07_incremental", "C07_idempotent"], "note": ""},
{"property": "C08", "status": "proved", "theorems": ["C08_parser_sound", "C08_text_sound"], "note": ""},
{"property": "C09", "status": "proved", "theorems": ["C09_parser_complete", "C09_text_complete"], "note": ""},
{"property": "C10", "status": "proved", "theorems": ["C10_unambiguous", "C10_derives_unambiguous"], "note": ""},
{"property": "C11", "status": "proved", "theorems": ["C11_exceptions", "C11_index_error", "C11_position", "C11_position_unique"], "note": ""},
{"property": "C12", "status": "proved", "theorems": ["C12_print_parse", "C12_any_rendering"], "note": ""},
{"property": "C13", "status": "proved", "theorems": ["C13_ids", "C13_disjoint"], "note": ""},
{"property": "C14", "status": "proved", "theorems": ["C14_names", "C14_symbols", "C14_ascii_steady"], "note": "for policies whose attribute names are steady: lower-cased the same way alone and behind the category (all ASCII names: C14_ascii_steady; see C17 for the others)"},
{"property": "C15", "status": "proved", "theorems": ["C15_silent", "C15_types"], "note": "for policies whose attribute names are steady: lower-cased the same way alone and behind the category (all ASCII names: C14_ascii_steady; see C17 for the others)"},
{"property": "C16", "status": "proved", "theorems": ["C16_issues", "C16_comparisons", "C16_errors", "C16_levels", "C16_result"], "note": "for policies whose attribute names are steady: lower-cased the same way alone and behind the category (all ASCII names: C14_ascii_steady; see C17 for the others)"},
{"property": "C17", "status": "proved", "theorems": ["C17_no_crash", "C17_default", "C17_ascii_text", "C17_other_names_refuted", "C17_crash_iff"], "note": "C17_other_names_refuted: with the attribute name U+03A3 check() raises a bare Exception, because the name lower-cases differently alone and after its prefix"},
{"property": "C18", "status": "proved", "theorems": ["C18_kleene", "C18_laws", "C18_monotone", "C18_truth"], "note": ""},
{"property": "C19", "status": "proved", "theorems": ["C19_evaluation", "C19_subpolicies"], "note": ""},
{"property": "C20", "status": "proved", "theorems": ["C20_raises", "C20_exceptions", "C20_never_evaluates"], "note": ""},
{"property": "C21", "status": "proved", "theorems": ["C21_unusable", "C21_bare"], "note": ""},
{"property": "C22", "status": "proved", "theorems": ["C22_monotone"], "note": ""},
{"property": "C23", "status": "proved", "theorems": ["C23_exact", "C23_trichotomy"], "note": ""},
{"property": "C24", "status": "proved", "theorems": ["C24_negation"], "note": ""},
{"property": "C25", "status": "proved", "theorems": ["C25_subset", "C25_equal", "C25_attribute_literal", "C25_in_set", "C25_in_element"], "note": ""},
{"property": "C26", "status": "proved", "theorems": ["C26_case", "C26_names", "C26_exact"], "note": ""},
{"property": "C27", "status": "proved", "theorems": ["C27_second_evaluation", "C27_true_for_ever", "C27_same_table", "C27_reuse_refuted"], "note": "the second evaluation is characterised for two tables over the same Symbol objects; C27_true_for_ever also allows the objects to change"},
{"property": "C28", "status": "proved", "theorems": ["C28_no_level", "C28_levels", "C28_sticky"], "note": ""},
{"property": "C29", "status": "proved", "theorems": ["C29_map", "C29_failures", "C29_first_wins", "C29_last_value", "C29_last_type", "C29_shared"], "note": ""},
{"property": "C30", "status": "proved", "theorems": ["C30_load_errors", "C30_load", "C30_build", "C30_load_build", "C30_load_names", "C30_load_apart", "C30_load_found", "C30_load_lost_refuted", "C30_reset"], "note": "C30_load_build is for ASCII names; C30_load_names is for names in any script, where lower-casing is an oracle that need not commute with adding the prefix; C30_load_lost_refuted: an attribute that is not found under the name it was loaded with"},
{"property": "C31", "status": "proved", "theorems": ["C31_round_trip", "C31_parsed"], "note": ""},
{"property": "C32", "status": "proved", "theorems": ["C32_fits", "C32_parsed", "C32_counter", "C32_loss"], "note": "C32_fits and C32_loss are exact characterisations (if and only if)"},
{"property": "C33", "status": "proved", "theorems": ["C33_resolves", "C33_exceptions", "C33_counter", "C33_version", "C33_trailing", "C33_trailing_encoded", "C33_trailing_refuted", "C33_cycles", "C33_cyclic_graph", "C33_class"], "note": "trailing bytes are ignored after every encoded tree; C33_trailing_refuted shows a hand-made input where one appended byte turns success into struct.error"},
{"property": "C34", "status": "proved", "theorems": ["C34_information", "C34_issuer", "C34_holder", "C34_attribute", "C34_revocation", "C34_delegation", "C34_extension", "C34_signature"], "note": "exact: the section comes back if and only if its text is ASCII and its optional fields are absent or non-empty"},
{"property": "C35", "status": "proved", "theorems": ["C35_round_trip"], "note": "exact: the same certificate comes back if and only if every section survives (C34)"},
{"property": "C36", "status": "proved", "theorems": ["C36_exact", "C36_content"], "note": ""},
{"property": "C37", "status": "proved", "theorems": ["C37_collision", "C37_fields"], "note": ""},
{"property": "C38", "status": "proved", "theorems": ["C38_verified", "C38_rejected", "C38_unsigned", "C38_trailing", "C38_trailing_refuted"], "note": "trailing bytes are rejected after every encoded certificate; C38_trailing_refuted: after a hand-made one with a cut signature an appended byte is taken as part of the signature"},
{"property": "C39", "status": "proved", "theorems": ["C39_ascii", "C39_signed", "C39_exported"], "note": "the signature scheme is a record of functions; key_pair is the law used"},
{"property": "C40", "status": "proved", "theorems": ["C40_content", "C40_malleable"], "note": "unforgeability is the second hypothesis of C40_content, stated as a law of the signature scheme record"},
{"property": "C41", "status": "proved", "theorems": ["C41_open", "C41_default", "C41_interval"], "note": ""},
{"property": "C42", "status": "proved", "theorems": ["C42_meaning", "C42_equivalence", "C42_reflexive", "C42_error", "C42_refuted"], "note": ""},
{"property": "C43", "status": "proved", "theorems": ["C43_exact", "C43_refused", "C43_base64full"], "note": ""},
{"property": "C44", "status": "proved", "theorems": ["C44_forged", "C44_possible", "C44_keys_unused"], "note": "the attacker's key pair signs and verifies (key_pair) and the import of the embedded key gives its public half"},
{"property": "C45", "status": "proved", "theorems": ["C45_lifetime", "C45_alive"], "note": ""},
{"property": "C46", "status": "proved", "theorems": ["C46_success", "C46_failure", "C46_rows"], "note": "database transactions are atomic by assumption: the model commits once at the end"},
{"property": "C47", "status": "proved", "theorems": ["C47_well_formed"], "note": ""},
{"property": "C48", "status": "proved", "theorems": ["C48_reused", "C48_hash", "C48_refused"], "note": ""},
{"property": "C49", "status": "proved", "theorems": ["C49_ladon", "C49_raises"], "note": ""},
{"property": "C50", "status": "proved", "theorems": ["C50_authenticated", "C50_nothing_written", "C50_refused", "C50_type", "C50_no_password"], "note": ""},
{"property": "C51", "status": "proved", "theorems": ["C51_exact", "C51_refused", "C51_same_name_refuted"], "note": ""},
{"property": "C52", "status": "proved", "theorems": ["C52_content", "C52_verifies"], "note": ""},
{"property": "C53", "status": "proved", "theorems": ["C53_never_equal", "C53_imported"], "note": ""},
{"property": "C54", "status": "proved", "theorems": ["C54_exact", "C54_request", "C54_mixed", "C54_compressed", "C54_dotted", "C54_groups", "C54_range_refuted"], "note": ""},
{"property": "C55", "status": "proved", "theorems": ["C55_value", "C55_raises", "C55_section_first", "C55_case", "C55_lower_headers"], "note": "option names whose upper-casing is stable (all ASCII names); reading the file itself is not modelled"},
{"property": "C56", "status": "proved", "theorems": ["C56_near", "C56_none", "C56_size", "C56_centre", "C56_negative_refuted"], "note": ""},
{"property": "C57", "status": "proved", "theorems": ["C57_warnings"], "note": ""},
{"property": "C58", "status": "proved", "theorems": ["C58_body", "C58_errors", "C58_encode"], "note": ""},
{"property": "C59", "status": "proved", "theorems": ["C59_verifies_other_bytes", "C59_rejected"], "note": ""},
{"property": "C60", "status": "proved", "theorems": ["C60_text", "C60_no_import", "C60_total"], "note": ""},
{"property": "C61", "status": "proved", "theorems": ["C61_decode", "C61_rewrite", "C61_verify", "C61_import"], "note": ""},
{"property": "C64", "status": "proved", "theorems": ["C64_text", "C64_lexer"], "note": ""},
{"property": "C65", "status": "proved", "theorems": ["C65_mysql", "C65_password_refuted", "C65_known"], "note": ""},
{"property": "C66", "status": "proved", "theorems": ["C66_level", "C66_file"], "note": "C66_file for ASCII paths with an absolute LOG_DIR"},
{"property": "C62", "status": "proved", "theorems": ["C62_vouched"], "note": ""},
{"property": "C63", "status": "proved", "theorems": ["C63_outlives_refuted", "C63_base64"], "note": ""},
{"property": "C67", "status": "proved", "theorems": ["C67_all", "C67_untrusted_refuted"], "note": ""},
{"property": "C68", "status": "proved", "theorems": ["C68_accepted"], "note": ""},
{"property": "C69", "status": "proved", "theorems": ["C69_names", "C69_files"], "note": ""},
{"property": "C70", "status": "proved", "theorems": ["C70_same_user", "C70_spelling_refuted"], "note": ""},
{"property": "C71", "status": "proved", "theorems": ["C71_evaluation", "C71_rendering", "C71_types"], "note": ""},
{"property": "C72", "status": "proved", "theorems": ["C72_decisions", "C72_types", "C72_single_refuted"], "note": ""},
{"property": "C73", "status": "proved", "theorems": ["C73_errors", "C73_error_undef", "C73_in_refuted"], "note": ""},
{"property": "C74", "status": "proved", "theorems": ["C74_decided", "C74_set_refuted", "C74_null_refuted", "C74_order_refuted"], "note": ""},
{"property": "C75", "status": "proved", "theorems": ["C75_equal", "C75_equivalence", "C75_same_text", "C75_decisions", "C75_types", "C75_layout_refuted", "C75_class_refuted"], "note": ""},
{"property": "C76", "status": "proved", "theorems": ["C76_evaluation", "C76_count", "C76_tokens"], "note": ""},
{"property": "C77", "status": "proved", "theorems": ["C77_logs", "C77_engine"], "note": ""},
{"property": "C78", "status": "proved", "theorems": ["C78_written", "C78_stream", "C78_component"], "note": ""},
{"property": "C79", "status": "proved", "theorems": ["C79_copies", "C79_once_refuted"], "note": ""},
{"property": "C80", "status": "proved", "theorems": ["C80_kept", "C80_start", "C80_cleaned", "C80_client_kept", "C80_client_refuted"], "note": ""},
{"property": "C81", "status": "proved", "theorems": ["C81_start", "C81_no_option_missing"], "note": ""},
{"property": "C82", "status": "proved", "theorems": ["C82_ladon", "C82_order_refuted"], "note": ""},
{"property": "C83", "status": "proved", "theorems": ["C83_same", "C83_distinct", "C83_made"], "note": ""},
{"property": "C84", "status": "proved", "theorems": ["C84_populate", "C84_add_atomic", "C84_tables_ok", "C84_atomic_refuted", "C84_repeat_refuted", "C84_test_refuted"], "note": ""},
{"property": "C85", "status": "proved", "theorems": ["C85_keeps", "C85_built", "C85_unknown", "C85_succeeds", "C85_again", "C85_services", "C85_memory"], "note": ""},
{"property": "C86", "status": "proved", "theorems": ["C86_seen", "C86_refuted"], "note": ""},
{"property": "C87", "status": "proved", "theorems": ["C87_nearest", "C87_unique", "C02_tokens_tile"], "note": "C02_tokens_tile states the value of every FLOAT token through the specification rounds; C87 shows the function of the model meets it and that it has one solution"},
{"property": "C88", "status": "proved", "theorems": ["C88_generated", "C88_again", "C88_populated", "C88_certificate"], "note": ""},
{"property": "C89", "status": "proved", "theorems": ["C89_accepted", "C89_long", "C89_capital", "C89_section_refuted"], "note": "hypotheses: a hash of bcrypt.hashpw passes bcrypt.checkpw; bcrypt takes 72 bytes into account (C89_long only); lower case of non-ASCII text has no ASCII capital (C89_capital only)"},
{"property": "C90", "status": "proved", "theorems": ["C90_commands", "C90_usage", "C90_effects", "C90_capitals", "C90_setup"], "note": ""},
{"property": "C91", "status": "proved", "theorems": ["C91_starts", "C91_new_key", "C91_policy", "C91_rev_url_refuted"], "note": "C91_new_key: a key exported with a passphrase can be imported with it"},
{"property": "C92", "status": "proved", "theorems": ["C92_info", "C92_matches", "C92_available"], "note": ""},
{"property": "C93", "status": "proved", "theorems": ["C93_created", "C93_policy_created", "C93_fields", "C93_connection", "C93_described", "C93_policy_update", "C93_unchanged_refuted"], "note": ""},
{"property": "C94", "status": "proved", "theorems": ["C94_enabled", "C94_where", "C94_port_refuted"], "note": ""},
{"property": "C95", "status": "proved", "theorems": ["C95_last_key", "C95_certificate", "C95_lists", "C95_faults", "C95_results", "C95_session_refuted"], "note": "C95_certificate, C95_lists: the network hands the arguments to the modelled authority (served_by)"},
{"property": "C96", "status": "proved", "theorems": ["C96_exact", "C96_documented", "C96_converse", "C96_boolean_refuted", "C96_escape_refuted", "C96_blanks_refuted", "C96_backslash_refuted"], "note": "ASCII texts; texts with other characters are covered by C02-C05 and C08-C09"},
{"property": "C97", "status": "proved", "theorems": ["C97_phases", "C97_one_button", "C97_locked", "C97_type_check", "C97_ascii_text", "C97_run", "C97_start"], "note": "C97_type_check, C97_run: texts with steady attribute names, in particular ASCII texts (C97_ascii_text)"},
{"property": "C98", "status": "proved", "theorems": ["C98_interpret", "C98_again"], "note": ""},
{"property": "C99", "status": "proved", "theorems": ["C99_panel", "C99_submit", "C99_sets_of_texts", "C99_resubmit", "C99_resubmit_refuted", "C99_numeral_refuted", "C99_empty_set_refuted", "C99_undef_refuted", "C99_uncategorised_refuted"], "note": "float(), str() of floats and the order of sets are parameters"},
{"property": "C100", "status": "proved", "theorems": ["C100_uncaught", "C100_stops_short", "C100_stuck"], "note": ""},
{"property": "C101", "status": "proved", "theorems": ["C101_lists", "C101_add", "C101_delete", "C101_sent", "C101_received", "C101_typed", "C101_distinct_refuted"], "note": ""},
{"property": "C102", "status": "proved", "theorems": ["C102_kept", "C102_renewed", "C102_shown", "C102_holder", "C102_text_refuted", "C102_pairing_refuted"], "note": "C102_holder composes with the modelled authority"},
{"property": "C103", "status": "proved", "theorems": ["C103_serial", "C103_hex", "C103_tree", "C103_hidden", "C103_built", "C103_dates", "C103_fits", "C103_kept", "C103_pressed", "C103_value_refuted", "C103_same_refuted", "C103_clear_refuted"], "note": "datetime is a parameter"},
{"property": "C104", "status": "proved", "theorems": ["C104_step", "C104_true", "C104_false", "C104_current_refuted", "C104_issuer_refuted"], "note": "C104_true, C104_false: no press of Request that never ends"},
{"property": "C105", "status": "proved", "theorems": ["C105_uncaught", "C105_shown", "C105_response", "C105_stuck", "C105_ends_refuted", "C105_service", "C105_service_refuted"], "note": ""},
{"property": "C106", "status": "proved", "theorems": ["C106_same", "C106_message", "C106_one_state", "C106_rules", "C106_shown"], "note": ""},
{"property": "C107", "status": "proved", "theorems": ["C107_expected", "C107_asked", "C107_incomplete", "C107_paren_refuted"], "note": ""},
{"property": "C108", "status": "proved", "theorems": ["C108_same", "C108_error", "C108_crash", "C108_points", "C108_bang_refuted", "C108_token", "C108_shown"], "note": ""},
{"property": "C109", "status": "proved", "theorems": ["C109_tokens", "C109_kept", "C109_settles", "C109_permanent", "C109_unterminated", "C109_again_refuted"], "note": ""},
{"property": "C110", "status": "proved", "theorems": ["C110_lines", "C110_form", "C110_parsed", "C110_token", "C110_tokens", "C110_table", "C110_forged_refuted"], "note": ""},
{"property": "C111", "status": "proved", "theorems": ["C111_repr", "C111_token", "C111_parsed", "C111_zero_refuted"], "note": ""},
{"property": "C112", "status": "proved", "theorems": ["C112_same", "C112_messages", "C112_levels", "C112_one", "C112_two", "C112_two_refuted", "C112_shown"], "note": ""},
{"property": "C113", "status": "proved", "theorems": ["C113_same", "C113_kept", "C113_any", "C113_messages", "C113_warned", "C113_blamed", "C113_stopped", "C113_shown", "C113_error_shown", "C113_which_refuted", "C113_raised_refuted"], "note": ""},
{"property": "C114", "status": "proved", "theorems": ["C114_same", "C114_bytes", "C114_bytes_tell", "C114_refused", "C114_granted", "C114_login", "C114_hidden", "C114_hash", "C114_secret", "C114_forged", "C114_unseen", "C114_file", "C114_hidden_refuted", "C114_activated_refuted"], "note": ""},
{"property": "C115", "status": "proved", "theorems": ["C115_same", "C115_refused", "C115_records", "C115_one_reason", "C115_no_addr", "C115_added_refuted", "C115_expired_refuted"], "note": ""},
{"property": "C116", "status": "proved", "theorems": ["C116_same", "C116_policy", "C116_ascii", "C116_accepted", "C116_refused", "C116_line_refuted"], "note": ""},
{"property": "C117", "status": "proved", "theorems": ["C117_same", "C117_engine", "C117_db_pass", "C117_db_secret", "C117_secrets", "C117_built", "C117_populated", "C117_unknown", "C117_generated", "C117_key", "C117_usage", "C117_printed", "C117_start", "C117_info", "C117_pauth", "C117_usage_refuted", "C117_silent_refuted", "C117_wiped_refuted"], "note": ""},
{"property": "C118", "status": "proved", "theorems": ["C118_same", "C118_says", "C118_calls", "C118_named", "C118_secret", "C118_errors", "C118_policy", "C118_created", "C118_named_refuted", "C118_failed_refuted"], "note": ""},
{"property": "C119", "status": "proved", "theorems": ["C119_exact", "C119_one", "C119_no_header", "C119_section_twice", "C119_setting_twice", "C119_missing", "C119_used", "C119_indent_refuted", "C119_comment_refuted", "C119_percent_refuted"], "note": ""},
{"property": "C120", "status": "proved", "theorems": ["C120_stored", "C120_session", "C120_key_refuted", "C120_text_refuted"], "note": ""},
{"property": "C121", "status": "proved", "theorems": ["C121_arrives", "C121_covered", "C121_presented", "C121_free", "C121_value", "C121_stored"], "note": ""},
{"property": "C122", "status": "proved", "theorems": ["C122_rewriting", "C122_laws", "C122_decisions", "C122_complete", "C122_opposite_refuted", "C122_alone_refuted", "C122_absorption_refuted", "C122_excluded_middle_refuted"], "note": ""},
{"property": "C123", "status": "proved", "theorems": ["C123_same", "C123_att_list", "C123_values", "C123_needed"], "note": ""},
{"property": "C124", "status": "proved", "theorems": ["C124_info", "C124_exact", "C124_time", "C124_untyped", "C124_answered"], "note": ""},
{"property": "C125", "status": "proved", "theorems": ["C125_symbol", "C125_table", "C125_equal", "C125_members", "C125_equal_refuted"], "note": ""}
]}
