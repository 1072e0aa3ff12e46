{
 "claims": [
  {
   "property": "C01",
   "status": "proved",
   "theorems": [
    "C01_category_by_code"
   ],
   "note": ""
  },
  {
   "property": "C02",
   "status": "proved",
   "theorems": [
    "C02_category_by_name"
   ],
   "note": ""
  },
  {
   "property": "C03",
   "status": "proved",
   "theorems": [
    "C03_listing_keeps_lookups"
   ],
   "note": ""
  },
  {
   "property": "C04",
   "status": "proved",
   "theorems": [
    "C04_answers"
   ],
   "note": ""
  },
  {
   "property": "C05",
   "status": "proved",
   "theorems": [
    "C05_base64_round_trip"
   ],
   "note": ""
  },
  {
   "property": "C06",
   "status": "proved",
   "theorems": [
    "C06_opdata_round_trip"
   ],
   "note": ""
  },
  {
   "property": "C07",
   "status": "proved",
   "theorems": [
    "C07_authenticate_first",
    "C07_accepted_blobs"
   ],
   "note": ""
  },
  {
   "property": "C08",
   "status": "partial",
   "theorems": [
    "C08_no_crash_refuted",
    "C08_crash_exactly_partial",
    "C08_no_exit_partial"
   ],
   "note": "False of the code: a blob that authenticates or decodes but has a malformed length makes the program panic. C08_crash_exactly_partial says exactly which blobs do, C08_no_exit_partial that nothing else can happen."
  },
  {
   "property": "C09",
   "status": "proved",
   "theorems": [
    "C09_derived_key_sizes",
    "C09_blob_key_sizes"
   ],
   "note": ""
  },
  {
   "property": "C10",
   "status": "proved",
   "theorems": [
    "C10_right_password_opens"
   ],
   "note": ""
  },
  {
   "property": "C11",
   "status": "proved",
   "theorems": [
    "C11_password_authenticated",
    "C11_wrong_password_refused"
   ],
   "note": ""
  },
  {
   "property": "C12",
   "status": "proved",
   "theorems": [
    "C12_refused_unlock"
   ],
   "note": ""
  },
  {
   "property": "C13",
   "status": "proved",
   "theorems": [
    "C13_item_keys_round_trip"
   ],
   "note": ""
  },
  {
   "property": "C14",
   "status": "partial",
   "theorems": [
    "C14_key_blob_mac_refuted"
   ],
   "note": "False of the code: the MAC of an item key blob is never compared, so C14_key_blob_mac_refuted shows that any trailing 32 bytes are accepted."
  },
  {
   "property": "C15",
   "status": "partial",
   "theorems": [
    "C15_metadata_authenticated_refuted"
   ],
   "note": "False of the code: category, dates and trash state of an entry are believed without authentication, for every vault and every forged metadata."
  },
  {
   "property": "C16",
   "status": "proved",
   "theorems": [
    "C16_items_decoded"
   ],
   "note": ""
  },
  {
   "property": "C17",
   "status": "proved",
   "theorems": [
    "C17_unauthenticated_not_shown"
   ],
   "note": ""
  },
  {
   "property": "C18",
   "status": "proved",
   "theorems": [
    "C18_one_item_per_entry"
   ],
   "note": ""
  },
  {
   "property": "C19",
   "status": "partial",
   "theorems": [
    "C19_damage_isolated_refuted",
    "C19_damage_isolated_partial"
   ],
   "note": "False of the code: one malformed entry makes every opening of the vault panic. The partial theorem proves isolation for well-formed entries whose encrypted parts are damaged."
  },
  {
   "property": "C20",
   "status": "proved",
   "theorems": [
    "C20_lock_forgets",
    "C20_lock_succeeds"
   ],
   "note": ""
  },
  {
   "property": "C21",
   "status": "proved",
   "theorems": [
    "C21_locked_shows_nothing",
    "C21_unlocked_since_unlock"
   ],
   "note": ""
  },
  {
   "property": "C22",
   "status": "partial",
   "theorems": [
    "C22_describes_that_vault_partial",
    "C22_describes_that_vault_refuted"
   ],
   "note": "False when several vaults are used in one process or Unlock is called twice; proved for one vault profile with Lock in between."
  },
  {
   "property": "C23",
   "status": "proved",
   "theorems": [
    "C23_queries_read_only",
    "C23_listing_categories_harmless"
   ],
   "note": ""
  },
  {
   "property": "C24",
   "status": "proved",
   "theorems": [
    "C24_listing_exact",
    "C24_listing_of_vault"
   ],
   "note": ""
  },
  {
   "property": "C25",
   "status": "proved",
   "theorems": [
    "C25_listing_sorted",
    "C25_listing_reproducible"
   ],
   "note": ""
  },
  {
   "property": "C26",
   "status": "proved",
   "theorems": [
    "C26_count_is_listing",
    "C26_counts_add_up"
   ],
   "note": ""
  },
  {
   "property": "C27",
   "status": "proved",
   "theorems": [
    "C27_lookup_exact",
    "C27_order_independent"
   ],
   "note": ""
  },
  {
   "property": "C28",
   "status": "proved",
   "theorems": [
    "C28_listed_rows_open"
   ],
   "note": ""
  },
  {
   "property": "C29",
   "status": "proved",
   "theorems": [
    "C29_case_insensitive",
    "C29_case_insensitive_ascii",
    "C29_empty_matches_all"
   ],
   "note": ""
  },
  {
   "property": "C30",
   "status": "proved",
   "theorems": [
    "C30_all_bands_read"
   ],
   "note": ""
  },
  {
   "property": "C31",
   "status": "partial",
   "theorems": [
    "C31_empty_band_refuted",
    "C31_only_empty_band_partial"
   ],
   "note": "False of the code: an empty band among others ends the program. The partial theorem covers the vault whose only band is empty."
  },
  {
   "property": "C32",
   "status": "proved",
   "theorems": [
    "C32_other_files_ignored"
   ],
   "note": ""
  },
  {
   "property": "C33",
   "status": "partial",
   "theorems": [
    "C33_any_path_partial",
    "C33_any_path_refuted"
   ],
   "note": "False of the code for paths with glob metacharacters: the vault opens and shows no items. Proved for all other absolute paths."
  },
  {
   "property": "C34",
   "status": "partial",
   "theorems": [
    "C34_trailing_newline_band_refuted",
    "C34_trailing_newline_profile_refuted",
    "C34_newlines_inside_partial"
   ],
   "note": "False of the code: a newline at the end of profile.js or of a band ends the program. What holds: white space inside the brackets of either file is harmless (C34_newlines_inside_partial; missing: white space outside them)."
  },
  {
   "property": "C35",
   "status": "proved",
   "theorems": [
    "C35_json_round_trip",
    "C35_json_unambiguous"
   ],
   "note": ""
  },
  {
   "property": "C36",
   "status": "proved",
   "theorems": [
    "C36_validate_exact",
    "C36_valid_accepted"
   ],
   "note": ""
  },
  {
   "property": "C37",
   "status": "partial",
   "theorems": [
    "C37_every_field_shown_refuted",
    "C37_fields_shown_partial"
   ],
   "note": "False of the code: form fields next to sections, and top-level values such as the password of a Password item, are never shown. Proved: every section field with a value, every form field without sections, and the notes are shown."
  },
  {
   "property": "C38",
   "status": "proved",
   "theorems": [
    "C38_field_parsing"
   ],
   "note": ""
  },
  {
   "property": "C39",
   "status": "partial",
   "theorems": [
    "C39_dates_partial",
    "C39_dates_refuted"
   ],
   "note": "False for JSON numbers of at least 1000000 (all are shown as the epoch date); proved for texts and smaller numbers."
  },
  {
   "property": "C40",
   "status": "proved",
   "theorems": [
    "C40_month_year",
    "C40_month_year_recoverable"
   ],
   "note": ""
  },
  {
   "property": "C41",
   "status": "proved",
   "theorems": [
    "C41_address"
   ],
   "note": ""
  },
  {
   "property": "C42",
   "status": "proved",
   "theorems": [
    "C42_title_once",
    "C42_section_title",
    "C42_words_capitalised"
   ],
   "note": "Idempotence for every string under the stated Unicode laws; which letters change, for every ASCII string."
  },
  {
   "property": "C43",
   "status": "proved",
   "theorems": [
    "C43_saved_settings_read_back",
    "C43_saving_succeeds"
   ],
   "note": ""
  },
  {
   "property": "C44",
   "status": "proved",
   "theorems": [
    "C44_unknown_settings_kept"
   ],
   "note": ""
  },
  {
   "property": "C45",
   "status": "partial",
   "theorems": [
    "C45_crash_while_saving_refuted",
    "C45_crash_while_saving_partial"
   ],
   "note": "False of the code: the file is truncated before it is rewritten, and an empty file makes every later command that needs settings panic, also configure. The partial theorem describes the file at every crash point."
  },
  {
   "property": "C46",
   "status": "proved",
   "theorems": [
    "C46_no_file_defaults",
    "C46_missing_keys_default"
   ],
   "note": ""
  },
  {
   "property": "C47",
   "status": "proved",
   "theorems": [
    "C47_range_kept",
    "C47_answers_taken"
   ],
   "note": ""
  },
  {
   "property": "C48",
   "status": "partial",
   "theorems": [
    "C48_typed_path_stored_partial",
    "C48_empty_line_erases_refuted",
    "C48_blank_in_path_cut_refuted"
   ],
   "note": "False of the code: after y an empty line erases the stored path, and a path with a blank is cut at the blank. Proved for every path typed as one word; C47_answers_taken shows that any other answer keeps the path."
  },
  {
   "property": "C49",
   "status": "partial",
   "theorems": [
    "C49_reading_settings_partial",
    "C49_wrong_type_crashes_refuted"
   ],
   "note": "False of the code: a value of another type than expected makes the program panic. The partial theorem says exactly which files can be read."
  },
  {
   "property": "C50",
   "status": "partial",
   "theorems": [
    "C50_only_verified_installed_partial",
    "C50_archive_overwrites_program_refuted",
    "C50_archive_vouches_for_itself_refuted"
   ],
   "note": "False of the code: entries of the archive are written to any path, so the archive can replace the program or the downloaded checksum before anything is validated (C50_archive_overwrites_program_refuted, C50_archive_vouches_for_itself_refuted). Proved for archives whose entries stay inside the cache directory and do not overwrite the checksum."
  },
  {
   "property": "C51",
   "status": "partial",
   "theorems": [
    "C51_only_cache_touched_partial",
    "C51_only_program_changed_partial",
    "C51_archive_writes_anywhere_refuted"
   ],
   "note": "False of the code for archives with entries outside the cache directory. Proved for all archives whose entries stay inside it."
  },
  {
   "property": "C52",
   "status": "partial",
   "theorems": [
    "C52_updated_program_refuted"
   ],
   "note": "False of the code: the extracted program is created without execute permission and replaces the executable one."
  },
  {
   "property": "C53",
   "status": "proved",
   "theorems": [
    "C53_failing_step_stops"
   ],
   "note": ""
  },
  {
   "property": "C54",
   "status": "proved",
   "theorems": [
    "C54_update_complete"
   ],
   "note": ""
  },
  {
   "property": "C55",
   "status": "proved",
   "theorems": [
    "C55_no_update_without_consent"
   ],
   "note": ""
  },
  {
   "property": "C56",
   "status": "partial",
   "theorems": [
    "C56_newer_single_digits_partial",
    "C56_newer_refuted",
    "C56_rule_partial",
    "C56_newer_partial",
    "C56_letter_refuted"
   ],
   "note": "False of the code: dots are dropped before comparing, so 2.0 is not newer than 1.3.1 and 1.2.10 is; v2.0.0 is never newer. Proved: the exact rule for every version text (C56_rule_partial), and that for three components from 1.0.0 on it is right except for 1.0.z, 1.1.z and 1.2.z with z of at least two digits (C56_newer_partial)."
  },
  {
   "property": "C57",
   "status": "proved",
   "theorems": [
    "C57_up_to_date_unchanged",
    "C57_own_version_unchanged",
    "C57_lower_version_unchanged",
    "C57_update_command"
   ],
   "note": ""
  },
  {
   "property": "C58",
   "status": "partial",
   "theorems": [
    "C58_lookup_survives_partial",
    "C58_lookup_never_exits_partial",
    "C58_lookup_crashes_refuted"
   ],
   "note": "False of the code: an empty list, or a document with missing or mistyped parts, makes the program panic. Proved: it never exits, and which documents it survives."
  },
  {
   "property": "C59",
   "status": "proved",
   "theorems": [
    "C59_checks_throttled",
    "C59_forced_check_asks",
    "C59_commands_throttled",
    "C59_commands_ask",
    "C59_update_asks",
    "C59_clock_arithmetic"
   ],
   "note": ""
  },
  {
   "property": "C60",
   "status": "proved",
   "theorems": [
    "C60_no_second_request",
    "C60_not_recorded_without_answer",
    "C60_recorded_after_answer"
   ],
   "note": ""
  },
  {
   "property": "C61",
   "status": "partial",
   "theorems": [
    "C61_notifications_off_partial",
    "C61_gui_asks_anyway_refuted",
    "C61_notifications_off_refuted"
   ],
   "note": "Proved for the command line (C61_notifications_off_partial). False of the GUI, which always asks the server (C61_notifications_off_refuted; for every run of the GUI in which the check ends: C61_gui_asks_anyway_refuted)."
  },
  {
   "property": "C62",
   "status": "proved",
   "theorems": [
    "C62_checksum_decides"
   ],
   "note": ""
  },
  {
   "property": "C63",
   "status": "proved",
   "theorems": [
    "C63_overview_of_stored_items",
    "C63_overview_reveals_no_secret"
   ],
   "note": ""
  },
  {
   "property": "C64",
   "status": "proved",
   "theorems": [
    "C64_details_of_stored_item",
    "C64_window_shows_everything",
    "C64_details_shows_everything"
   ],
   "note": ""
  },
  {
   "property": "C65",
   "status": "proved",
   "theorems": [
    "C65_overview_is_masked_details",
    "C65_overview_of_stored_item"
   ],
   "note": ""
  },
  {
   "property": "C66",
   "status": "proved",
   "theorems": [
    "C66_password_needs_vault",
    "C66_no_vault_exits",
    "C66_refused_password_shows_nothing"
   ],
   "note": ""
  },
  {
   "property": "C67",
   "status": "proved",
   "theorems": [
    "C67_flag_wins",
    "C67_settings_are_default"
   ],
   "note": ""
  },
  {
   "property": "C68",
   "status": "proved",
   "theorems": [
    "C68_menu_describes_vault",
    "C68_counts_in_digits",
    "C68_menu_of_stored_vault"
   ],
   "note": ""
  },
  {
   "property": "C69",
   "status": "partial",
   "theorems": [
    "C69_last_entry_refuted",
    "C69_entry_shows_its_items_partial",
    "C69_entry_opens",
    "C69_entry_shows_its_items_refuted"
   ],
   "note": "False when nothing is in the trash: the last category then shows the trash (C69_entry_shows_its_items_refuted; in every such state: C69_last_entry_refuted). Proved in all other cases."
  },
  {
   "property": "C70",
   "status": "partial",
   "theorems": [
    "C70_tab_crashes_refuted",
    "C70_no_key_crashes_refuted",
    "C70_no_key_crashes_partial"
   ],
   "note": "False: TAB on an empty list panics (C70_no_key_crashes_refuted; always, with nothing in the trash, in the list of the last entry: C70_tab_crashes_refuted). The partial theorem lists all causes of a panic."
  },
  {
   "property": "C71",
   "status": "proved",
   "theorems": [
    "C71_selection_in_range",
    "C71_menu_moves",
    "C71_list_moves"
   ],
   "note": ""
  },
  {
   "property": "C72",
   "status": "proved",
   "theorems": [
    "C72_masked_unless_revealed",
    "C72_revealed_item",
    "C72_only_tab_reveals",
    "C72_tab"
   ],
   "note": ""
  },
  {
   "property": "C73",
   "status": "proved",
   "theorems": [
    "C73_locked_screen",
    "C73_lock_key"
   ],
   "note": ""
  },
  {
   "property": "C74",
   "status": "partial",
   "theorems": [
    "C74_lock_forgets_partial",
    "C74_lock_forgets_refuted"
   ],
   "note": "False: rows and the last selected item stay in the widgets (C74_lock_forgets_refuted). Proved: the vault object forgets items and keys."
  },
  {
   "property": "C75",
   "status": "proved",
   "theorems": [
    "C75_wrong_password",
    "C75_any_number"
   ],
   "note": ""
  },
  {
   "property": "C76",
   "status": "partial",
   "theorems": [
    "C76_gui_trims_refuted",
    "C76_same_passwords_partial",
    "C76_same_passwords_refuted"
   ],
   "note": "False for passwords with surrounding white space, which the GUI trims (C76_same_passwords_refuted; exactly: C76_gui_trims_refuted). Proved for all others, end to end."
  },
  {
   "property": "C77",
   "status": "proved",
   "theorems": [
    "C77_release_found",
    "C77_none_found",
    "C77_one_offer"
   ],
   "note": ""
  },
  {
   "property": "C78",
   "status": "proved",
   "theorems": [
    "C78_only_own_files",
    "C78_readers_write_nothing"
   ],
   "note": ""
  },
  {
   "property": "C79",
   "status": "proved",
   "theorems": [
    "C79_only_the_effect_shows",
    "C79_nothing_leaves_after_password",
    "C79_password_leaves_no_trace"
   ],
   "note": ""
  },
  {
   "property": "C80",
   "status": "partial",
   "theorems": [
    "C80_confirmed_release_partial",
    "C80_confirmed_release_refuted",
    "C80_second_answer_refuted"
   ],
   "note": "False of the code: the server is asked again after the user has confirmed, and what it answers then is installed while the confirmed version is reported (C80_confirmed_release_refuted; whatever the two answers are: C80_second_answer_refuted). Proved if both answers are the same."
  },
  {
   "property": "C81",
   "status": "proved",
   "theorems": [
    "C81_list_shows_matches",
    "C81_unknown_category"
   ],
   "note": ""
  },
  {
   "property": "C82",
   "status": "proved",
   "theorems": [
    "C82_requests",
    "C82_only_own_files"
   ],
   "note": ""
  },
  {
   "property": "C83",
   "status": "proved",
   "theorems": [
    "C83_typed_leaves_no_trace"
   ],
   "note": ""
  },
  {
   "property": "C84",
   "status": "partial",
   "theorems": [
    "C84_selected_item_highlighted_partial",
    "C84_selected_item_highlighted_refuted",
    "C84_selected_entry_highlighted_partial",
    "C84_menu_after_lock_refuted",
    "C84_menu_resized_refuted"
   ],
   "note": "False when a title has a line break, when the menu was scrolled before locking and when the terminal shrinks (three refutations). Proved for the item list without such titles, whatever happens to the terminal, and for the menu on a terminal of at least 28 lines whose size does not change."
  },
  {
   "property": "C85",
   "status": "partial",
   "theorems": [
    "C85_keys_after_back_refuted",
    "C85_help_names_keys_partial",
    "C85_help_names_keys_refuted"
   ],
   "note": "False after going back to the menu (C85_help_names_keys_refuted; always: C85_keys_after_back_refuted). Proved for every other view; in the menu the line is that of the menu or of the list."
  },
  {
   "property": "C86",
   "status": "partial",
   "theorems": [
    "C86_covered_column_refuted",
    "C86_first_line_shown",
    "C86_item_shown_from_start",
    "C86_covered_from_start_refuted"
   ],
   "note": "Proved for opening, selecting and revealing, and that the first line is always shown. False for the first column when an item that was scrolled both ways is covered (C86_covered_from_start_refuted); exactly then (C86_covered_column_refuted)."
  },
  {
   "property": "C87",
   "status": "proved",
   "theorems": [
    "C87_algorithms_meet_laws",
    "C87_opdata_round_trip",
    "C87_standard_vault_opens"
   ],
   "note": "The primitives are the algorithms themselves (RealCrypto.v); published test vectors are checked beside the theorems."
  },
  {
   "property": "C88",
   "status": "partial",
   "theorems": [
    "C88_zero_byte_refuted",
    "C88_digest_refuted"
   ],
   "note": "False of HMAC: a zero byte at the end of a short password, or the digest of a long one, opens the same vault. That a password is refused unless both key blobs authenticate is C11."
  },
  {
   "property": "C89",
   "status": "proved",
   "theorems": [
    "C89_newer_release_announced",
    "C89_nothing_announced",
    "C89_answers_alike"
   ],
   "note": ""
  },
  {
   "property": "C90",
   "status": "proved",
   "theorems": [
    "C90_times_shown",
    "C90_times_in_window",
    "C90_times_of_stored_item"
   ],
   "note": ""
  },
  {
   "property": "C91",
   "status": "partial",
   "theorems": [
    "C91_left_alone_partial",
    "C91_undisturbed_end_partial",
    "C91_two_updates_refuted"
   ],
   "note": "False if the others write into /tmp/1pass: with two updates at once one reports success and has installed what the other unpacked and had not checked (C91_two_updates_refuted). Proved for others that leave that directory and the program alone, at every moment, and that nothing unchecked is installed if nobody intervenes between checking and replacing."
  },
  {
   "property": "C92",
   "status": "partial",
   "theorems": [
    "C92_nothing_changed_partial",
    "C92_other_change_lost_refuted"
   ],
   "note": "False: configure writes back the settings it read at its start (C92_other_change_lost_refuted). Proved: with ENTER at every question all settings stay as they were at the start, whatever others do to other files."
  },
  {
   "property": "C93",
   "status": "proved",
   "theorems": [
    "C93_unknown_item"
   ],
   "note": ""
  },
  {
   "property": "C94",
   "status": "partial",
   "theorems": [
    "C94_list",
    "C94_item",
    "C94_others",
    "C94_gui",
    "C94_vault_in_front",
    "C94_one_meaning",
    "C94_in_front_refuted"
   ],
   "note": "Flags behind the command in any order; --vault also in front of it unless its value is the name of the command. Other flags in front are errors (C94_in_front_refuted). cobra and pflag are modelled from their published source."
  },
  {
   "property": "C95",
   "status": "proved",
   "theorems": [
    "C95_list",
    "C95_item",
    "C95_others",
    "C95_unknown_command"
   ],
   "note": ""
  },
  {
   "property": "C96",
   "status": "partial",
   "theorems": [
    "C96_failure_status_refuted",
    "C96_status_of_success_refuted"
   ],
   "note": "False: cobraCli.Run prints the error and the program ends with status 0, for every command line that is not understood (C96_status_of_success_refuted)."
  },
  {
   "property": "C97",
   "status": "proved",
   "theorems": [
    "C97_no_home",
    "C97_own_files"
   ],
   "note": ""
  },
  {
   "property": "C98",
   "status": "partial",
   "theorems": [
    "C98_check_otherwise_same",
    "C98_update_otherwise_same",
    "C98_gives_up",
    "C98_check_bounded_partial",
    "C98_update_bounded_partial",
    "C98_answer_unbounded_refuted",
    "C98_zero_is_no_limit_refuted",
    "C98_requests"
   ],
   "note": "False: only connecting is limited, so a server that accepts the connection keeps the program waiting for any time or for ever, and timeout 0 in the settings file is no limit at all (refuted). Proved: the bounds for servers that answer once connected, that an unreachable server costs exactly the timeout, that time changes nothing else, and how many requests there can be."
  },
  {
   "property": "C99",
   "status": "proved",
   "theorems": [
    "C99_interrupted_check"
   ],
   "note": ""
  },
  {
   "property": "C100",
   "status": "partial",
   "theorems": [
    "C100_entries_readable_partial",
    "C100_entries_readable_refuted"
   ],
   "note": "False after the terminal has become narrower: the menu is written once, for the width it had then (refuted). Proved while the size stays the same, for terminals of at least 28 lines and labels that leave three columns free."
  },
  {
   "property": "C101",
   "status": "proved",
   "theorems": [
    "C101_top_line"
   ],
   "note": ""
  },
  {
   "property": "C102",
   "status": "proved",
   "theorems": [
    "C102_not_a_vault",
    "C102_asks_for_password",
    "C102_opens_the_vault"
   ],
   "note": ""
  },
  {
   "property": "C103",
   "status": "proved",
   "theorems": [
    "C103_check_ends",
    "C103_check_alone",
    "C103_check_at_one_moment"
   ],
   "note": "Each step of the goroutine is atomic in the model; writing to the view and drawing it are not synchronised in the code (data races below that grain are not modelled). The settings directory has to be there and the vault path free of wild cards."
  },
  {
   "property": "C104",
   "status": "partial",
   "theorems": [
    "C104_never_anything_new",
    "C104_one_by_one_partial",
    "C104_pasted_password_refuted",
    "C104_masked_unless_revealed"
   ],
   "note": "False for a password that arrives together with ENTER, such as a pasted line: the text drawn before is tried instead, for every text (C104_pasted_password_refuted). Proved exactly for all portions in which ENTER does not wait behind typed text and a new size is the last event (C104_one_by_one_partial), and for all portions that they lead nowhere where single events do not lead (C104_never_anything_new), so that theorems about all events carry over (C104_masked_unless_revealed). gocui's main loop is modelled from its published source."
  },
  {
   "property": "C105",
   "status": "partial",
   "theorems": [
    "C105_up_to_date",
    "C105_one_state",
    "C105_verdict_waits_refuted",
    "C105_verdict_appears"
   ],
   "note": "False for the result of the update check: the goroutine does not wake the loop, so the terminal stays as it was until the next event (C105_verdict_waits_refuted). Proved: after every event the terminal is up to date, then also with that result, and it always shows one reachable state."
  },
  {
   "property": "C106",
   "status": "partial",
   "theorems": [
    "C106_good_update_works",
    "C106_try_again",
    "C106_directories_refuted"
   ],
   "note": "Proved for archives of plain files. False for archives that keep a file in a directory: no directory is made for it, so that such a release never can be installed (C106_directories_refuted)."
  },
  {
   "property": "C107",
   "status": "proved",
   "theorems": [
    "C107_same_text"
   ],
   "note": ""
  },
  {
   "property": "C108",
   "status": "partial",
   "theorems": [
    "C108_harmless_text_partial",
    "C108_texts_as_they_are",
    "C108_any_text_refuted"
   ],
   "note": "False: every text of an item is printed byte for byte (C108_texts_as_they_are), and for every text there is a vault that makes overview print it (C108_any_text_refuted). Proved if the texts that are printed have no control characters (C108_harmless_text_partial). list hands its rows to the table writer of go-pretty, which is not modelled."
  },
  {
   "property": "C109",
   "status": "proved",
   "theorems": [
    "C109_settings_shown"
   ],
   "note": "For runs of configure that succeed."
  },
  {
   "property": "C110",
   "status": "proved",
   "theorems": [
    "C110_update_command"
   ],
   "note": "For archives of plain files and an existing settings directory."
  },
  {
   "property": "C111",
   "status": "partial",
   "theorems": [
    "C111_any_answer_partial",
    "C111_odd_answer_refuted"
   ],
   "note": "A list without a proper release (such as []) stops every command before anything is shown, for every such state (C111_odd_answer_refuted, finding 44); for every other answer the property holds (C111_any_answer_partial), for vault paths without glob characters that are not the place of the lastcheck file itself."
  },
  {
   "property": "C112",
   "status": "proved",
   "theorems": [
    "C112_same_later"
   ],
   "note": "For settings that exist, a settings directory that exists and holds no directory named lastcheck, vault paths without glob characters, and server answers at the two compared runs other than lists without a proper release (those stop the command, C111); the runs in between may meet any answer. Runs of update and configure are there to change something and are not part of the history."
  },
  {
   "property": "C113",
   "status": "proved",
   "theorems": [
    "C113_arrow_moves",
    "C113_arrows_move",
    "C113_all_in_sight",
    "C113_scrolls_past_end"
   ],
   "note": "proved: C113_arrow_moves and C113_arrows_move say exactly what any arrows do, C113_all_in_sight that every place can be brought into sight; C113_scrolls_past_end shows that the scrolling is not stopped at the end of the item (finding 45)."
  },
  {
   "property": "C114",
   "status": "proved",
   "theorems": [
    "C114_every_item_found",
    "C114_stored_item_found"
   ],
   "note": "proved: C114_every_item_found from every state of an open vault, C114_stored_item_found from the password prompt for a vault stored on the disk; window at least 6 x 10. The wrong list of the last menu entry (finding of C69) does not hide an item, because the first entry lists it too."
  },
  {
   "property": "C115",
   "status": "proved",
   "theorems": [
    "C115_never_locked_out"
   ],
   "note": "proved: C115_never_locked_out, for a vault whose profile on the disk is still the one read at the start; window at least 6 x 10."
  },
  {
   "property": "C116",
   "status": "proved",
   "theorems": [
    "C116_ends_only_on_request",
    "C116_ends_on_request"
   ],
   "note": "proved: C116_ends_on_request and C116_ends_only_on_request for whole runs. Ends with an error are the subject of C70."
  }
 ]
}