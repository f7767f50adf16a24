{
 "claims": [
  {
   "property": "C01",
   "status": "proved",
   "theorems": [
    "C01_locked_answers",
    "C01_locked_without_passphrase",
    "C01_locked_no_effect"
   ],
   "note": ""
  },
  {
   "property": "C02",
   "status": "proved",
   "theorems": [
    "C02_unlocked_only_by_passphrase",
    "C02_unlock_answer",
    "C02_wrong_unlock_changes_nothing"
   ],
   "note": ""
  },
  {
   "property": "C03",
   "status": "proved",
   "theorems": [
    "C03_connections_apart",
    "C03_unlocked_by_itself",
    "C03_new_locked",
    "C03_stays_unlocked"
   ],
   "note": ""
  },
  {
   "property": "C04",
   "status": "proved",
   "theorems": [
    "C04_limit",
    "C04_taken",
    "C04_answer_to_itself",
    "C04_at_most_one",
    "C04_exactly_one",
    "C04_always_tried",
    "C04_ends"
   ],
   "note": ""
  },
  {
   "property": "C05",
   "status": "proved",
   "theorems": [
    "C05_responses_refused"
   ],
   "note": ""
  },
  {
   "property": "C06",
   "status": "proved",
   "theorems": [
    "C06_unique",
    "C06_taken_refused",
    "C06_one_winner"
   ],
   "note": ""
  },
  {
   "property": "C07",
   "status": "partial",
   "theorems": [
    "C07_direct_told",
    "C07_direct_works",
    "C07_append_only",
    "C07_stored_for_good",
    "C07_asked_for",
    "C07_success_wrote_one",
    "C07_error_wrote_nothing",
    "C07_error_after_write_refuted",
    "C07_reads_write_nothing"
   ],
   "note": "Append-only, and success means exactly one entry added: proved in full, for requests and for direct calls on the store (C07_direct_told). The clause about failures is proved when nothing fails while the request is handled (C07_error_wrote_nothing); it is false when the answer, unlike the request, does not fit a frame: the entry is stored and an error is sent (C07_error_after_write_refuted)."
  },
  {
   "property": "C08",
   "status": "proved",
   "theorems": [
    "C08_found",
    "C08_nothing_else",
    "C08_announced_is_stored",
    "C08_get_entry"
   ],
   "note": ""
  },
  {
   "property": "C09",
   "status": "proved",
   "theorems": [
    "C09_store_list",
    "C09_list_answer",
    "C09_list_succeeds",
    "C09_only_public"
   ],
   "note": ""
  },
  {
   "property": "C10",
   "status": "proved",
   "theorems": [
    "C10_memory_store_right",
    "C10_sqlite_store_right",
    "C10_same_answers",
    "C10_sqlite_reopened"
   ],
   "note": ""
  },
  {
   "property": "C11",
   "status": "proved",
   "theorems": [
    "C11_cache_is_store",
    "C11_caches_invisible"
   ],
   "note": ""
  },
  {
   "property": "C12",
   "status": "proved",
   "theorems": [
    "C12_caches"
   ],
   "note": ""
  },
  {
   "property": "C13",
   "status": "proved",
   "theorems": [
    "C13_what_is_exported",
    "C13_never_exported",
    "C13_created_not_exportable",
    "C13_exportable_origin"
   ],
   "note": ""
  },
  {
   "property": "C14",
   "status": "proved",
   "theorems": [
    "C14_export_import",
    "C14_export_succeeds",
    "C14_same_signatures"
   ],
   "note": ""
  },
  {
   "property": "C15",
   "status": "proved",
   "theorems": [
    "C15_import_stores_only_boxed",
    "C15_refused"
   ],
   "note": ""
  },
  {
   "property": "C16",
   "status": "proved",
   "theorems": [
    "C16_as_bundles",
    "C16_signs_as_bundle",
    "C16_derive_answer",
    "C16_paths_compose",
    "C16_derive_succeeds"
   ],
   "note": ""
  },
  {
   "property": "C17",
   "status": "partial",
   "theorems": [
    "C17_derive_deep_partial",
    "C17_opens_partial",
    "C17_other_limits_refused",
    "C17_refuted"
   ],
   "note": "False of the code as stated: the limits of the request, not those of the entry, are used (C17_refuted). Proved exactly: the passphrase opens the source if, hashed with the limits of the request, it does (C17_opens_partial; C17_derive_deep_partial when these are the limits of the entry) and otherwise the request is refused (C17_other_limits_refused)."
  },
  {
   "property": "C18",
   "status": "proved",
   "theorems": [
    "C18_signature_verifies",
    "C18_deep_signature",
    "C18_sign_succeeds"
   ],
   "note": "For deep-locked keys the signature verifies unless the passphrase sent opens the stored ciphertext to the seed of another key; excluding that would need a key-committing cipher."
  },
  {
   "property": "C19",
   "status": "partial",
   "theorems": [
    "C19_as_configured",
    "C19_fallback_only_if_not_held",
    "C19_not_held",
    "C19_held_signs_itself",
    "C19_fallback_signature_refuted"
   ],
   "note": "Everything but the last clause: the signature returned by the fallback is not checked (C19_fallback_signature_refuted)."
  },
  {
   "property": "C20",
   "status": "proved",
   "theorems": [
    "C20_deep_sign_succeeds",
    "C20_no_passphrase",
    "C20_wrong_passphrase"
   ],
   "note": ""
  },
  {
   "property": "C21",
   "status": "proved",
   "theorems": [
    "C21_box_open",
    "C21_box_sign_open",
    "C21_box_succeeds",
    "C21_box_sign_succeeds",
    "C21_short_refused"
   ],
   "note": ""
  },
  {
   "property": "C22",
   "status": "proved",
   "theorems": [
    "C22_secret_box_open",
    "C22_secret_box_answer"
   ],
   "note": ""
  },
  {
   "property": "C23",
   "status": "proved",
   "theorems": [
    "C23_key_of_certificate",
    "C23_only_that_key",
    "C23_not_for_seeds"
   ],
   "note": ""
  },
  {
   "property": "C24",
   "status": "partial",
   "theorems": [
    "C24_server_never_panics",
    "C24_short_frame_refuted",
    "C24_frames_partial",
    "C24_exactly",
    "C24_secret_data_refuted"
   ],
   "note": "False of the code: frames shorter than 17 bytes and secret data with a ciphertext shorter than 17 bytes panic (C24_short_frame_refuted, C24_secret_data_refuted). Proved: nothing else does, and the server's request handlers never panic on them. C24_exactly says when a receiver panics: exactly when the frame after those it has taken is too short."
  },
  {
   "property": "C25",
   "status": "partial",
   "theorems": [
    "C25_generates",
    "C25_not_text_refuted",
    "C25_panics_exactly",
    "C25_starts_always",
    "C25_nothing_lost",
    "C25_identity_partial",
    "C25_passphrase_unlocks"
   ],
   "note": "Starts always (C25_starts_always), and no attempt to start or use loses what the database holds (C25_nothing_lost). The key in the address is the server's for directories whose path has no question mark or number sign (C25_identity_partial; C45_exactly and C45_question_refuted for the others). Generating panics exactly for directories that are not text (C25_panics_exactly, C25_not_text_refuted)."
  },
  {
   "property": "C26",
   "status": "proved",
   "theorems": [
    "C26_opens_both",
    "C26_unlock_opens",
    "C26_two_keys",
    "C26_refused",
    "C26_database_key"
   ],
   "note": ""
  },
  {
   "property": "C27",
   "status": "proved",
   "theorems": [
    "C27_agreement",
    "C27_agreement_if_finished",
    "C27_context_keys",
    "C27_then_messages",
    "C27_hello_names_the_server",
    "C27_other_server_refused"
   ],
   "note": ""
  },
  {
   "property": "C28",
   "status": "proved",
   "theorems": [
    "C28_frames_arrive",
    "C28_send_limit",
    "C28_truncated",
    "C28_overlong_refused",
    "C28_any_stream"
   ],
   "note": ""
  },
  {
   "property": "C29",
   "status": "partial",
   "theorems": [
    "C29_in_order_partial",
    "C29_all_arrive",
    "C29_refused_when",
    "C29_after_refusal_refuted",
    "C29_exactly",
    "C29_usable_after_refusal_refuted"
   ],
   "note": "First clause proved up to a ciphertext of a later position opening at an earlier one (excluded in practice by the cipher, not by its laws). Second clause false of the code: a refused send advances the encryption state, and nothing sent later can be read (C29_after_refusal_refuted, C29_usable_after_refusal_refuted). C29_exactly: over a good line exactly the messages before the first refused one arrive."
  },
  {
   "property": "C30",
   "status": "partial",
   "theorems": [
    "C30_other_answers_partial",
    "C30_boxes_limited",
    "C30_box_lost_refuted",
    "C30_read_back",
    "C30_exactly",
    "C30_delivered_fits",
    "C30_large_keystore_refuted",
    "C30_connection_lost_refuted",
    "C30_small_keystore_partial",
    "C30_list_lost_refuted"
   ],
   "note": "False of the code: a list of entries longer than a frame is never delivered, nor is the error, nor anything after it (C30_large_keystore_refuted, C30_connection_lost_refuted, C30_list_lost_refuted). Lists that fit are shown to fit (C30_small_keystore_partial). So it is with boxes: binary data is written as an array of numbers, two bytes for each byte from 128 on, so that a request to encrypt 5000 bytes fits a frame and its answer does not (C30_boxes_limited, C30_box_lost_refuted). Of requests other than for the list, answers that are not errors fit if what they carry (the request's id and tag, twice the data or the certificate) is small enough (C30_other_answers_partial); the length of error texts is not modelled. C30_read_back: what is delivered and is not an error is read by the client as it was sent; C30_exactly: over a good line the client gets exactly the answers before the first that does not fit a frame."
  },
  {
   "property": "C31",
   "status": "partial",
   "theorems": [
    "C31_interleaving_partial",
    "C31_no_deadlock_partial",
    "C31_abandoned_refuted",
    "C31_exactly",
    "C31_reported",
    "C31_works"
   ],
   "note": "Proved as long as no call is abandoned while it has the sender. Abandoning such a call loses the sender: later calls panic (C31_abandoned_refuted). C31_exactly: a further call can come to its end exactly when no call was abandoned while it had the sender."
  },
  {
   "property": "C32",
   "status": "partial",
   "theorems": [
    "C32_never_shared",
    "C32_permits_return",
    "C32_none_lost_partial",
    "C32_cancelled_refuted",
    "C32_panics_refuted",
    "C32_read_lost_refuted",
    "C32_lost_exactly"
   ],
   "note": "Proved for all schedules: no connection is shared, permits return, and a connection is lost exactly when the future of the call that has it in a transaction is dropped or that transaction panics, and then for ever (C32_lost_exactly; C32_none_lost_partial for histories without either). So the full property is false: C32_cancelled_refuted, C32_panics_refuted, C32_read_lost_refuted."
  },
  {
   "property": "C33",
   "status": "partial",
   "theorems": [
    "C33_uninterrupted",
    "C33_survives_partial",
    "C33_never_gone",
    "C33_blocked_refuted",
    "C33_emptied_refuted",
    "C33_exactly",
    "C33_encrypted_untouched",
    "C33_unasked_untouched"
   ],
   "note": "An uninterrupted migration keeps every entry, and the entries are always in one of the two files. A crash between the export and the rename is not survived: the next start is refused for ever (C33_blocked_refuted) or succeeds with an empty store (C33_emptied_refuted). C33_exactly: the entries are found again exactly if no file of the interrupted migration is left."
  },
  {
   "property": "C34",
   "status": "partial",
   "theorems": [
    "C34_one_server_partial",
    "C34_name_refuted",
    "C34_race_refuted",
    "C34_exactly"
   ],
   "note": "Proved when servers are started one at a time and carry the package's name (C34_one_server_partial). False of the code: the executable built is called lair-keystore, the check looks for lair_keystore (C34_name_refuted); and two starts at the same time over the file of a dead server both succeed under any name (C34_race_refuted). C34_exactly: a second server started with nothing else going on gets in just when the pid file is not empty and names neither a living process of the package's name nor, if it has that name, itself."
  },
  {
   "property": "C35",
   "status": "partial",
   "theorems": [
    "C35_number_read",
    "C35_number_range",
    "C35_restart_partial",
    "C35_empty_file_reached",
    "C35_empty_file_refuted",
    "C35_pid_reuse_refuted",
    "C35_exactly"
   ],
   "note": "Proved unless the file is empty or names a living process of the package's name (C35_restart_partial). False in those cases: C35_empty_file_refuted, reached by a crash (C35_empty_file_reached), and C35_pid_reuse_refuted. C35_exactly: in these cases and no others."
  },
  {
   "property": "C36",
   "status": "partial",
   "theorems": [
    "C36_delivered",
    "C36_own_answer",
    "C36_at_most_one",
    "C36_waits_for_program_only",
    "C36_gone",
    "C36_comes_to_rest",
    "C36_garbage_kills",
    "C36_one_program",
    "C36_silent_refuted",
    "C36_same_id_refuted",
    "C36_well_behaved_kept",
    "C36_bad_signature_kills",
    "C36_queue_bounded",
    "C36_nothing_left"
   ],
   "note": "Own answer, at most one call per answer line, calls wait only for the program, everything ends once the programs are gone, tasks come to rest: proved for all schedules. False of the code: there is no time limit on a silent program (C36_silent_refuted), and two requests with one id - ids are chosen by the clients - mix up their answers (C36_same_id_refuted). C36_delivered: what a program prints for a waiting call whose id no other call has is what the caller gets."
  },
  {
   "property": "C37",
   "status": "partial",
   "theorems": [
    "C37_own_answer",
    "C37_at_most_once",
    "C37_nothing_remains",
    "C37_delivered",
    "C37_ends_with_connection",
    "C37_times_out",
    "C37_sending_untimed_refuted",
    "C37_same_id_refuted",
    "C37_panic_untold",
    "C37_result"
   ],
   "note": "Own answer, at most once, nothing remains registered, ends with the connection, times out: proved for all schedules. False of the code: the time limit does not cover sending (C37_sending_untimed_refuted); two calls with one id lose both answers (C37_same_id_refuted)."
  },
  {
   "property": "C38",
   "status": "proved",
   "theorems": [
    "C38_entry_round_trip",
    "C38_entries_apart",
    "C38_any_bytes"
   ],
   "note": ""
  },
  {
   "property": "C39",
   "status": "proved",
   "theorems": [
    "C39_message_round_trip",
    "C39_messages_apart",
    "C39_any_bytes"
   ],
   "note": ""
  },
  {
   "property": "C40",
   "status": "proved",
   "theorems": [
    "C40_text_round_trip",
    "C40_texts_apart",
    "C40_one_text",
    "C40_sized",
    "C40_plain_characters",
    "C40_standard_round_trip"
   ],
   "note": ""
  },
  {
   "property": "C41",
   "status": "proved",
   "theorems": [
    "C41_any_secret_opens",
    "C41_lock_succeeds",
    "C41_only_bundles"
   ],
   "note": ""
  },
  {
   "property": "C42",
   "status": "partial",
   "theorems": [
    "C42_unknown_cipher_refuted",
    "C42_never_reported_refuted",
    "C42_exactly"
   ],
   "note": "False of the code: one cipher of an unknown kind makes the whole bundle unreadable (C42_unknown_cipher_refuted), and the unsupported-cipher answer is never given (C42_never_reported_refuted). That all ciphers of known kinds are listed is C41_any_secret_opens. C42_exactly: a bundle opens just when each of its ciphers alone would."
  },
  {
   "property": "C43",
   "status": "partial",
   "theorems": [
    "C43_scoped_partial",
    "C43_inside",
    "C43_nested_refuted",
    "C43_after_exactly",
    "C43_panic_refuted",
    "C43_ordered",
    "C43_in_deep_locks"
   ],
   "note": "Proved for scopes that are not nested and that no panic leaves (C43_scoped_partial), within every scope up to the first scope inside it (C43_inside), and in general after a scope: the default is in force, so what was in force before is only if that was the default (C43_after_exactly). False otherwise: C43_nested_refuted, C43_panic_refuted."
  },
  {
   "property": "C44",
   "status": "partial",
   "theorems": [
    "C44_same_answers_unlock_alike",
    "C44_variants_unlock",
    "C44_same_passphrase_partial",
    "C44_exactly",
    "C44_boundaries_refuted"
   ],
   "note": "First clause proved in full. Second clause false of the code: the boundaries between answers are not kept (C44_boundaries_refuted). Proved instead: equal passphrases mean equal answers up to case, white space and boundaries. C44_exactly: that is also enough."
  },
  {
   "property": "C45",
   "status": "partial",
   "theorems": [
    "C45_key_in_url_partial",
    "C45_question_refuted",
    "C45_number_sign_refuted",
    "C45_no_query_refused",
    "C45_other_names_refused",
    "C45_text_reads_back",
    "C45_text_plain",
    "C45_exactly"
   ],
   "note": "Proved for directories whose path has no question mark or number sign, for any other query, and for reading the text back (C45_text_reads_back). False otherwise: the key ends up in another part of the URL and is not found (C45_question_refuted, C45_number_sign_refuted). C45_exactly: the address carries the key, whatever it is, exactly when the path has neither character."
  },
  {
   "property": "C46",
   "status": "partial",
   "theorems": [
    "C46_any_text",
    "C46_plain",
    "C46_text_partial",
    "C46_text_iff",
    "C46_two_newlines_refuted"
   ],
   "note": "The text with comments reads back to the configuration exactly when no path or last fallback argument standing before a comment is a line break or ends in two (C46_text_iff); with two it reads back changed (C46_two_newlines_refuted). Assumes one-line YAML scalars read back (YamlOk)."
  },
  {
   "property": "C47",
   "status": "partial",
   "theorems": [
    "C47_as_typed",
    "C47_import_lines_partial",
    "C47_import_exactly",
    "C47_import_trims_refuted"
   ],
   "note": "A single passphrase is used as typed (C47_as_typed). The two passphrases of the import command are trimmed of white space, so those that begin or end with any are not used as given (C47_import_trims_refuted); all others are (C47_import_lines_partial). C47_import_exactly: of any text, the import takes the lines without the white space around them and without the empty ones."
  },
  {
   "property": "C48",
   "status": "proved",
   "theorems": [
    "C48_key_statement",
    "C48_too_long",
    "C48_attach_same_key",
    "C48_keys_distinct",
    "C48_salt_statement",
    "C48_salts_distinct"
   ],
   "note": ""
  },
  {
   "property": "C49",
   "status": "proved",
   "theorems": [
    "C49_restart_keeps_entries",
    "C49_signs_after_restart",
    "C49_deep_signs_after_restart",
    "C49_same_signature",
    "C49_derives_after_restart",
    "C49_opens_after_restart"
   ],
   "note": ""
  },
  {
   "property": "C50",
   "status": "partial",
   "theorems": [
    "C50_ext_ciphers",
    "C50_ext_app_data_refuted",
    "C50_exactly"
   ],
   "note": "True of salts, headers and ciphertexts; false of the application data (C50_ext_app_data_refuted). C50_exactly: of these, and of nothing else."
  },
  {
   "property": "C51",
   "status": "proved",
   "theorems": [
    "C51_seed_and_path",
    "C51_steps",
    "C51_survives_locking",
    "C51_derived_signs"
   ],
   "note": ""
  },
  {
   "property": "C52",
   "status": "partial",
   "theorems": [
    "C52_socket_path_partial",
    "C52_leaves_directory_refuted",
    "C52_exactly"
   ],
   "note": "True exactly of paths without question marks, number signs, tabs, line ends and percent signs before two hexadecimal digits (C52_exactly). With percent signs the socket may even be in another directory (C52_leaves_directory_refuted)."
  },
  {
   "property": "C53",
   "status": "partial",
   "theorems": [
    "C53_never_overwrites",
    "C53_one_text_partial",
    "C53_made_stays",
    "C53_run_again",
    "C53_killed_refuted",
    "C53_again_exactly"
   ],
   "note": "A run killed while it writes leaves a partial file that later runs refuse (C53_killed_refuted). Everything else proved. C53_again_exactly: a later run can succeed exactly if there is no file."
  },
  {
   "property": "C54",
   "status": "proved",
   "theorems": [
    "C54_import",
    "C54_wrong_passphrase"
   ],
   "note": ""
  },
  {
   "property": "C55",
   "status": "partial",
   "theorems": [
    "C55_undisturbed_partial",
    "C55_wrong_passphrase_refuted",
    "C55_exactly"
   ],
   "note": "Proved in the orderly case of C34 (C55_undisturbed_partial). False of the code: the socket is replaced before the passphrase is tried, C55_wrong_passphrase_refuted. C55_exactly: a refused start does harm just when the pid file would not have stopped it."
  },
  {
   "property": "C56",
   "status": "proved",
   "theorems": [
    "C56_question_says",
    "C56_stream"
   ],
   "note": ""
  },
  {
   "property": "C57",
   "status": "proved",
   "theorems": [
    "C57_answer_iff",
    "C57_signature_taken",
    "C57_error_taken",
    "C57_lines",
    "C57_texts",
    "C57_escapes"
   ],
   "note": ""
  },
  {
   "property": "C58",
   "status": "proved",
   "theorems": [
    "C58_parts",
    "C58_own_answer",
    "C58_once",
    "C58_answered",
    "C58_final"
   ],
   "note": ""
  },
  {
   "property": "C59",
   "status": "proved",
   "theorems": [
    "C59_exportable_as_asked",
    "C59_not_exported",
    "C59_derive_passphrase",
    "C59_derive",
    "C59_get",
    "C59_list",
    "C59_sign",
    "C59_signature",
    "C59_box",
    "C59_box_by_sign",
    "C59_secret_box",
    "C59_export_import",
    "C59_cert",
    "C59_created_once"
   ],
   "note": ""
  },
  {
   "property": "C60",
   "status": "proved",
   "theorems": [
    "C60_unlock",
    "C60_locked",
    "C60_deep_sign"
   ],
   "note": ""
  },
  {
   "property": "C61",
   "status": "proved",
   "theorems": [
    "C61_usable",
    "C61_succeeds",
    "C61_passphrase_withheld"
   ],
   "note": ""
  },
  {
   "property": "C62",
   "status": "proved",
   "theorems": [
    "C62_panic_silences",
    "C62_only_loses",
    "C62_own_answer",
    "C62_once_in_order",
    "C62_locked",
    "C62_get",
    "C62_sign"
   ],
   "note": ""
  },
  {
   "property": "C63",
   "status": "proved",
   "theorems": [
    "C63_client_told",
    "C63_server_closes",
    "C63_no_forgery",
    "C63_reading",
    "C63_next_request",
    "C63_next_answer",
    "C63_answered",
    "C63_next_read"
   ],
   "note": ""
  },
  {
   "property": "C64",
   "status": "proved",
   "theorems": [
    "C64_nonces",
    "C64_creates",
    "C64_no_reuse",
    "C64_own_places",
    "C64_config",
    "C64_client"
   ],
   "note": ""
  },
  {
   "property": "C65",
   "status": "partial",
   "theorems": [
    "C65_taken_in_partial",
    "C65_order",
    "C65_own",
    "C65_listening_refuted",
    "C65_stalled_refuted",
    "C65_stops_exactly"
   ],
   "note": "Proved while accept() does not fail and fewer than 4096 handshakes are unfinished (C65_taken_in_partial); order and independence proved in full. False otherwise: the first failing accept(), for instance for want of file descriptors, ends listening for good even after everybody has left (C65_listening_refuted), and 4096 silent clients keep everyone out (C65_stalled_refuted). C65_stops_exactly: when listening stops, and who is refused."
  },
  {
   "property": "C66",
   "status": "proved",
   "theorems": [
    "C66_all_answered",
    "C66_others_not_needed",
    "C66_bounded",
    "C66_store_shared",
    "C66_unread_waits"
   ],
   "note": "Proved for clients that read (C66_all_answered, C66_others_not_needed, C66_bounded). The last sentence of the statement is C66_unread_waits: a client that does not read is stuck, and nothing ends it. Time and the fallback signer are not part of Flow."
  },
  {
   "property": "C67",
   "status": "proved",
   "theorems": [
    "C67_any_spelling",
    "C67_as_array",
    "C67_entry_any_spelling",
    "C67_entry_as_array",
    "C67_nothing_twice",
    "C67_nothing_extra_in_arrays"
   ],
   "note": "The spelling of the outer structure is arbitrary; structures nested in it (seed info, certificate info, deep-lock passphrase) are as lair writes them in C67_any_spelling and C67_as_array. Duplicates inside nested structures are refused by the same readers but not stated."
  },
  {
   "property": "C68",
   "status": "partial",
   "theorems": [
    "C68_parts",
    "C68_from_program",
    "C68_asked_for",
    "C68_once",
    "C68_waits_for_program_only",
    "C68_comes_to_rest",
    "C68_gone",
    "C68_verifies",
    "C68_same_id_refuted"
   ],
   "note": "C68_verifies needs that no two requests given to one program have the same id; C68_same_id_refuted shows that this is needed. Everything else in the statement is proved without it."
  },
  {
   "property": "C69",
   "status": "proved",
   "theorems": [
    "C69_made_once",
    "C69_url",
    "C69_one_keystore",
    "C69_refused",
    "C69_kept",
    "C69_imported",
    "C69_import_works",
    "C69_import_refused",
    "C69_clients"
   ],
   "note": "Commands run one after another (at the same time: C34, C53); C69_imported says what an import adds according to what it printed, C69_import_works when it goes through. Paths with characters that mean something in a URL are excluded by the statement (C45_question_refuted, C52_leaves_directory_refuted). C69_clients joins the commands with the network of C62: clients given the URL and the passphrase can use every server started in the directory and find what was created with earlier ones."
  },
  {
   "property": "C70",
   "status": "partial",
   "theorems": [
    "C70_open",
    "C70_usable",
    "C70_dropped_refuted",
    "C70_winds_down",
    "C70_let_go",
    "C70_exactly",
    "C70_nothing_kept",
    "C70_soon",
    "C70_shutdown",
    "C70_any_time"
   ],
   "note": "False of the code as stated: a client that drops its last handle without shutdown keeps the connection open for ever, because its receiving task holds both ends (C70_dropped_refuted). All other clauses are proved (C70_open, C70_usable, C70_shutdown, C70_let_go, C70_nothing_kept, C70_soon). C70_exactly: once the handles are dropped, the connection is released exactly if it was ended."
  },
  {
   "property": "C71",
   "status": "proved",
   "theorems": [
    "C71_for_this_name",
    "C71_own_name",
    "C71_presentable",
    "C71_names_differ"
   ],
   "note": "The certificate generator (crate rcgen) is a parameter; that its certificates are for the names it is asked for is in the trusted base. Names may have underscores, which host names proper have not."
  },
  {
   "property": "C72",
   "status": "proved",
   "theorems": [
    "C72_answers",
    "C72_store_texts",
    "C72_at_rest",
    "C72_rows",
    "C72_config",
    "C72_client"
   ],
   "note": "Which terms may occur where; that ciphertexts and hashes hide what goes into them is the library's claim, in the trusted base. What the programs write to their log is not modelled."
  },
  {
   "property": "C73",
   "status": "proved",
   "theorems": [
    "C73_at_one_instant",
    "C73_as_if_alone",
    "C73_in_turn",
    "C73_list_is_a_snapshot",
    "C73_lookup_is_a_snapshot",
    "C73_calls_at_one_instant",
    "C73_listing_is_a_snapshot",
    "C73_over_a_network"
   ],
   "note": "For requests during whose handling no outside call fails; without that proviso it is false (C07_error_after_write_refuted). The order for a whole history is for runs in which everything received was answered and nobody uses the store but through the server."
  },
  {
   "property": "C74",
   "status": "partial",
   "theorems": [
    "C74_as_if_earlier",
    "C74_checkpointed",
    "C74_power_on",
    "C74_newest_go",
    "C74_recent_refuted",
    "C74_exactly",
    "C74_told_refuted",
    "C74_configuration",
    "C74_configuration_refuted",
    "C74_configuration_found"
   ],
   "note": "The keystore is always as if it had been killed at an earlier moment (C74_as_if_earlier: every theorem about histories applies); what was there at a checkpoint stays, what is lost are the newest entries. False of the code that nothing acknowledged is lost: synchronous is NORMAL, with a write-ahead log, so commits are not flushed (C74_recent_refuted, C74_told_refuted; C74_exactly), and init does not flush the configuration (C74_configuration_refuted). What sqlite promises for these settings is taken from its documentation."
  },
  {
   "property": "C75",
   "status": "partial",
   "theorems": [
    "C75_acts_there",
    "C75_apart",
    "C75_same_keystore",
    "C75_address",
    "C75_init_works",
    "C75_missing_refuted"
   ],
   "note": "False of the code: init does not make a missing directory, although it contains the code for it; the directory is looked up first (C75_missing_refuted). Everything else proved. Directories are not removed or renamed in the model."
  },
  {
   "property": "C76",
   "status": "partial",
   "theorems": [
    "C76_seed_partial",
    "C76_wrong_secret",
    "C76_app_data_refuted",
    "C76_questions_refuted"
   ],
   "note": "Proved of the seed: what opens with the owner's secret gives the seed that was locked or is a forged ciphertext (C76_seed_partial), and opening with another secret shows a ciphertext that opens under two keys (C76_wrong_secret). False of the application data and the questions, which are not authenticated: anybody can replace them (C76_app_data_refuted, C76_questions_refuted)."
  },
  {
   "property": "C77",
   "status": "proved",
   "theorems": [
    "C77_imported"
   ],
   "note": "The bundle's first cipher is the passphrase given; for later ones C54_import says what an earlier cipher that opens too would change. A network that forges ciphertexts and requests disturbed by failures are excluded as in C62."
  },
  {
   "property": "C78",
   "status": "proved",
   "theorems": [
    "C78_stored",
    "C78_answered",
    "C78_signer"
   ],
   "note": "The client has sent a digest of a passphrase that opens the keystore, sealed with the key of its own connection. Entries put there by the server's own process (the direct calls of the store) are the other case of C78_stored. A network that forges ciphertexts is excluded as in C62."
  },
  {
   "property": "C79",
   "status": "proved",
   "theorems": [
    "C79_unlock",
    "C79_deep_sign",
    "C79_not_exported",
    "C79_box",
    "C79_box_by_sign",
    "C79_secret_box",
    "C79_export_import",
    "C79_derive",
    "C79_cert_key",
    "C79_created_once"
   ],
   "note": "A network that forges ciphertexts is excluded as in C62; calls disturbed by failures of the machine are excluded where success is promised."
  }
 ]
}