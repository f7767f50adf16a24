{
 "C07": {
  "note": "Append-only, and success means exactly one entry added: proved in full, for requests and for direct calls on the store (C07_direct_told). The clause about failures is proved when nothing fails while the request is handled (C07_error_wrote_nothing); it is false when the answer, unlike the request, does not fit a frame: the entry is stored and an error is sent (C07_error_after_write_refuted)."
 },
 "C17": {
  "note": "False of the code as stated: the limits of the request, not those of the entry, are used (C17_refuted). Proved exactly: the passphrase opens the source if, hashed with the limits of the request, it does (C17_opens_partial; C17_derive_deep_partial when these are the limits of the entry) and otherwise the request is refused (C17_other_limits_refused)."
 },
 "C18": {
  "note": "For deep-locked keys the signature verifies unless the passphrase sent opens the stored ciphertext to the seed of another key; excluding that would need a key-committing cipher."
 },
 "C19": {
  "note": "Everything but the last clause: the signature returned by the fallback is not checked (C19_fallback_signature_refuted)."
 },
 "C24": {
  "note": "False of the code: frames shorter than 17 bytes and secret data with a ciphertext shorter than 17 bytes panic (C24_short_frame_refuted, C24_secret_data_refuted). Proved: nothing else does, and the server's request handlers never panic on them. C24_exactly says when a receiver panics: exactly when the frame after those it has taken is too short."
 },
 "C25": {
  "note": "Starts always (C25_starts_always), and no attempt to start or use loses what the database holds (C25_nothing_lost). The key in the address is the server's for directories whose path has no question mark or number sign (C25_identity_partial; C45_exactly and C45_question_refuted for the others). Generating panics exactly for directories that are not text (C25_panics_exactly, C25_not_text_refuted)."
 },
 "C29": {
  "note": "First clause proved up to a ciphertext of a later position opening at an earlier one (excluded in practice by the cipher, not by its laws). Second clause false of the code: a refused send advances the encryption state, and nothing sent later can be read (C29_after_refusal_refuted, C29_usable_after_refusal_refuted). C29_exactly: over a good line exactly the messages before the first refused one arrive."
 },
 "C30": {
  "note": "False of the code: a list of entries longer than a frame is never delivered, nor is the error, nor anything after it (C30_large_keystore_refuted, C30_connection_lost_refuted, C30_list_lost_refuted). Lists that fit are shown to fit (C30_small_keystore_partial). So it is with boxes: binary data is written as an array of numbers, two bytes for each byte from 128 on, so that a request to encrypt 5000 bytes fits a frame and its answer does not (C30_boxes_limited, C30_box_lost_refuted). Of requests other than for the list, answers that are not errors fit if what they carry (the request's id and tag, twice the data or the certificate) is small enough (C30_other_answers_partial); the length of error texts is not modelled. C30_read_back: what is delivered and is not an error is read by the client as it was sent; C30_exactly: over a good line the client gets exactly the answers before the first that does not fit a frame."
 },
 "C31": {
  "note": "Proved as long as no call is abandoned while it has the sender. Abandoning such a call loses the sender: later calls panic (C31_abandoned_refuted). C31_exactly: a further call can come to its end exactly when no call was abandoned while it had the sender."
 },
 "C32": {
  "note": "Proved for all schedules: no connection is shared, permits return, and a connection is lost exactly when the future of the call that has it in a transaction is dropped or that transaction panics, and then for ever (C32_lost_exactly; C32_none_lost_partial for histories without either). So the full property is false: C32_cancelled_refuted, C32_panics_refuted, C32_read_lost_refuted."
 },
 "C33": {
  "note": "An uninterrupted migration keeps every entry, and the entries are always in one of the two files. A crash between the export and the rename is not survived: the next start is refused for ever (C33_blocked_refuted) or succeeds with an empty store (C33_emptied_refuted). C33_exactly: the entries are found again exactly if no file of the interrupted migration is left."
 },
 "C34": {
  "note": "Proved when servers are started one at a time and carry the package's name (C34_one_server_partial). False of the code: the executable built is called lair-keystore, the check looks for lair_keystore (C34_name_refuted); and two starts at the same time over the file of a dead server both succeed under any name (C34_race_refuted). C34_exactly: a second server started with nothing else going on gets in just when the pid file is not empty and names neither a living process of the package's name nor, if it has that name, itself."
 },
 "C35": {
  "note": "Proved unless the file is empty or names a living process of the package's name (C35_restart_partial). False in those cases: C35_empty_file_refuted, reached by a crash (C35_empty_file_reached), and C35_pid_reuse_refuted. C35_exactly: in these cases and no others."
 },
 "C36": {
  "note": "Own answer, at most one call per answer line, calls wait only for the program, everything ends once the programs are gone, tasks come to rest: proved for all schedules. False of the code: there is no time limit on a silent program (C36_silent_refuted), and two requests with one id - ids are chosen by the clients - mix up their answers (C36_same_id_refuted). C36_delivered: what a program prints for a waiting call whose id no other call has is what the caller gets."
 },
 "C37": {
  "note": "Own answer, at most once, nothing remains registered, ends with the connection, times out: proved for all schedules. False of the code: the time limit does not cover sending (C37_sending_untimed_refuted); two calls with one id lose both answers (C37_same_id_refuted)."
 },
 "C42": {
  "note": "False of the code: one cipher of an unknown kind makes the whole bundle unreadable (C42_unknown_cipher_refuted), and the unsupported-cipher answer is never given (C42_never_reported_refuted). That all ciphers of known kinds are listed is C41_any_secret_opens. C42_exactly: a bundle opens just when each of its ciphers alone would."
 },
 "C43": {
  "note": "Proved for scopes that are not nested and that no panic leaves (C43_scoped_partial), within every scope up to the first scope inside it (C43_inside), and in general after a scope: the default is in force, so what was in force before is only if that was the default (C43_after_exactly). False otherwise: C43_nested_refuted, C43_panic_refuted."
 },
 "C44": {
  "note": "First clause proved in full. Second clause false of the code: the boundaries between answers are not kept (C44_boundaries_refuted). Proved instead: equal passphrases mean equal answers up to case, white space and boundaries. C44_exactly: that is also enough."
 },
 "C45": {
  "note": "Proved for directories whose path has no question mark or number sign, for any other query, and for reading the text back (C45_text_reads_back). False otherwise: the key ends up in another part of the URL and is not found (C45_question_refuted, C45_number_sign_refuted). C45_exactly: the address carries the key, whatever it is, exactly when the path has neither character."
 },
 "C46": {
  "note": "The text with comments reads back to the configuration exactly when no path or last fallback argument standing before a comment is a line break or ends in two (C46_text_iff); with two it reads back changed (C46_two_newlines_refuted). Assumes one-line YAML scalars read back (YamlOk)."
 },
 "C47": {
  "note": "A single passphrase is used as typed (C47_as_typed). The two passphrases of the import command are trimmed of white space, so those that begin or end with any are not used as given (C47_import_trims_refuted); all others are (C47_import_lines_partial). C47_import_exactly: of any text, the import takes the lines without the white space around them and without the empty ones."
 },
 "C50": {
  "note": "True of salts, headers and ciphertexts; false of the application data (C50_ext_app_data_refuted). C50_exactly: of these, and of nothing else."
 },
 "C52": {
  "note": "True exactly of paths without question marks, number signs, tabs, line ends and percent signs before two hexadecimal digits (C52_exactly). With percent signs the socket may even be in another directory (C52_leaves_directory_refuted)."
 },
 "C53": {
  "note": "A run killed while it writes leaves a partial file that later runs refuse (C53_killed_refuted). Everything else proved. C53_again_exactly: a later run can succeed exactly if there is no file."
 },
 "C55": {
  "note": "Proved in the orderly case of C34 (C55_undisturbed_partial). False of the code: the socket is replaced before the passphrase is tried, C55_wrong_passphrase_refuted. C55_exactly: a refused start does harm just when the pid file would not have stopped it."
 },
 "C65": {
  "note": "Proved while accept() does not fail and fewer than 4096 handshakes are unfinished (C65_taken_in_partial); order and independence proved in full. False otherwise: the first failing accept(), for instance for want of file descriptors, ends listening for good even after everybody has left (C65_listening_refuted), and 4096 silent clients keep everyone out (C65_stalled_refuted). C65_stops_exactly: when listening stops, and who is refused."
 },
 "C66": {
  "note": "Proved for clients that read (C66_all_answered, C66_others_not_needed, C66_bounded). The last sentence of the statement is C66_unread_waits: a client that does not read is stuck, and nothing ends it. Time and the fallback signer are not part of Flow."
 },
 "C67": {
  "note": "The spelling of the outer structure is arbitrary; structures nested in it (seed info, certificate info, deep-lock passphrase) are as lair writes them in C67_any_spelling and C67_as_array. Duplicates inside nested structures are refused by the same readers but not stated."
 },
 "C68": {
  "status": "partial",
  "note": "C68_verifies needs that no two requests given to one program have the same id; C68_same_id_refuted shows that this is needed. Everything else in the statement is proved without it."
 },
 "C69": {
  "note": "Commands run one after another (at the same time: C34, C53); C69_imported says what an import adds according to what it printed, C69_import_works when it goes through. Paths with characters that mean something in a URL are excluded by the statement (C45_question_refuted, C52_leaves_directory_refuted). C69_clients joins the commands with the network of C62: clients given the URL and the passphrase can use every server started in the directory and find what was created with earlier ones."
 },
 "C70": {
  "note": "False of the code as stated: a client that drops its last handle without shutdown keeps the connection open for ever, because its receiving task holds both ends (C70_dropped_refuted). All other clauses are proved (C70_open, C70_usable, C70_shutdown, C70_let_go, C70_nothing_kept, C70_soon). C70_exactly: once the handles are dropped, the connection is released exactly if it was ended."
 },
 "C71": {
  "note": "The certificate generator (crate rcgen) is a parameter; that its certificates are for the names it is asked for is in the trusted base. Names may have underscores, which host names proper have not."
 },
 "C72": {
  "note": "Which terms may occur where; that ciphertexts and hashes hide what goes into them is the library's claim, in the trusted base. What the programs write to their log is not modelled."
 },
 "C73": {
  "note": "For requests during whose handling no outside call fails; without that proviso it is false (C07_error_after_write_refuted). The order for a whole history is for runs in which everything received was answered and nobody uses the store but through the server."
 },
 "C74": {
  "status": "partial",
  "note": "The keystore is always as if it had been killed at an earlier moment (C74_as_if_earlier: every theorem about histories applies); what was there at a checkpoint stays, what is lost are the newest entries. False of the code that nothing acknowledged is lost: synchronous is NORMAL, with a write-ahead log, so commits are not flushed (C74_recent_refuted, C74_told_refuted; C74_exactly), and init does not flush the configuration (C74_configuration_refuted). What sqlite promises for these settings is taken from its documentation."
 },
 "C75": {
  "status": "partial",
  "note": "False of the code: init does not make a missing directory, although it contains the code for it; the directory is looked up first (C75_missing_refuted). Everything else proved. Directories are not removed or renamed in the model."
 },
 "C76": {
  "status": "partial",
  "note": "Proved of the seed: what opens with the owner's secret gives the seed that was locked or is a forged ciphertext (C76_seed_partial), and opening with another secret shows a ciphertext that opens under two keys (C76_wrong_secret). False of the application data and the questions, which are not authenticated: anybody can replace them (C76_app_data_refuted, C76_questions_refuted)."
 },
 "C77": {
  "note": "The bundle's first cipher is the passphrase given; for later ones C54_import says what an earlier cipher that opens too would change. A network that forges ciphertexts and requests disturbed by failures are excluded as in C62."
 },
 "C78": {
  "note": "The client has sent a digest of a passphrase that opens the keystore, sealed with the key of its own connection. Entries put there by the server's own process (the direct calls of the store) are the other case of C78_stored. A network that forges ciphertexts is excluded as in C62."
 },
 "C79": {
  "note": "A network that forges ciphertexts is excluded as in C62; calls disturbed by failures of the machine are excluded where success is promised."
 }
}