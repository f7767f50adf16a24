{"id": "C01", "title": "Nothing but Hello and Unlock works on a locked connection", "statement": "On a connection on which no unlock with the keystore passphrase has been completed, every request other than Hello and Unlock is answered with an error, never with key material, entry information, a signature, a ciphertext or a plaintext, and it creates no entry.", "quantifier": "every sequence of requests on every number of connections, every interleaving of their handlers, every failure of the store or of the transport", "why_tests_cant": "the request handlers run concurrently (up to 4096 at once per connection); a test runs a handful of orders and a handful of request kinds", "anchors": ["crates/lair_keystore_api/src/lair_server/priv_srv.rs:priv_get_store", "crates/lair_keystore_api/src/lair_server/priv_api.rs:priv_req_unlock", "crates/lair_keystore_api/src/lair_server/priv_srv.rs:priv_dispatch_incoming"]}
{"id": "C02", "title": "A connection is unlocked exactly by the passphrase of the keystore", "statement": "A connection becomes unlocked if and only if it handled an Unlock request whose decrypted passphrase digest re-derives the server's identity key; the passphrase the server was started with always does; a failed Unlock changes nothing.", "quantifier": "every passphrase, configuration, connection key and history of requests", "why_tests_cant": "the claim ranges over all passphrases, including wrong ones, and over all orders of unlock attempts", "anchors": ["crates/lair_keystore_api/src/lair_server/priv_api.rs:priv_req_unlock", "crates/lair_keystore_api/src/lair_server/priv_srv.rs:Srv::new", "crates/lair_keystore_api/src/lair_client.rs:LairClient::unlock"]}
{"id": "C03", "title": "Unlocking is per connection and permanent", "statement": "Unlocking one connection does not unlock any other one, present or future, and a connection once unlocked is never locked again while it lives.", "quantifier": "every number of connections and every interleaving", "why_tests_cant": "non-interference between connections is a statement about all schedules", "anchors": ["crates/lair_keystore_api/src/lair_server/priv_srv.rs:priv_srv_accept"]}
{"id": "C04", "title": "Every request gets exactly one answer, to itself", "statement": "Each message received on a connection leads to at most one message sent back on that same connection; it carries the id of the request and is either the response kind belonging to the request kind or an error; when the handler finishes and the transport accepted the message there is exactly one.", "quantifier": "every request, every schedule of concurrent handlers, every failure", "why_tests_cant": "needs every control path of every handler, under every interleaving", "anchors": ["crates/lair_keystore_api/src/lair_server/priv_srv.rs:priv_srv_accept", "crates/lair_keystore_api/src/lair_server/priv_api.rs"]}
{"id": "C05", "title": "Response messages are never accepted as requests", "statement": "A client which sends any response-kind message receives an error, and neither the store nor the lock state changes.", "quantifier": "every response-kind message and every state", "why_tests_cant": "quantifies over all messages of eighteen kinds with arbitrary payload", "anchors": ["crates/lair_keystore_api/src/lair_server/priv_srv.rs:priv_dispatch_incoming"]}
{"id": "C06", "title": "Tags and public keys stay unique", "statement": "At every point in the life of a keystore no two stored entries share a tag, an Ed25519 public key or an X25519 public key.", "quantifier": "every history of writes through any client, any interleaving, any restart", "why_tests_cant": "an invariant over unbounded histories", "anchors": ["crates/lair_keystore_api/src/mem_store.rs:write_entry", "crates/lair_keystore/src/store_sqlite.rs:write_entry", "crates/lair_keystore/src/sql/schema.sql"]}
{"id": "C07", "title": "The keystore is append-only", "statement": "No operation of the API changes or removes an entry that has been stored; an operation that reports failure to write leaves the stored entries exactly as they were, and an operation that reports success added exactly one.", "quantifier": "every history of operations, every failure point, every restart", "why_tests_cant": "an invariant over unbounded histories, with failures at every step", "anchors": ["crates/lair_keystore_api/src/mem_store.rs", "crates/lair_keystore/src/store_sqlite.rs", "crates/lair_keystore_api/src/lair_store.rs"]}
{"id": "C08", "title": "A stored entry can be found under its tag and both public keys", "statement": "After a successful write the entry is returned, bit for bit, by lookup under its tag and (for seeds) its Ed25519 and its X25519 public key, now and after every later operation and restart; lookups under anything never written fail.", "quantifier": "every entry, every later history", "why_tests_cant": "tests look up the entry immediately; the claim is about all later histories", "anchors": ["crates/lair_keystore_api/src/mem_store.rs:get_entry_by_tag", "crates/lair_keystore/src/store_sqlite.rs:get_entry_by_tag", "crates/lair_keystore/src/store_sqlite.rs:get_entry_by_ed25519_pub_key", "crates/lair_keystore/src/store_sqlite.rs:get_entry_by_x25519_pub_key"]}
{"id": "C09", "title": "Listing is complete and public", "statement": "list_entries returns exactly one item per stored entry and nothing else, and each item is determined by the tag, kind and public information of the entry (two keystores that differ only in secrets list identically).", "quantifier": "every keystore content reachable by any history", "why_tests_cant": "tests list one or two entries; independence from secrets is a two-run property no test can settle", "anchors": ["crates/lair_keystore_api/src/mem_store.rs:list_entries", "crates/lair_keystore/src/store_sqlite.rs:list_entries"]}
{"id": "C10", "title": "The two backends are interchangeable", "statement": "The in-memory store and the SQLite store give the same answers (up to the order of listings and the wording of errors) to every sequence of store operations.", "quantifier": "every sequence of writes, lookups and listings of any length", "why_tests_cant": "refinement between two implementations over unbounded sequences", "anchors": ["crates/lair_keystore_api/src/mem_store.rs", "crates/lair_keystore/src/store_sqlite.rs", "crates/lair_keystore_api/src/lair_store.rs:AsLairStore"]}
{"id": "C11", "title": "The key caches are invisible", "statement": "Looking up a key through the server's LRU caches gives the result that looking it up in the store and decrypting it would give; whatever was cached, evicted or being inserted concurrently.", "quantifier": "every history of lookups and writes on any number of connections and every interleaving", "why_tests_cant": "the result depends on hidden cache contents produced by arbitrary earlier requests and races between check and insert", "anchors": ["crates/lair_keystore_api/src/lair_server/priv_api.rs:priv_get_full_entry_by_tag", "crates/lair_keystore_api/src/lair_server/priv_api.rs:priv_gen_and_register_entry"]}
{"id": "C12", "title": "Deep-locked secrets are never kept decrypted, and caches are bounded", "statement": "The server never retains the decrypted seed or private keys of a deep-locked entry between requests, and keeps at most 128 decrypted entries per index.", "quantifier": "every history of requests and every interleaving", "why_tests_cant": "an invariant about hidden state over unbounded histories", "anchors": ["crates/lair_keystore_api/src/lair_server/priv_api.rs:priv_gen_and_register_entry", "crates/lair_keystore_api/src/lair_server/priv_srv.rs:SrvInner"]}
{"id": "C13", "title": "A seed created as non-exportable is never exported", "statement": "If the server answers an export request for a tag with a ciphertext then the entry under that tag is a seed that is not deep-locked and was created exportable; the ciphertext is the seed boxed from the named sender (a seed in this keystore) to the named recipient.", "quantifier": "every history, every export request, every interleaving", "why_tests_cant": "a security property over all histories, including cached and derived entries", "anchors": ["crates/lair_keystore_api/src/lair_server/priv_api.rs:priv_req_export_seed_by_tag"]}
{"id": "C14", "title": "Export then import reproduces the seed", "statement": "A seed exported to a recipient key held by another (or the same) keystore and imported there yields an entry with the same Ed25519 and X25519 public keys and thus the same signatures.", "quantifier": "every seed, every pair of keystores, every nonce", "why_tests_cant": "for all seeds, nonces and keys; and for any other history in between", "anchors": ["crates/lair_keystore_api/src/lair_server/priv_api.rs:priv_req_export_seed_by_tag", "crates/lair_keystore_api/src/lair_server/priv_api.rs:priv_req_import_seed"]}
{"id": "C15", "title": "Import accepts only what the sender boxed for the recipient", "statement": "An import stores a seed only if the ciphertext is 48 bytes long and opens under the named sender's public key and the recipient's secret key held by this keystore; otherwise nothing is stored.", "quantifier": "every ciphertext, nonce and pair of keys", "why_tests_cant": "adversarial input space", "anchors": ["crates/lair_keystore_api/src/lair_server/priv_api.rs:priv_req_import_seed"]}
{"id": "C16", "title": "Derived seeds follow the path and inherit exportability", "statement": "derive_seed with path p stores the seed obtained from the source by applying key derivation with each index of p in order (so deriving along p then q equals deriving along p++q, and agrees with the seed-bundle derivation), with the exportable flag of the source.", "quantifier": "every source seed, every path of any length, every history", "why_tests_cant": "paths are unbounded lists of 32-bit indices", "anchors": ["crates/lair_keystore_api/src/lair_server/priv_api.rs:priv_req_derive_seed", "crates/hc_seed_bundle/src/unlocked_seed_bundle.rs:derive"]}
{"id": "C17", "title": "Derivation opens a deep-locked source with its passphrase", "statement": "A deep-locked seed can be used as derivation source with the passphrase it was created with.", "quantifier": "every passphrase and all pairs of hashing-limit settings at creation and at use", "why_tests_cant": "tests use one global limit setting; the failure needs creation and use under different settings", "anchors": ["crates/lair_keystore_api/src/lair_server/priv_api.rs:priv_req_derive_seed", "crates/lair_keystore_api/src/lair_server/priv_api.rs:deep_unlock_key_from_passphrase", "crates/lair_keystore_api/src/lair_client.rs:derive_seed"]}
{"id": "C18", "title": "A signature is made with the key that was asked for", "statement": "Whenever the keystore holds the requested Ed25519 key, the signature returned verifies under exactly that key for exactly the data of the request.", "quantifier": "every key ever stored, every data, every history and interleaving", "why_tests_cant": "tests verify a couple of signatures; the claim includes all cached, derived, imported and deep-locked keys", "anchors": ["crates/lair_keystore_api/src/lair_server/priv_api.rs:priv_req_sign_by_pub_key", "crates/lair_keystore_api/src/lair_server/priv_api.rs:priv_gen_and_register_entry"]}
{"id": "C19", "title": "Who signs is decided by who holds the key", "statement": "The fallback signer is consulted if and only if the keystore cannot look the key up; without a fallback that is an error; a key that is held is never signed by the fallback; what the fallback returns for a key is a signature under that key.", "quantifier": "every key, every store content and every fallback behaviour", "why_tests_cant": "decision logic over all store contents and all behaviours of an external program", "anchors": ["crates/lair_keystore_api/src/lair_server/priv_api.rs:priv_req_sign_by_pub_key", "crates/lair_keystore_api/src/lair_server.rs:FallbackCmd"]}
{"id": "C20", "title": "Deep-locked seeds sign with their passphrase and only then", "statement": "A deep-locked seed signs when the request carries the passphrase it was locked with, independent of the limits in force at the client; without a passphrase it never signs; a signature under another passphrase would require a key under which the stored ciphertext also opens.", "quantifier": "every passphrase, salt, limits and data", "why_tests_cant": "universally quantified over passphrases", "anchors": ["crates/lair_keystore_api/src/lair_server/priv_api.rs:priv_req_sign_by_pub_key", "crates/lair_keystore_api/src/lair_store.rs:insert_deep_locked_seed"]}
{"id": "C21", "title": "Boxes opened by the recipient give back the message", "statement": "What crypto_box_xsalsa_by_pub_key (or the by-sign-key variant) produces for a recipient key held in any keystore is opened by that keystore's open call into the original data; ciphertexts shorter than the authenticator are refused without a crash.", "quantifier": "every message, key pair, keystore pair and every byte string offered as ciphertext", "why_tests_cant": "for all messages, keys and malformed inputs", "anchors": ["crates/lair_keystore_api/src/lair_server/priv_api.rs:priv_req_crypto_box_xsalsa_by_pub_key", "crates/lair_keystore_api/src/lair_server/priv_api.rs:priv_req_crypto_box_xsalsa_open_by_pub_key", "crates/lair_keystore_api/src/lair_server/priv_api.rs:priv_req_crypto_box_xsalsa_by_sign_pub_key", "crates/lair_keystore_api/src/lair_server/priv_api.rs:priv_req_crypto_box_xsalsa_open_by_sign_pub_key"]}
{"id": "C22", "title": "Secret boxes are opened by the same tag", "statement": "What secretbox_xsalsa_by_tag produces is opened by secretbox_xsalsa_open_by_tag with the same tag into the original data, at any later time and after any restart.", "quantifier": "every message, tag and later history", "why_tests_cant": "for all messages and all intermediate histories", "anchors": ["crates/lair_keystore_api/src/lair_server/priv_api.rs:priv_req_secret_box_xsalsa_by_tag", "crates/lair_keystore_api/src/lair_server/priv_api.rs:priv_req_secret_box_xsalsa_open_by_tag"]}
{"id": "C23", "title": "A TLS private key comes back as created and only for certificates", "statement": "get_wka_tls_cert_priv_key returns to the client the private key generated with the certificate under that tag, encrypted to this connection only; for any other kind of entry it fails.", "quantifier": "every certificate, connection and later history", "why_tests_cant": "for all histories and connections", "anchors": ["crates/lair_keystore_api/src/lair_server/priv_api.rs:priv_req_get_wka_tls_cert_priv_key", "crates/lair_keystore_api/src/lair_store.rs:new_wka_tls_cert", "crates/lair_keystore_api/src/lair_client.rs:get_wka_tls_cert_priv_key"]}
{"id": "C24", "title": "Malformed ciphertexts are errors, not crashes", "statement": "Whatever bytes are presented as encrypted secret data or as an encrypted frame, the receiver answers with a value or an error, never a panic.", "quantifier": "every byte string", "why_tests_cant": "the input space is unbounded and adversarial", "anchors": ["crates/lair_keystore_api/src/encoding_types.rs:SecretData::decrypt", "crates/lair_keystore_api/src/sodium_secretstream/crypt.rs:PrivCryptRecv"]}
{"id": "C25", "title": "A generated configuration starts with its passphrase", "statement": "A server started from a freshly generated configuration with the passphrase used for generation starts, and has the identity key that the configuration's connection URL advertises, on this and every later start.", "quantifier": "every passphrase, root path and randomness", "why_tests_cant": "for all passphrases and random values", "anchors": ["crates/lair_keystore_api/src/config.rs:LairServerConfigInner::new", "crates/lair_keystore_api/src/lair_server/priv_srv.rs:Srv::new"]}
{"id": "C26", "title": "A wrong passphrase does not start the keystore", "statement": "If a server starts with some passphrase then the key derived from that passphrase opens both encrypted secrets of the configuration; so starting with a passphrase of different derived key exhibits a ciphertext that opens under two keys.", "quantifier": "every pair of passphrases and every configuration", "why_tests_cant": "no finite set of wrong passphrases is conclusive", "anchors": ["crates/lair_keystore_api/src/lair_server/priv_srv.rs:Srv::new", "crates/lair_keystore_api/src/ipc_keystore.rs:IpcKeystoreServer::new"]}
{"id": "C27", "title": "Client and server agree on keys, and only with the intended server", "statement": "When client and server complete the connection handshake over a faithful transport each side's sending key is the other side's receiving key, likewise the derived context keys, every message either side then sends is received by the other, and the server's hello names the key the client pinned or the client refuses.", "quantifier": "all key pairs, all randomness, all chunkings of the byte streams", "why_tests_cant": "for all keys and transports", "anchors": ["crates/lair_keystore_api/src/sodium_secretstream.rs:new_s3_server", "crates/lair_keystore_api/src/sodium_secretstream.rs:new_s3_client", "crates/lair_keystore_api/src/lair_client/async_io.rs", "crates/lair_keystore_api/src/lair_client.rs:hello"]}
{"id": "C28", "title": "Frames survive any transport chunking", "statement": "Any sequence of frames of at most 8192 bytes written to the transport is read back as the same sequence, however the byte stream is split in delivery, and no partial frame is ever delivered; over-long frames are refused on both sides.", "quantifier": "every sequence of payloads and every way of cutting the byte stream", "why_tests_cant": "infinitely many chunkings", "anchors": ["crates/lair_keystore_api/src/sodium_secretstream/framed.rs"]}
{"id": "C29", "title": "Messages arrive in order, unaltered, or not at all", "statement": "The messages a receiver gets from an encrypted connection are a prefix of the messages whose send succeeded on the other side; after a send was refused the connection still works for later messages.", "quantifier": "every sequence of sends of any size (including refused ones) and any truncation of the stream", "why_tests_cant": "unbounded sequences, including those with refused sends", "anchors": ["crates/lair_keystore_api/src/sodium_secretstream/crypt.rs:PrivCryptSend", "crates/lair_keystore_api/src/sodium_secretstream/framed.rs:PrivFramedSend", "crates/lair_keystore_api/src/sodium_secretstream/inner.rs"]}
{"id": "C30", "title": "The answer to a request can always be delivered", "statement": "Whatever the keystore contains, the answer to a request on an unlocked connection can be delivered and leaves the connection usable.", "quantifier": "every keystore size, every request", "why_tests_cant": "needs keystores and messages of every size", "anchors": ["crates/lair_keystore_api/src/lair_server/priv_api.rs:priv_req_list_entries", "crates/lair_keystore_api/src/sodium_secretstream/crypt.rs", "crates/lair_keystore_api/src/lair_server/priv_srv.rs:priv_srv_accept"]}
{"id": "C31", "title": "Concurrent senders do not corrupt the stream", "statement": "When many tasks send on one connection at once, every message is encrypted and written as one unit and the stream decodes to some interleaving of whole messages; abandoning a send does not break later sends.", "quantifier": "every number of tasks, every interleaving, every cancellation point", "why_tests_cant": "all schedules and cancellation points", "anchors": ["crates/lair_keystore_api/src/sodium_secretstream/inner.rs:PrivSend"]}
{"id": "C32", "title": "The connection pool neither leaks nor shares connections", "statement": "At all times every database connection is either in the pool or held by exactly one task, a task that holds a permit holds a connection, and when all tasks are done the pool is full again, whatever order tasks run in and wherever they are cancelled.", "quantifier": "every number of tasks, schedule and cancellation point", "why_tests_cant": "all schedules and cancellation points", "anchors": ["crates/lair_keystore/src/store_sqlite.rs:SqlPool", "crates/lair_keystore/src/store_sqlite.rs:SqlCon"]}
{"id": "C33", "title": "Encrypting an existing database survives a crash", "statement": "If the process dies at any point while migrating an unencrypted database, a later start (with migration still enabled) finds all entries that were stored before.", "quantifier": "every database content and every crash point", "why_tests_cant": "crash points", "anchors": ["crates/lair_keystore/src/store_sqlite.rs:encrypt_unencrypted_database", "crates/lair_keystore/src/store_sqlite.rs:new_sync"]}
{"id": "C34", "title": "At most one server per keystore directory", "statement": "While a keystore server runs on a directory, no second one can be started on it.", "quantifier": "every number of processes, every interleaving of their start-up steps, every pid reuse and crash", "why_tests_cant": "races and process tables", "anchors": ["crates/lair_keystore/src/pid_check.rs:pid_check", "crates/lair_keystore/src/server.rs:StandaloneServer::new", "crates/lair_keystore/Cargo.toml"]}
{"id": "C35", "title": "A crashed server can be restarted", "statement": "After a server process died at any point, a new one can be started on the directory.", "quantifier": "every crash point and every later process table", "why_tests_cant": "crash points", "anchors": ["crates/lair_keystore/src/pid_check.rs:pid_check_write"]}
{"id": "C36", "title": "Every fallback signing call ends, with its own answer", "statement": "Every sign request handed to the fallback signer receives an answer: the one the signer gave for the id of this request, or an error, in particular when the signer exits or prints garbage. A program that runs, keeps its pipes open and prints only answers is never stopped; one that prints something else is; no more than 4096 requests queue for it; and of a program that is gone nothing is kept.", "quantifier": "every behaviour of the external program, every interleaving of requests from all connections", "why_tests_cant": "the external program may print anything and die at any time", "anchors": ["crates/lair_keystore_api/src/lair_server.rs:FallbackCmd::check_get_sub_process_sender", "crates/lair_keystore_api/src/lair_server.rs:FallbackCmd::sign_by_pub_key"]}
{"id": "C37", "title": "A client call returns the answer to its own request", "statement": "A client request returns the server's message carrying its own id, at most once, in spite of any order of answers; when the connection ends or time runs out it returns an error; and nothing remains of it in the client.", "quantifier": "every order of answers, every set of concurrent calls, every point of disconnection or time-out", "why_tests_cant": "all interleavings", "anchors": ["crates/lair_keystore_api/src/lair_client/async_io.rs", "crates/lair_keystore_api/src/lair_client.rs:priv_lair_api_request"]}
{"id": "C38", "title": "Stored entries decode to what was encoded", "statement": "Decoding the stored bytes of any entry gives the entry back, field for field; whatever bytes are in the database decoding ends with an entry or an error.", "quantifier": "every entry with arbitrary text, keys and ciphertexts", "why_tests_cant": "unbounded value space", "anchors": ["crates/lair_keystore_api/src/lair_store.rs:LairEntryInner::encode", "crates/lair_keystore_api/src/lair_store.rs:LairEntryInner::decode", "crates/lair_keystore_api/src/encoding_types.rs"]}
{"id": "C39", "title": "API messages decode to what was sent", "statement": "Every API message, of every kind, with and without its optional fields, is decoded by the other side to the same message.", "quantifier": "every message of every kind", "why_tests_cant": "unbounded value space over some thirty message kinds", "anchors": ["crates/lair_keystore_api/src/lair_api.rs:LairApiEnum", "crates/lair_keystore_api/src/lair_api/", "crates/lair_keystore_api/src/sodium_secretstream/inner.rs"]}
{"id": "C40", "title": "Binary data survives its text form", "statement": "The textual form of any binary value parses back to that value, two values never share a text, sized values refuse any other length.", "quantifier": "every byte string of any length", "why_tests_cant": "all byte strings and all strings", "anchors": ["crates/lair_keystore_api/src/encoding_types.rs:BinData", "crates/lair_keystore_api/src/encoding_types.rs:BinDataSized"]}
{"id": "C41", "title": "A locked seed bundle opens with any one of its secrets", "statement": "A seed bundle locked with any list of passphrase and security-question ciphers lists exactly these ciphers when read back, and each of them unlocked with its own secret gives the seed and application data that were locked.", "quantifier": "every seed, application data, list of ciphers and secrets", "why_tests_cant": "lists of ciphers are unbounded", "anchors": ["crates/hc_seed_bundle/src/seed_cipher.rs:SeedCipherBuilder::lock", "crates/hc_seed_bundle/src/seed_cipher.rs:LockedSeedCipherPwHash::unlock", "crates/hc_seed_bundle/src/seed_cipher/seed_bundle.rs", "crates/hc_seed_bundle/src/unlocked_seed_bundle.rs"]}
{"id": "C42", "title": "Bundles with unknown ciphers remain readable", "statement": "A bundle that has, besides known ciphers, a cipher of a kind this version does not know still opens with the known ones, and the unknown one is reported as unsupported.", "quantifier": "every list of ciphers", "why_tests_cant": "future cipher kinds do not exist in tests", "anchors": ["crates/hc_seed_bundle/src/seed_cipher/seed_bundle.rs", "crates/hc_seed_bundle/src/seed_cipher.rs:LockedSeedCipher"]}
{"id": "C43", "title": "Hashing limits apply exactly within their scope", "statement": "Within with_exec the chosen limits are in force, and afterwards those are in force which were before, however scopes are nested. A deep-locked seed made by a client call is locked with exactly the limits in force where the call was made.", "quantifier": "every nesting of scopes", "why_tests_cant": "all nestings", "anchors": ["crates/hc_seed_bundle/src/seed_cipher/pw_hash_limits.rs:PwHashLimits::with_exec"]}
{"id": "C44", "title": "Security answers are compared up to case and surrounding space and nothing else", "statement": "Answers that differ only in ASCII case and surrounding white space unlock the same bundle; answers that differ otherwise are different secrets.", "quantifier": "every triple of answers", "why_tests_cant": "unbounded strings; collisions need search", "anchors": ["crates/hc_seed_bundle/src/seed_cipher/pw_utils.rs:process_security_answers"]}
{"id": "C45", "title": "The connection URL carries the server key", "statement": "The public key extracted from the connection URL of a generated configuration is the server's identity key, whatever the directory path; a URL without key is refused.", "quantifier": "every path and key", "why_tests_cant": "arbitrary paths and keys", "anchors": ["crates/lair_keystore_api/src/config.rs:get_server_pub_key_from_connection_url", "crates/lair_keystore_api/src/config.rs:LairServerConfigInner::new"]}
{"id": "C46", "title": "The annotated configuration file is the configuration", "statement": "The comments inserted in the printed configuration do not change what it parses to.", "quantifier": "every configuration, including strings with arbitrary content", "why_tests_cant": "arbitrary strings in paths", "anchors": ["crates/lair_keystore_api/src/config.rs:Display for LairServerConfigInner", "crates/lair_keystore_api/src/config.rs:from_bytes"]}
{"id": "C47", "title": "Piped passphrases are taken as typed", "statement": "A piped passphrase is used exactly as given except for one line ending at the end; the import command takes exactly the passphrases on the separate lines, in order, and refuses any other number.", "quantifier": "every byte string", "why_tests_cant": "arbitrary input", "anchors": ["crates/lair_keystore/src/bin/lair-keystore-bin/main.rs:read_piped_passphrase", "crates/lair_keystore/src/bin/lair-keystore-bin/cmd_import_seed.rs:exec"]}
{"id": "C48", "title": "The database key is passed on exactly", "statement": "The key statement sent to the database is well formed, has constant length, leaves no room for injection, and different keys or salts give different statements.", "quantifier": "every 32-byte key and 16-byte salt", "why_tests_cant": "2^256 keys", "anchors": ["crates/lair_keystore/src/store_sqlite.rs:secure_write_key_pragma", "crates/lair_keystore/src/store_sqlite.rs:set_salt"]}
{"id": "C49", "title": "Entries survive a restart and only with the right passphrase", "statement": "After a restart with the same configuration and passphrase every stored entry is present and usable (signs, derives, opens) exactly as before.", "quantifier": "every history, every number of restarts", "why_tests_cant": "unbounded histories with restarts", "anchors": ["crates/lair_keystore_api/src/lair_server/priv_srv.rs:Srv::new", "crates/lair_keystore/src/store_sqlite.rs:new_sync", "crates/lair_keystore/src/server.rs:StandaloneServer::run"]}
{"id": "C50", "title": "Seed bundles with ext values read like those with bytes", "statement": "A seed bundle in which byte strings are written as msgpack ext values (of any type) reads exactly like the bundle with plain byte strings, as the format's documentation promises.", "quantifier": "every bundle, every choice of the byte strings written as ext values, every ext type", "why_tests_cant": "every bundle and every choice of fields", "anchors": ["crates/hc_seed_bundle/src/lib.rs", "crates/hc_seed_bundle/src/seed_cipher/u8array.rs:U8Array", "crates/hc_seed_bundle/src/seed_cipher/seed_bundle.rs:SeedBundle"]}
{"id": "C51", "title": "Derived seed bundles depend on the seed and path only", "statement": "The bundle derived along a path is determined by the seed and the path alone: it is the same before and after locking and unlocking, whatever the application data; it carries no application data, and its signatures verify under its own public key.", "quantifier": "every bundle, every non-empty path, every set of ciphers, every message", "why_tests_cant": "unbounded paths and bundles", "anchors": ["crates/hc_seed_bundle/src/unlocked_seed_bundle.rs:UnlockedSeedBundle::derive", "crates/hc_seed_bundle/src/unlocked_seed_bundle.rs:UnlockedSeedBundle::sign_detached"]}
{"id": "C52", "title": "The socket of a keystore is in its directory", "statement": "The socket path obtained from the connection URL of a newly generated configuration is the file named socket in the directory the configuration was generated for.", "quantifier": "every directory path, every server key", "why_tests_cant": "every file name, including those with characters that mean something in URLs", "anchors": ["crates/lair_keystore_api/src/config.rs:LairServerConfigInner::new", "crates/lair_keystore_api/src/config.rs:get_connection_path"]}
{"id": "C53", "title": "Initialisation never damages an existing keystore", "statement": "The init command never changes a configuration file that exists, and at whatever point it is stopped, either no configuration exists, so that init can be run again, or a complete one does.", "quantifier": "every earlier content of the directory, every configuration, every crash point, any number of concurrent runs", "why_tests_cant": "every crash point and interleaving", "anchors": ["crates/lair_keystore/src/bin/lair-keystore-bin/cmd_init.rs:exec"]}
{"id": "C54", "title": "Importing a seed bundle stores the seed it holds", "statement": "The import-seed command, given a bundle and a passphrase that locks it, stores under the given tag the seed that was locked, deep-locked with the second passphrase if one is asked for and with the exportable flag asked for; with a passphrase that opens none of its ciphers nothing is stored.", "quantifier": "every bundle, passphrase, tag and flag", "why_tests_cant": "every bundle and passphrase", "anchors": ["crates/lair_keystore/src/bin/lair-keystore-bin/cmd_import_seed.rs:exec"]}
{"id": "C55", "title": "A refused start leaves the running server alone", "statement": "While a server runs in a directory and clients can reach it, any attempt to start another server there that ends refused (already running, or a wrong passphrase) leaves the running server reachable by clients.", "quantifier": "every sequence and interleaving of starts, attempts and ends of processes", "why_tests_cant": "every interleaving of processes", "anchors": ["crates/lair_keystore/src/server.rs:StandaloneServer::new", "crates/lair_keystore_api/src/ipc_keystore.rs:IpcKeystoreServer::new", "crates/lair_keystore_api/src/ipc_keystore/raw_ipc.rs:ipc_bind", "crates/lair_keystore/src/pid_check.rs:pid_check"]}
{"id": "C56", "title": "The question put to the fallback signer says exactly what is asked, on one line", "statement": "For every request handed to the fallback signer, what is written to its standard input is one line of JSON: an object with exactly the members msgId, pubKey and dataToSign, which any JSON reader decodes to the id, the public key (URL-safe base64) and the data (standard base64) of the request. No byte of the id, whatever it is, can end the line early, and what was written so far determines which requests were written, in which order.", "quantifier": "every request id, key and data, and every sequence of requests, cut at any point", "why_tests_cant": "ids are arbitrary strings chosen by clients; injection must be excluded for all of them", "anchors": ["crates/lair_keystore_api/src/lair_server.rs:FallbackCmd::check_get_sub_process_sender"]}
{"id": "C57", "title": "An answer of the fallback signer is read however it is printed, and nothing else is taken for one", "statement": "A line of the signer's output is taken as an answer if and only if it is UTF-8 and a JSON text (in any layout and with any escapes) that is an object naming msgId once as a string and signature and error at most once, each a string or null, other members being ignored, or an array of these three; then id, signature and error are what the JSON says. Lines end with LF or CR LF, the last one may lack its end.", "quantifier": "every text the signer prints", "why_tests_cant": "the signer is another program; every layout of JSON and every malformed line", "anchors": ["crates/lair_keystore_api/src/lair_server.rs:FallbackCmd::check_get_sub_process_sender"]}
{"id": "C58", "title": "Every call of every client is ended by the answer to its own request", "statement": "With any number of clients connected to one keystore, each making any number of calls at the same time, a call that returns a message returns the server's answer to exactly the request that this call sent, on this connection; the server handles the request of a call at most once; and when nothing is lost, the server has finished and the client is still receiving, no call is left waiting. (Message ids of calls are assumed distinct: they are random.)", "quantifier": "every number of clients, calls, interleavings of client, server and network steps, losses and time-outs", "why_tests_cant": "mix-ups appear only under particular interleavings of concurrent calls and failures", "anchors": ["crates/lair_keystore_api/src/lair_client.rs:LairClient", "crates/lair_keystore_api/src/lair_client/async_io.rs:new_async_io_lair_client", "crates/lair_keystore_api/src/lair_server/priv_srv.rs:priv_dispatch_incoming"]}
{"id": "C59", "title": "What one client creates, every unlocked client can use afterwards", "statement": "If a client function that creates a seed or certificate returned success, then afterwards, from any unlocked client, through any store that keeps its data and with nothing failing: looking up the tag returns exactly what was returned on creation; the list contains it; signing with its key gives a signature that verifies under that key; what one client encrypts (box, box by signing key, secret box) another opens to the same data; an exported seed imported elsewhere has the same public keys; the private key of a created certificate can be fetched and belongs to it. Of all calls of all clients at most one succeeds in creating an item with a given tag or public key.", "quantifier": "every history of all clients and the server before, between and after the calls", "why_tests_cant": "it relates two calls of different clients across arbitrary histories in between, including restarts", "anchors": ["crates/lair_keystore_api/src/lair_client.rs:LairClient::new_seed", "crates/lair_keystore_api/src/lair_client.rs:LairClient::sign_by_pub_key", "crates/lair_keystore_api/src/lair_client.rs:LairClient::import_seed", "crates/lair_keystore_api/src/lair_client.rs:LairClient::get_entry"]}
{"id": "C60", "title": "Passphrases decide: unlocking and deep-locked seeds", "statement": "unlock returns success only with the passphrase of the keystore, and with it returns success when nothing fails. On a connection on which no call has sent the right passphrase every function but hello returns an error. A deep-locked seed created by any client signs for a call that gives its passphrase and returns an error to a call that gives none (when nothing fails).", "quantifier": "every history, every passphrase, every client", "why_tests_cant": "absence of a bypass over all histories and inputs cannot be tested", "anchors": ["crates/lair_keystore_api/src/lair_client.rs:LairClient::unlock", "crates/lair_keystore_api/src/lair_client.rs:LairClient::sign_by_pub_key"]}
{"id": "C61", "title": "Connecting succeeds only with the keystore that was meant, and the passphrase goes to no other", "statement": "Connecting (over IPC or in process) returns a client only if the server proved to have the public key in the connection URL, has the required version where one is required, and accepted the passphrase; that client is unlocked. With all of these right and nothing failing it does return a client. If the key or the required version is wrong the passphrase is never sent.", "quantifier": "every server key, version, passphrase and history", "why_tests_cant": "it must hold for every server one may be talking to", "anchors": ["crates/lair_keystore_api/src/ipc_keystore.rs:ipc_keystore_connect_options", "crates/lair_keystore_api/src/in_proc_keystore.rs:InProcKeystore::new_client"]}
{"id": "C62", "title": "A network that alters, repeats, drops or injects bytes can only make messages get lost", "statement": "Whatever a network does with the bytes of established connections (cut, delay, drop, repeat, reorder, alter, inject), unless an endpoint accepts a ciphertext that its peer did not send in that place (a forgery), all clients and the server behave as over connections that at worst lose messages: every answer a call returns is the server's answer to that call's request, the server handles each written request at most once and in the order of writing, nobody gets a result over a connection whose client has not sent the right passphrase, and what a client was told it created every client finds and can sign with. A malformed frame that stops the server's side of a connection silences that connection for good and touches no other.", "quantifier": "every sequence of bytes the network feeds to either end of every connection, every number of clients and calls, every interleaving and failure", "why_tests_cant": "it quantifies over an arbitrary active network; tests can replay only particular manipulations", "anchors": ["crates/lair_keystore_api/src/sodium_secretstream.rs:new_s3_server", "crates/lair_keystore_api/src/sodium_secretstream/crypt.rs:PrivCryptRecv", "crates/lair_keystore_api/src/sodium_secretstream/framed.rs:PrivFramedRecv", "crates/lair_keystore_api/src/lair_client/async_io.rs:new_async_io_lair_client", "crates/lair_keystore_api/src/lair_server/priv_srv.rs:priv_dispatch_incoming"]}
{"id": "C63", "title": "Over a line that carries bytes faithfully every message arrives and every waiting call is answered", "statement": "If what arrives at either end is always a prefix of the bytes the peer wrote, split into pieces in any way, and every message fits a frame, then no endpoint ever accepts anything that was not sent, reading never fails before the end of the stream, the server on reading gets the next written request and the client the next answer, and once all has arrived and been read every waiting call whose request the server finished without trouble returns the server's one answer at its next poll. When the line ends and what arrived has been read, the server takes nothing more over the connection and every waiting call ends at its next poll.", "quantifier": "every chunking of the byte streams, every interleaving of reads, writes and handlers, every number of clients and calls", "why_tests_cant": "chunk boundaries and interleavings are unbounded; a message split at an unlucky place would only show under one of them", "anchors": ["crates/lair_keystore_api/src/sodium_secretstream/framed.rs:PrivFramedRecv", "crates/lair_keystore_api/src/sodium_secretstream/crypt.rs:PrivCryptRecv", "crates/lair_keystore_api/src/lair_client/async_io.rs:new_async_io_lair_client"]}
{"id": "C64", "title": "Seeds, salts, headers and nonces are drawn afresh for every use", "statement": "The nonce of every answered encryption or seed export, the header of every encrypted secret (stored entries, certificate keys sent to clients, passphrases sent by clients, the secrets of a generated configuration), every salt and every seed the keystore makes is exactly what the system's random source gave for that very request, call or configuration, in full length, and no value it gave is put to two uses: each stored entry has a request or direct call of its own from whose draws it is made, and none of those is a request that was answered with a nonce.", "quantifier": "every history of connections, requests, direct store calls and restarts, every interleaving, every value the random source may give", "why_tests_cant": "a test sees particular values; that no code path reuses, truncates or fixes a random value must hold for all of them", "anchors": ["crates/lair_keystore_api/src/lair_store.rs:LairStore::new_seed", "crates/lair_keystore_api/src/lair_store.rs:LairStore::insert_deep_locked_seed", "crates/lair_keystore_api/src/encoding_types.rs:SecretDataSized::encrypt", "crates/lair_keystore_api/src/lair_server/priv_api.rs:priv_req_secret_box_xsalsa_by_tag", "crates/lair_keystore_api/src/config.rs:LairServerConfigInner::new"]}
{"id": "C65", "title": "A client that connects is taken in", "statement": "While the server process runs, every client that connects to its socket is taken in: in the order of arrival, once, whatever other clients do; its handshake and its service do not depend on other clients, on failed handshakes of others or on the end of the listening loop; clients that have left keep nobody out, nor do clients that connect and say nothing.", "quantifier": "every history of connecting, handshaking, failing and leaving clients, every limit on open files", "why_tests_cant": "whether the listening loop survives every failure, and what thousands of idle or departed clients do to it, depends on histories no test runs through", "anchors": ["crates/lair_keystore_api/src/ipc_keystore.rs:IpcKeystoreServer::new", "crates/lair_keystore_api/src/ipc_keystore/raw_ipc.rs:ipc_bind", "crates/lair_keystore_api/src/lair_server/priv_srv.rs:priv_srv_accept"]}
{"id": "C66", "title": "Nobody waits for ever behind a full buffer", "statement": "However little the pipe between a client and the server holds, however long requests and answers are and however many calls are made at once, client library and server do not come to wait for each other: if no further calls are made, everything comes to rest after finitely many steps and then every call of a client whose receiving task runs has got its answer, once. Other clients cannot prevent it, not even those that stop reading: their handlers keep no connection to the store while they wait to send. What the server keeps for one connection is bounded. A client that does not read waits for ever, since sending has no time limit.", "quantifier": "every capacity of the pipes, every length of requests and answers, every number of clients and calls, every interleaving, every use of the store by the handlers", "why_tests_cant": "deadlocks need particular fillings of buffers, permits and pools at one moment; tests see a few", "anchors": ["crates/lair_keystore_api/src/sodium_secretstream/inner.rs:PrivSend::send", "crates/lair_keystore_api/src/lair_client/async_io.rs:new_async_io_lair_client", "crates/lair_keystore_api/src/lair_server/priv_srv.rs:priv_srv_accept", "crates/lair_keystore_api/src/in_proc_keystore.rs:InProcKeystore::new_client", "crates/lair_keystore/src/store_sqlite.rs:SqlPool::read,SqlPool::write"]}
{"id": "C67", "title": "A message means the same however it is spelled, and is never ambiguous", "statement": "What a message (or a stored entry) is read as does not depend on the order of its fields, on fields the reader does not know, on names being texts, bytes or numbers, or on the structure being a map or an array of all its fields in order. A map that gives a declared field or the kind twice, and an array with too many values, are refused.", "quantifier": "every message of every kind and every entry, every order and spelling of its fields, every set of unknown fields, every received bytes that hold such a value", "why_tests_cant": "unbounded combinations of kinds, orders, spellings and extra fields; which clients in other languages and versions exist is unknown", "anchors": ["crates/lair_keystore_api/src/lair_api.rs:LairApiEnum", "crates/lair_keystore_api/src/lair_api/", "crates/lair_keystore_api/src/lair_store.rs:LairEntryInner,LairEntryInfo,SeedInfo", "crates/lair_keystore_api/src/sodium_secretstream/inner.rs"]}
{"id": "C68", "title": "A signature by an outside signer is the one for the client's own request", "statement": "When a client asks for a signature by a key the keystore does not hold and a signer program is configured, the program is given the id, key and data of that request, at most once, and only requests that came over an unlocked connection are put before it. The signature the client gets is one the program printed for that request, so with a program that signs properly it verifies for the client's own key and data, whatever other clients ask for at the same time. While the program neither reads nor answers the request waits; when no program runs any more every request has been answered. (The part about other clients is false when they choose the same request id.)", "quantifier": "every number of connections, requests and signer programs, every interleaving of handlers, the signer's tasks and what programs print, every crash of a program, every restart", "why_tests_cant": "signer and server meet only under load; mixed-up answers need particular interleavings of connections and programs", "anchors": ["crates/lair_keystore_api/src/lair_server/priv_api.rs:priv_req_sign_by_pub_key", "crates/lair_keystore_api/src/lair_server.rs:FallbackCmd,sign_by_pub_key", "crates/lair_keystore_api/src/lair_server/priv_srv.rs:SrvInner"]}
{"id": "C69", "title": "A directory is one keystore, from init on", "statement": "Once init has made a keystore in a directory, no later command makes another there: init is refused and the configuration stays. From then on, whatever commands are given in whatever order, and wherever the servers they start are killed: the url command prints the URL init printed; a server given init's passphrase (with or without a line end) starts, prints the same URL and has the same identity, and holds everything earlier servers held when they were stopped and everything imported since; together the servers behave as one server that is started anew. A server given a passphrase that does not open the configuration is refused and changes nothing. A client given the URL finds the socket in the directory, expects the identity the server has, and its passphrase is the one that unlocks: clients that have both can use every server, and what was created over one server is there for clients of every later one. (For directories whose path has no question mark, number sign, percent sign, tab or line end; see C45 and C52.)", "quantifier": "every history of commands before and after init, every passphrase and input, all random draws, every history of each server and every point at which it is killed, every ordinary path", "why_tests_cant": "unbounded histories of commands and kills; configuration, text form, URL, database and server have to agree across processes", "anchors": ["crates/lair_keystore/src/bin/lair-keystore-bin/main.rs:exec,get_config", "crates/lair_keystore/src/bin/lair-keystore-bin/cmd_init.rs:exec", "crates/lair_keystore/src/bin/lair-keystore-bin/cmd_url.rs:exec", "crates/lair_keystore/src/bin/lair-keystore-bin/cmd_server.rs:exec", "crates/lair_keystore/src/bin/lair-keystore-bin/cmd_import_seed.rs:exec", "crates/lair_keystore/src/server.rs:StandaloneServer"]}
{"id": "C70", "title": "A connection that is no longer used is let go", "statement": "After a client calls shutdown, requests it sent before are still handled and answered, its waiting calls get their answers, and then both sides release the connection after finitely many further steps without anybody's doing. The same release follows when bytes arrive that are no message or when a process ends, once the client holds no handle any more. Until one of these happens, the connection stays usable. When a client drops its last handle, the connection is released as well.", "quantifier": "every sequence of calls, reads, answers, clones and drops of handles, shutdowns, malformed bytes, panics and process ends, in any order", "why_tests_cant": "whether something is kept for ever, and whether anything is lost while a connection winds down, depends on the order in which both sides notice; tests see a few orders and no end of time", "anchors": ["crates/lair_keystore_api/src/lair_client/async_io.rs: new_async_io_lair_client, Cli::shutdown, Cli::request", "crates/lair_keystore_api/src/lair_server/priv_srv.rs: priv_srv_accept", "crates/lair_keystore_api/src/sodium_secretstream/inner.rs: PrivSend::shutdown, PrivRecv::new"]}
{"id": "C71", "title": "Certificates have names that TLS can use", "statement": "Every certificate a client hears of - from creating it, getting it or listing entries - has a server name that TLS libraries accept: two labels of letters, digits, hyphens and underscores, none beginning or ending with a hyphen, none too long, the last not a number. It is the name the certificate was made for, the digest reported is that of the certificate, and certificates made from different random letters have different names.", "quantifier": "all random draws, all answers of the certificate generator, every history of clients and server", "why_tests_cant": "a name is drawn from 64^42 possibilities; tests see a few, and an unlucky hyphen or length shows up only on rare draws", "anchors": ["crates/lair_keystore_api/src/internal/tls.rs:tls_cert_self_signed_new", "crates/lair_keystore_api/src/lair_store.rs:new_wka_tls_cert"]}
{"id": "C72", "title": "Secrets leave the keystore only encrypted", "statement": "Nothing a client is told contains a seed or a private key in clear: every byte string in an answer is public data of the server or of an entry, a fresh nonce, a signature over the data the client gave, a ciphertext for the recipient the client named (an exported seed only if it is exportable), the contents of a ciphertext the client brought, or a certificate's private key encrypted for this connection. The text of an error is one of a fixed list or comes from the cryptographic library, the store, the fallback signer or the operating system. In the store, in its database rows and in the configuration file, seeds and private keys are only ciphertexts. A client's functions send passphrases only hashed and encrypted for the connection.", "quantifier": "every history of clients, requests, failures, restarts and direct calls; both stores; every configuration; every call of the client with every passphrase", "why_tests_cant": "a leak may hide in any answer or error text on any path; tests look at the answers they expect, not at what else might be told", "anchors": ["crates/lair_keystore_api/src/lair_server/priv_api.rs", "crates/lair_keystore_api/src/lair_server/priv_srv.rs: priv_srv_accept", "crates/lair_keystore_api/src/lair_store.rs: LairStore", "crates/lair_keystore_api/src/mem_store.rs", "crates/lair_keystore/src/store_sqlite.rs", "crates/lair_keystore_api/src/config.rs: LairServerConfigInner::new", "crates/lair_keystore_api/src/lair_client.rs: LairClient"]}
{"id": "C73", "title": "Requests take effect one at a time", "statement": "However many clients and requests the server handles at once, each answered request takes effect in a single instant between its arrival and its answer: its answer is the one a keystore with exactly the entries of that instant would give to the request alone, its change to the keystore and to the connection's unlocked state is made in that instant and nowhere else. For a whole run of the server there is one order of all its requests, which keeps every request that arrived after another was answered behind it, such that handling them one after the other in that order gives the same answers and leaves the same entries and the same unlocked connections. In particular a list of entries is a snapshot. A client's call that was answered took effect in an instant after it was made and before it returned, also over a network that loses, alters or repeats bytes. (For requests during whose handling no call to the outside fails; others may be answered with an error after they have written, see C07.)", "quantifier": "every history of any number of connections and concurrent requests, every interleaving of the handlers' steps, both stores, with the caches shared by all connections", "why_tests_cant": "the interleavings of handlers over shared caches and store are unbounded, and a violation shows only in a particular schedule", "anchors": ["crates/lair_keystore_api/src/lair_server/priv_srv.rs: priv_srv_accept, priv_dispatch_incoming", "crates/lair_keystore_api/src/lair_server/priv_api.rs: priv_gen_and_register_entry, priv_get_full_entry_by_tag", "crates/lair_keystore_api/src/lair_store.rs: LairStore"]}
{"id": "C74", "title": "What was created survives a power cut", "statement": "When the machine loses power, at any moment and any number of times, the keystore can be used again afterwards: it is in a state it was in at some earlier moment, so that everything said of keystores still holds; what is missing are the newest entries, and no entry is missing that a client had been told was created. The configuration that init reported as made is there.", "quantifier": "every history of requests, direct calls, restarts, checkpoints and power cuts, everything the disk may have kept, every point of init", "why_tests_cant": "unbounded histories and every state the disk may be left in; a test cannot cut the power", "anchors": ["crates/lair_keystore/src/store_sqlite.rs:set_pragmas", "crates/lair_keystore/src/store_sqlite.rs:SqlPool::new_sync", "crates/lair_keystore/src/bin/lair-keystore-bin/cmd_init.rs:exec"]}
{"id": "C75", "title": "A keystore is its directory, by whatever name", "statement": "A command acts on the directory that the name it was given leads to, in whatever place it is given and through whatever links, and on no other. After init, every name of the directory, then and later, reaches the same keystore: url says what init said, another init is refused, a server with the same passphrase continues where the last one stopped, whatever was done in other directories in between. The path that goes into configuration and connection URL has no links, and leads to the directory from everywhere. Init makes a keystore in every directory that has none, and makes the directory if it is missing.", "quantifier": "every file system with directories, files and links, every name and working directory, every sequence of commands on any number of directories, interleaved with making and removing of links, files and directories", "why_tests_cant": "unbounded trees of links and histories of commands; a test tries a few names", "anchors": ["crates/lair_keystore/src/bin/lair-keystore-bin/main.rs:exec", "crates/lair_keystore/src/bin/lair-keystore-bin/cmd_init.rs:exec", "crates/lair_keystore_api/src/config.rs:LairServerConfigInner::new"]}
{"id": "C76", "title": "A seed bundle opens only to what its owner locked", "statement": "Whoever holds a locked seed bundle without knowing a secret cannot change what it opens to: whatever they make of it, opening it with the owner's secret gives the seed, the application data and the questions that were locked, or fails. A secret other than those it was locked with does not open it unless a ciphertext opens under two keys.", "quantifier": "every bundle, every bytes offered in its place, every secret", "why_tests_cant": "tests lock and unlock a few bundles; what can be made of a bundle ranges over all byte strings", "anchors": ["crates/hc_seed_bundle/src/seed_cipher.rs:SeedCipherBuilder::lock, LockedSeedCipherPwHash::unlock, LockedSeedCipherSecurityQuestions::unlock, LockedSeedCipher::from_locked", "crates/hc_seed_bundle/src/seed_cipher/pw_utils.rs:pw_enc, pw_dec"]}
{"id": "C77", "title": "A seed imported at the command line is there for clients", "statement": "When import-seed, given a seed bundle and the passphrase it was locked with, says that all went well, clients of every server started in the directory later find the public keys of the bundle's seed under the tag, with the exportable flag that was asked for. They can sign with the seed's key, and the signatures verify under it; if a deep lock was asked for, by giving the passphrase that was typed for it, and without one they are refused.", "quantifier": "every bundle, every passphrase and input, every tag and flag, every history of commands before and after the import, every client and every behaviour of the network short of forging a ciphertext", "why_tests_cant": "The passphrase is typed at a terminal, trimmed, hashed and stretched in one process and hashed by a client and stretched by another process later; the seed goes through two formats and two encryptions; that they agree for every input and through every later history of the directory is not seen in any finite set of runs.", "anchors": ["crates/lair_keystore/src/bin/lair-keystore-bin/cmd_import_seed.rs:exec", "crates/hc_seed_bundle/src/seed_cipher.rs:SeedCipherBuilder::lock, LockedSeedCipherPwHash::unlock", "crates/lair_keystore_api/src/lair_store.rs:insert_seed, insert_deep_locked_seed", "crates/lair_keystore_api/src/lair_client.rs:get_entry, sign_by_pub_key", "crates/lair_keystore_api/src/lair_server/priv_api.rs:priv_req_sign_by_pub_key"]}
{"id": "C78", "title": "Only clients who give the passphrase make a keystore do anything", "statement": "Whatever a network does with the bytes of the connections, short of forging a ciphertext: every entry of a keystore was asked for in a call that some client has made (or by the server's own process, calling the store directly), everything a server sends over a connection, other than errors and its name, version and public key, answers such a call, and everything it asks the outside signer to sign is what such a call asked for; and the client that made the call has also made one that unlocks, with a passphrase that opens the keystore.", "quantifier": "every history of clients, calls, restarts and direct calls of the store, every interleaving and failure, every sequence of bytes the network feeds to either end of every connection, every entry, answer and question to the signer", "why_tests_cant": "It denies that anything else can have an effect: altered, repeated, injected and misdirected bytes, requests that overtake the unlocking, connections whose numbers return after a restart. A test tries some of them.", "anchors": ["crates/lair_keystore_api/src/lair_server/priv_srv.rs:priv_dispatch_incoming", "crates/lair_keystore_api/src/lair_server/priv_api.rs:priv_req_unlock", "crates/lair_keystore_api/src/lair_server/priv_srv.rs:accept", "crates/lair_keystore_api/src/sodium_secretstream.rs:new_s3_server, new_s3_client", "crates/lair_keystore_api/src/lair_server/priv_api.rs:priv_req_sign_by_pub_key", "crates/lair_keystore_api/src/lair_store.rs:insert_seed"]}
{"id": "C79", "title": "Keys are of use to clients over any network, and of no other use", "statement": "Whatever a network does with the bytes of the connections, short of forging a ciphertext: a client's call to unlock succeeds only with the keystore's passphrase, and with it whenever it is answered and nothing fails. A deep-locked seed made by one client signs for every client that gives its passphrase and for none that gives none. No client gets an export of a seed that was made as not exportable or with a passphrase of its own. What one client encrypts, with a seed or for the key of a seed in the same or another keystore, clients of that keystore read. A seed exported from one keystore and imported into another has the public keys it had, and so have the seeds derived from it along the same path. Every client gets the same private key of a certificate, the one generated with it. At most one call of all clients creates an item with a given tag or public key.", "quantifier": "every number of clients and calls, every interleaving, failure and restart, every sequence of bytes the network feeds to either end of every connection, every pair of keystores, each with a network of its own", "why_tests_cant": "It relates calls of different clients, at different times and of different keystores, through networks that may cut, delay, repeat or alter anything; tests run a few calls over an in-memory channel.", "anchors": ["crates/lair_keystore_api/src/lair_client.rs:unlock, new_seed, export_seed_by_tag, import_seed, sign_by_pub_key, crypto_box_xsalsa_by_pub_key, crypto_box_xsalsa_open_by_pub_key, secretbox_xsalsa_by_tag, get_wka_tls_cert_priv_key", "crates/lair_keystore_api/src/lair_server/priv_api.rs:priv_req_*", "crates/lair_keystore_api/src/sodium_secretstream.rs:S3Sender, S3Receiver"]}
