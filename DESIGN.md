# A machine-checked model of holochain/lair

Everything under `rocq/theories` is a Gallina model of the Rust sources in
`/repo` (crates `lair_keystore_api`, `lair_keystore`, `hc_seed_bundle`) and
proofs about it, for Coq 8.16.1 with std++ (`gmap`, list lemmas, tactics).  The
code is never run: the model is a reading of the source, and every definition
cites the file and lines it is read from and says where it simplifies.

## How the model is organised

* **Data** — a byte is `Coq.Init.Byte.byte`, byte strings and text are
  `list byte`; `Result` is `res A := Ok a | Err e`; a Rust panic is a value of
  its own wherever panics matter (`None`, `Panic`, `Crash`, `TPanic`).
  Fixed-size arrays are lists, with the size either checked by the code that
  checks it in Rust or stated as a hypothesis.
* **Cryptography** (`Crypto.v`) — libsodium is a record `Crypto` of functions
  and a record `CryptoOk` of the laws assumed of it (round trips, lengths,
  signature validity, key-exchange symmetry).  Theorems quantify over both.
  Nothing like "ciphertexts are unforgeable" or "hashes do not collide" is
  assumed; where a claim depends on it the theorem is a reduction: it names the
  forged ciphertext or the two keys that open one ciphertext.  `Toy.v` builds an
  instance, so the laws are consistent and the examples beside the theorems
  can be computed.
* **Concurrency** — request handlers (`Server.v`) are programs in a small free
  monad whose actions are the operations that touch shared state (atomic flag,
  cache under its lock, store call, random bytes, certificate generator,
  fallback call, send).  The server (`System.v`) is a pool of such programs over
  all connections; an execution is a list of events, each event lets one program
  do one action, with the answers of the environment (random bytes, I/O
  failures, fallback answers, transport failures) in the event.  Theorems about
  all event lists hold for all interleavings, histories and failures.  The same
  style is used for the sender of a connection (`Sender.v`), the database pool
  (`SqlPool.v`), the client (`Client.v`), the fallback signer (`Fallback.v`), the
  pid file (`PidFile.v`), `init` (`InitFile.v`) and migration (`Migrate.v`).
* **Store back ends** (`Store.v`) — a specification (a list of entries in order
  of writing, `spec_get`, `spec_write`), refined by the model of `mem_store.rs`
  (three maps) and of `store_sqlite.rs` (a table with unique columns holding
  encoded entries).  The server is generic in the back end; theorems ask for
  `StoreOk S`, of which both are proved instances (C10).
* **Codecs** — UTF-8, base64, MessagePack (what rmp-serde emits and reads for
  these types), the serde field layouts, the URL syntax and the YAML layout of the
  configuration are modelled down to bytes.

Files by role: `*.v` without suffix are the model (no proofs beyond small
lemmas); `ServerSpec.v`, `ServerVocab.v`, `WireVocab.v`, `WorldVocab.v`, `NetVocab.v` are the vocabulary of
the statements; `*Proofs*.v`, `ServerTheorems.v` are proofs;
`Properties*.v` hold the theorems `Cnn_…`, each with an `Example` meeting its
hypotheses and `Print Assumptions`; `Toy.v`, `Demo.v`, `DemoWorld.v` and `DemoNet.v` are the instance used by
the examples.

## What is modelled of which source file

| source | model | left out |
|---|---|---|
| `lair_keystore_api/src/lair_server/priv_srv.rs`, `priv_api.rs` | `Server.v`, `System.v`, `Startup.v` | tracing; texts of errors only where they are constants |
| `lair_store.rs` | `Types.v`, `Codec.v`, `Server.v` | — |
| `mem_store.rs`, `lair_keystore/src/store_sqlite.rs`, `sql/*.sql` | `Store.v`, `SqlPool.v`, `Migrate.v`, `Cli.v` (key statements), `Power.v` (settings, loss of power) | SQL as text: its meaning is written down in `Store.v` |
| `lair_server.rs` (fallback) | `Fallback.v`, `Signing.v`, `Json.v` | finding the program on disk |
| `lair_server/priv_srv.rs`, lru crate | `Lru.v`, `System.v` | — |
| `encoding_types.rs` | `Base64.v`, `Secret.v`, `Codec.v`; `BinDataSized::verify_detached` is `sign_verify` of `Crypto.v` | memory locking |
| `lair_api.rs`, `lair_api/*.rs` | `Types.v`, `Codec.v`, `CodecForms.v` (other spellings) | numbers in more bytes than needed where serde expects a position |
| `sodium_secretstream.rs`, `framed.rs`, `crypt.rs`, `inner.rs` | `Wire.v`, `Sender.v`, `Handshake.v` | — |
| `lair_client.rs`, `lair_client/async_io.rs` | `Client.v`, `Asks.v` (each function: request and result), `Handshake.v` | — |
| `ipc_keystore.rs`, `in_proc_keystore.rs` | `Asks.v` (making a connection ready), `World.v` (clients, connections and server joined; a connection is two queues), `Net.v` (the same on byte streams), `Flow.v` (bounded pipes: who waits for whom), `Lifetime.v` (who holds a connection and what ends it) | Windows pipes |
| `config.rs` | `Startup.v`, `ConnUrl.v`, `ConfigText.v` | named pipes (Windows) |
| `internal/tls.rs` | `Tls.v` (what is asked of rcgen), `Server.v` (`gencert`, `g_rcgen`) | what rcgen does inside |
| `ipc_keystore/raw_ipc.rs`, `pid_check.rs` | `PidFile.v`, `Accept.v` | Windows |
| `bin/lair-keystore-bin/*` | `Cli.v`, `InitFile.v`, `Commands.v` (the commands on one directory), `Root.v` (the names of directories) | argument parsing, fixed text printed |
| `hc_seed_bundle/src/*` | `SeedBundle.v` | memory locking, worker threads |

Not modelled at all: memory locking and zeroing, CPU and memory limits, timing,
tracing, Windows code, the `tokio` executor beyond "any ready task may run next",
power loss during the migration of an old database or between a start and its first commit
(otherwise `Power.v`).

## Where each property is modelled and how it is proved

"Invariant" means: by induction over all event lists.  "Refuted" means that the
clause is false of the model and a witness is proved; what is true instead
is proved beside it.  `MANIFEST.json` lists the theorems and, for partial ones,
what is missing.

| property | model | proof |
|---|---|---|
| C01–C05 lock state, answers | `Server.v`, `System.v` | invariants with ghost requests and answers; the number of requests in work at once by induction over steps (`PropertiesDirect.v`) |
| C06–C10 store | `Store.v`, `System.v` | refinement of both back ends; invariants; what each request wrote (`WriteProofs.v`), what a direct call is told (`PropertiesDirect.v`) |
| C11–C12 caches | `Lru.v`, `System.v` | invariant; simulation with a server that has no caches |
| C13–C16, C18, C20–C23 key operations | `Server.v` (C16 also `SeedBundle.v`) | answer specification of each handler under interference (`ServerSpec.v`); derivation agrees with that of bundles |
| C17 derivation from deep-locked seeds | `Server.v` | partial, refuted: limits of the request are used |
| C19 who signs | `Server.v`, `Startup.v` (as configured) | invariant; last clause refuted: fallback signatures are not verified |
| C24 malformed ciphertexts | `Wire.v`, `Secret.v` | handlers never panic; refuted for short frames and secrets, exactly these (`C24_exactly`) |
| C25–C26, C49 start-up, restart | `Startup.v`, `System.v` | equations, reductions, invariants |
| C27 handshake | `Handshake.v` | equations, any chunking |
| C28–C30 frames, streams | `Wire.v` | induction on streams; refuted after refused sends and for long lists and boxes; `PropertiesDeliver.v` bounds the size of every other answer (given that a box is 16 bytes longer than what is in it, a hypothesis of that theorem only); `PropertiesRead.v`: answers delivered read back as they were sent, and over a good line the client gets exactly those before the first that is refused |
| C31 senders | `Sender.v` | invariant; refuted under cancellation, exactly (`C31_exactly`) |
| C32 pool | `SqlPool.v` | invariant; exactly cancellation and panics inside a transaction lose a connection, so the full property is refuted |
| C33 migration | `Migrate.v` | all crash points; refuted between export and rename, exactly then (`C33_exactly`) |
| C34, C35, C55 pid file | `PidFile.v` | invariants; refuted (name of the executable, races, empty file, order of socket and passphrase); exactly when a server started by itself gets in next to one that serves, or harms it |
| C36 fallback | `Fallback.v` | invariants (answers, which programs are stopped, bounded queue, nothing left behind, printed answers delivered); refuted (no time limit, equal ids) |
| C56, C57 fallback text | `Json.v` (printer and reader), `JsonText.v` (JSON grammar, reader sound and complete) | proved |
| C37 client | `Client.v` | invariant; refuted (sending is not timed, equal ids) |
| C38–C40 codecs | `Base64.v`, `Msgpack.v`, `Codec.v` | round-trip laws, injectivity |
| C41–C44, C50, C51 seed bundles | `SeedBundle.v` | round-trip laws; refutations, with the exact conditions for C42, C43, C44, C50 |
| C45, C52 connection URL | `ConnUrl.v` | round-trip laws; refutations |
| C46 configuration text | `ConfigText.v` | exact characterisation of what reads back |
| C47, C48, C54 command line | `Cli.v` | round-trip laws; one refutation |
| C53 init | `InitFile.v` | invariant; refuted when killed while writing; when a later run succeeds |
| C58–C61 clients and server together | `World.v`, `Asks.v` | invariant linking `Client.v` and `System.v`: every run of the whole projects to runs of the parts, so their theorems apply; then the answer specification |
| C62, C63 the same over byte streams | `Net.v` | simulation of `Net.v` by `World.v`, step by step, up to the first forged ciphertext; invariant of the bytes under way over a faithful line; what is left when a connection ends (`PropertiesHangup.v`) |
| C64 fresh randomness | `System.v` (the bytes of each oracle), `Startup.v`, `Asks.v` | per-program predicate on what has been drawn and written so far (`FreshProofs.fr`), invariant over runs, a book of who made each entry |
| C65 taking in connections | `Accept.v` | invariant; refuted (`accept()` fails once, silent clients); exactly when listening stops |
| C66 no deadlock behind full buffers | `Flow.v` | invariant, an exact measure of the steps to come, progress |
| C67 spellings of messages | `Codec.v`, `CodecForms.v` | the readers depend only on the values found under declared names; permutations; per-kind strictness |
| C68 signer and server together | `Signing.v` (joins `System.v` and `Fallback.v`) | invariant tying each call of the signer to its request; both projections are runs of the parts, so C19 and C36 apply; measure for coming to rest; refuted for equal ids |
| C69 one keystore per directory | `Commands.v` (joins `Startup.v`, `ConfigText.v`, `ConnUrl.v`, `Cli.v`, `System.v`; with `Net.v` in `PropertiesEndToEnd.v`) | invariant over command histories: refinement of all server processes to one restarted `System` run; reuse of C07, C25, C26, C45, C46, C52 |
| C70 letting go of a connection | `Lifetime.v` | invariant over event lists; a measure that every step of winding down lowers; the clause on dropped handles is refuted; exactly when a connection without handles is let go |
| C71 names of certificates | `Tls.v` (the generator's side of `Server.v`'s certificates) | by the shape of the text; for clients with the answer specification of C59 |
| C72 what is told and kept | `Server.v`, `System.v`, `Store.v`, `Startup.v`, `Asks.v`; the reasons for telling are listed in `SecretVocab.v` | answers from the answer specification, error texts by an invariant over what a handler may still fail with; entries from the book of C64; client by non-interference. Confidentiality is in terms of which terms occur (that ciphertexts hide what they hold is the library's claim); what is written to the log is not modelled |
| C73 one at a time | `Server.v`, `System.v`; `AtOnceSpec.v` says what handling one request alone does, `AtOnce.v` is the server without caches and interleaving | linearizability: every thread's future is either still to come (and no matter when it is run) or already fixed by one past step (`AtOnceProofs.v`); the order of the whole history by induction over its prefixes (`AtOnceProofs2.v`); a handler run alone meets the specification (`AtOnceProofs3.v`). Calls of clients inherit this, over queues (`PropertiesAtOnce2.v`) and over an attacker's network (`PropertiesAtOnce3.v`, by the simulation of C62). Only for requests with no failure from outside (otherwise false: C07) |
| C74 power cuts | `Power.v` (joins `System.v` on the sqlite store and `InitFile.v` with what the disk keeps) | the table grows row by row, so each beginning of it is the table of an earlier moment: simulation by histories without power cuts; refuted for acknowledged entries and for the configuration |
| C75 names of the directory | `Root.v` (following of names and links, in front of `Commands.v`) | following names is characterised by rules (`leads`), the model's function is sound and complete for them; the keystore of a directory is the fold of the commands given to it, by induction over the history; then C69. Refuted for missing directories: they are looked up before init would make them |
| C76 changed seed bundles | `SeedBundle.v` | what opens is characterised from the unlock equations; the seed that was locked or a forged ciphertext. Refuted for application data and questions: a function of the locked bytes alone gives the bundle the owner would have made with others |
| C77 imported seeds | `SeedBundle.v`, `Cli.v`, `Commands.v`, `Net.v` | composition: what locking gives opens (C54), the command stores it (C69), and clients over the network use what is stored (C08, C18, C20 through C62) |
| C78 only by passphrase | `System.v`, `Net.v` | composition: every entry was asked for (C07), locked connections get nothing (C01, C02), signer's questions (C19), every request is a client's call (C62) |
| C79 keys over any network | `Net.v` on `World.v` | composition: the simulation of C62 carries the client-level theorems (C59, C60) over to arbitrary networks |

A property that is false of the faithful model has a theorem named
`…_refuted` with a witness, and whatever weaker statement is true has a
theorem named `…_partial` (or a plain name when that clause is full).

## Trusted base

1. **Coq 8.16.1**: kernel, `vm_compute` (used in examples and refutations),
   and, as loaded libraries, std++ and the standard library.
2. **Axioms**: none.  `Print Assumptions` follows every theorem named in
   `MANIFEST.json` and prints `Closed under the global context` for each one.
   `coqchk` (and the axiom list of the checker) names seven constants
   `Coq.ssr.ssrunder.Under_rel.{Under_rel, Under_rel_from_rel, Under_relE,
   under_rel_done, Over_rel, over_rel, over_rel_done}`: these are the fields of a module
   signature sealed in the standard library's `ssrunder`, loaded with
   `ssreflect`; no theorem depends on them.
3. **Hypotheses of theorems**, all explicit in the statements:
   * `CryptoOk C` (`Crypto.v`): the laws of libsodium listed there.  Two of
     them are idealised: `blake2b`, `argon2id`, `kdf` are functions of their
     arguments with results of fixed size; `argon2id` may fail.
   * `StoreOk S`: the store follows its specification; proved for the
     in-memory and the sqlite model, so nothing is left assumed but the meaning
     given to SQL (`UNIQUE`, `INSERT OR ROLLBACK`, `SELECT … WHERE`, a transaction
     is atomic).
   * `YamlOk Y` (`ConfigText.v`): one-line YAML scalars read back.
   * `g_rcgen`: which certificates the generator may make; arbitrary (for C71: those of `Tls.v`).
   * sizes of random draws and of fixed-size arguments; where errors are sent on, that their texts
     are texts (`C30_exactly`, `C63_next_read`).
4. **The reading of the code.**  In particular: sqlcipher opens a file just with
   the key and salt it was made with and transactions are atomic (`Startup.v`,
   `Migrate.v`); tokio's semaphores and channels as described in `SqlPool.v`,
   `Sender.v`, `Fallback.v`, `Client.v`; the `url` crate and `libyaml` as
   described in `ConnUrl.v` and `ConfigText.v`; processes, names and files in
   `PidFile.v`; what sqlite keeps of its write-ahead log, and a file system of a file that was
   not flushed, when power is lost (`Power.v`); `try_unfold` and `for_each_concurrent` of the `futures` crate as
   described in `Accept.v` and `Flow.v`; message ids are arbitrary (clauses that need distinct ids say
   so).

## Tests of the theorems

`seeded/LOG.jsonl` lists the wrong programs tried: each line is one edit of the
model, made in a scratch copy, with the claim it breaks and the theorems
that could no longer be proved.  In the scratch copy each failing proof was
replaced by `Admitted`, and a theorem counts as failed if its own proof failed
or `Print Assumptions` shows that it rests on an admitted lemma.
