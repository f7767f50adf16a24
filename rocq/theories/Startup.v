(** * Startup: generating a configuration and starting a server from it

    [crates/lair_keystore_api/src/config.rs] and [lair_server/priv_srv.rs], and the opening of
    the database in [crates/lair_keystore/src/store_sqlite.rs]. *)

From Verif Require Import Base Utf8 Crypto Types Codec Secret Server Cli ConnUrl.

Local Notation "x <- e ; k" := (rbind e (fun x => k)) (at level 60, right associativity).

(** [LairServerSignatureFallback] [config.rs:11-32]: program and arguments. *)
Definition fallback := option (bytes * option (list bytes)).

(** [LairServerConfigInner] [config.rs:36-73]. *)
Record config := Config {
  cf_url : url;
  cf_pid : bytes;
  cf_store : bytes;
  cf_fallback : fallback;
  cf_db_salt : bytes;
  cf_salt : bytes;
  cf_mem : N;
  cf_ops : N;
  cf_context : secret;
  cf_id : secret
}.

(** The random bytes drawn by [LairServerConfigInner::new]. [config.rs:136-274]. *)
Record draws := Draws {
  r_db_salt : bytes; r_salt : bytes; r_context : bytes; r_id : bytes;
  r_context_hdr : bytes; r_id_hdr : bytes
}.

(** The sizes of the buffers [config.rs:136-274]. *)
Definition draws_ok (r : draws) : Prop :=
  length (r_db_salt r) = 16 /\ length (r_salt r) = 16 /\ length (r_context r) = 32
  /\ length (r_id r) = 32 /\ length (r_context_hdr r) = 24 /\ length (r_id_hdr r) = 24.

Section Startup.
  Variable C : Crypto.

  (** The secret made from a passphrase [config.rs:154-179], [priv_srv.rs:43-65]. *)
  Definition pre_secret (pass salt : bytes) (ops mem : N) : res bytes :=
    argon2id C (blake2b C 64 pass) salt ops mem.

  (** The keys of the two encrypted fields [config.rs:181-199], [priv_srv.rs:67-83]. *)
  Definition ctx_key (pre : bytes) : bytes := kdf C 42 (str "CtxSecKy") pre.
  (** See [ctx_key]: [config.rs:191-199], [priv_srv.rs:76-83]. *)
  Definition id_key (pre : bytes) : bytes := kdf C 142 (str "IdnSecKy") pre.

  (** [LairServerConfigInner::new] [config.rs:136-274] on Unix.  [canon] is the canonical path
      of the directory, or the error of asking for it; [None] is a panic.  The order in which
      errors are noticed is not kept. *)
  Definition new_config (root : bytes) (canon : res bytes) (pass : bytes) (ops mem : N) (r : draws)
      : option (res config) :=
    match
      pre <- pre_secret pass (r_salt r) ops mem;
      dir <- canon;
      Ok (pre, dir)
    with
    | Err e => Some (Err e)
    | Ok (pre, dir) =>
        match generated_url dir (box_pk C (r_id r)) with
        | None => None
        | Some u =>
            Some (Ok (Config u (push root (str "pid_file")) (push root (str "store_file")) None
              (r_db_salt r) (r_salt r) mem ops
              (sec_encrypt C (ctx_key pre) (r_context_hdr r) (r_context r))
              (sec_encrypt C (id_key pre) (r_id_hdr r) (r_id r))))
        end
    end.

  (** What a started server holds: the database key and its identity. [priv_srv.rs:17-30]. *)
  Record started := Started { st_context : bytes; st_id_pk : bytes; st_id_sk : bytes }.

  (** [Srv::new] [priv_srv.rs:43-103]: up to the opening of the store. *)
  Definition unlock_config (cfg : config) (pass : bytes) : res started :=
    pre <- pre_secret pass (cf_salt cfg) (cf_ops cfg) (cf_mem cfg);
    context <- sec_open C 32 (ctx_key pre) (cf_context cfg);
    id <- sec_open C 32 (id_key pre) (cf_id cfg);
    Ok (Started context (box_pk C id) (box_sk C id)).

  (** The database file: not there, or there with the key and salt statements it was made
      under.  Opening it with other statements fails, which is all that is assumed of
      sqlcipher ([create_configured_db_connection] and what follows,
      [store_sqlite.rs:141-253]; without migration). *)
  Definition disk (A : Type) := option (bytes * bytes * A).

  (** Opening with the key and salt of the configuration [store_sqlite.rs:141-253]; see [Migrate]. *)
  Definition open_store {A} (empty : A) (context salt : bytes) (d : disk A) : res (disk A) :=
    key <- key_pragma (kdf C 142 (str "DbKSecKy") context);
    let salt := salt_pragma (str "cipher_salt") salt in
    match d with
    | None => Ok (Some (key, salt, empty))
    | Some (k, s, a) => if beq k key && beq s salt then Ok d else Err (str "file is not a database")
    end.

  (** [Srv::new] [priv_srv.rs:35-138] with a database in a file; [fb_ok]: the fallback signer
      could be launched. *)
  Definition start {A} (empty : A) (cfg : config) (pass : bytes) (fb_ok : bool) (d : disk A)
      : disk A * res started :=
    match unlock_config cfg pass with
    | Err e => (d, Err e)
    | Ok st =>
        match open_store empty (st_context st) (cf_db_salt cfg) d with
        | Err e => (d, Err e)
        | Ok d' =>
            (d', if fb_ok then Ok st
                 else match cf_fallback cfg with None => Ok st | Some _ => Err (str "io") end)
        end
    end.

  (** What the handlers see of it; [get_bidi_ctx_key] is derived from the database key
      [store_sqlite.rs:149-157]. *)
  Definition env_of (cfg : config) (st : started) (name version : bytes) (rcgen : gencert -> bool) : genv :=
    GEnv C (cf_salt cfg) (cf_ops cfg) (cf_mem cfg) (cf_id cfg) (st_id_pk st) name version
      (kdf C 42 (str "CtxSecKy") (st_context st))
      (match cf_fallback cfg with None => false | Some _ => true end) rcgen.

  (** Attempts to start, and changes a running server makes to the database. [priv_srv.rs:43-137]. *)
  Inductive life (A : Type) := LStart (pass : bytes) (fb_ok : bool) | LUse (f : A -> A).
  Arguments LStart {A} pass fb_ok.
  Arguments LUse {A} f.

  (** One of them [priv_srv.rs:43-137]. *)
  Definition live1 {A} (empty : A) (cfg : config) (d : disk A) (l : life A) : disk A :=
    match l with
    | LStart pass fb_ok => (start empty cfg pass fb_ok d).1
    | LUse f => match d with None => None | Some (k, s, a) => Some (k, s, f a) end
    end.

  (** All of them [priv_srv.rs:43-137]. *)
  Definition live {A} (empty : A) (cfg : config) (ls : list (life A)) : disk A :=
    fold_left (live1 empty cfg) ls None.
End Startup.
Arguments LStart {A} pass fb_ok.
Arguments LUse {A} f.
