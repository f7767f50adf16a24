(** * Commands: the commands given, one after another, in one directory

    [crates/lair_keystore/src/bin/lair-keystore-bin/main.rs] with [cmd_init.rs], [cmd_url.rs],
    [cmd_server.rs], [cmd_import_seed.rs] and [server.rs].  The parts are those of [Startup],
    [ConfigText], [Cli] and [System]: here the configuration goes through its file, and what a
    server does starts from what earlier ones left.

    Simplified: passphrases are piped; a command ends before the next begins (for init and the pid file
    see [InitFile] and [PidFile], which have commands at the same time; here no command is refused for the pid
    file); the directory is not touched otherwise; reading and writing files does not fail.  A server is
    stopped after any number of events. *)

From Verif Require Import Base Crypto Types Codec Secret Store Server System Cli ConnUrl Startup ConfigText.

(** The configuration file [main.rs:15,146-165] and the database. *)
Record keydir := KeyDir { kd_file : option bytes; kd_disk : disk (list row) }.

(** [main.rs:135-160,194-223]. *)
Inductive command :=
| CInit (stdin : bytes) (ops mem : N) (r : draws)
| CUrl
| CServer (stdin : bytes) (fb_ok : bool) (evs : list event)
| CImport (stdin : bytes) (deep : bool) (tag bundle : bytes) (exportable fb_ok : bool) (os : list oracle).

(** What a command prints, as far as it is not fixed text: the connection URL [cmd_init.rs:43-48],
    [cmd_url.rs:4], [server.rs:80-83]; or its error; nothing more if it is
    stopped before. *)
Inductive output := Said (url : bytes) | Refused (e : bytes) | Panics | Stopped.

Section Commands.
  Variable C : Crypto.
  Variable Y : Yaml.
  Variable version : bytes.
  Variable rcgen : gencert -> bool.
  Variable root : bytes.      (* the directory, made canonical [main.rs:208] *)

  (** A server process on a database that holds [t]. [server.rs:17-87]. *)
  Definition boot (t : list row) : sys sql_store := Sys sql_store (fresh_shared sql_store t) ∅.
  (** The server process runs [server.rs:17-87]. *)
  Definition serve (g : genv) (t : list row) (evs : list event) : sys sql_store :=
    fold_left (step sql_store g) evs (boot t).
  (** What it leaves in the database [store_sqlite.rs:141-253]. *)
  Definition left_by (s : sys sql_store) : list row := sh_store sql_store (s_sh sql_store s).

  (** The name is given in [ipc_keystore.rs:33-36]. *)
  Definition env (cfg : config) (st : started) : genv :=
    env_of C cfg st (str "lair-keystore-ipc") version rcgen.

  (** [get_config] [main.rs:146-165]. *)
  Definition with_config (k : keydir) (f : config -> keydir * output) : keydir * output :=
    match kd_file k with
    | None => (k, Refused (str "Could not read config file"))
    | Some text =>
        match from_bytes Y text with
        | None => (k, Refused (str "yaml"))
        | Some cfg => f cfg
        end
    end.

  (** [StandaloneServer::run] [server.rs:59-89]; [evs] is what happens while it runs. *)
  Definition run_server (k : keydir) (cfg : config) (pass : bytes) (fb_ok : bool) (evs : list event)
      : keydir * output :=
    match start C ([] : list row) cfg pass fb_ok (kd_disk k) with
    | (d, Err e) => (KeyDir (kd_file k) d, Refused e)
    | (Some (key, salt, t), Ok st) =>
        (KeyDir (kd_file k) (Some (key, salt, left_by (serve (env cfg st) t evs))), Said (url_text (cf_url cfg)))
    | (None, Ok _) => (k, Panics)
    end.

  (** [store.insert_seed(..).await?] and [insert_deep_locked_seed] [cmd_import_seed.rs:107-131]. *)
  Definition insert_told (k : keydir) (cfg : config) (pass : bytes) (fb_ok : bool) (d : direct) (os : list oracle)
      (u : bytes) : output :=
    match start C ([] : list row) cfg pass fb_ok (kd_disk k) with
    | (Some (_, _, t), Ok st) =>
        match direct_result sql_store (env cfg st) (boot t) d os with
        | Some (Ok _) => Said u
        | Some (Err e) => Refused e
        | None => Stopped
        end
    | _ => Panics
    end.

  (** [exec] [main.rs:167-202]. *)
  Definition exec (k : keydir) (c : command) : keydir * output :=
    match c with
    | CInit stdin ops mem r =>                                         (* [cmd_init.rs:4-49] *)
        match kd_file k with
        | Some _ => (k, Refused (str "refusing to overwrite existing store"))
        | None =>
            match new_config C root (Ok root) (command_passphrase stdin) ops mem r with
            | None => (k, Panics)
            | Some (Err e) => (k, Refused e)
            | Some (Ok cfg) => (KeyDir (Some (display Y cfg)) (kd_disk k), Said (url_text (cf_url cfg)))
            end
        end
    | CUrl => with_config k (fun cfg => (k, Said (url_text (cf_url cfg))))  (* [cmd_url.rs:3-7] *)
    | CServer stdin fb_ok evs =>                                       (* [cmd_server.rs:3-22] *)
        with_config k (fun cfg => run_server k cfg (command_passphrase stdin) fb_ok evs)
    | CImport stdin deep tag bundle exportable fb_ok os =>             (* [cmd_import_seed.rs:4-136] *)
        with_config k (fun cfg =>
          match import_passphrases deep stdin with
          | Err e => (k, Refused e)
          | Ok (pass, bundle_pass, deep_pass) =>
              match import_seed C tag bundle bundle_pass deep_pass exportable with
              | Ok d =>
                  let (k', out) := run_server k cfg pass fb_ok [EvDirect d os] in
                  (k', match out with Said u => insert_told k cfg pass fb_ok d os u | _ => out end)
              | Err e =>                 (* noticed after the server has been started *)
                  let (k', out) := run_server k cfg pass fb_ok [] in
                  (k', match out with Said _ => Refused e | _ => out end)
              end
          end)
    end.

  (** The server process that a server command runs, after the events. [cmd_server.rs:3-22]. *)
  Definition running (k : keydir) (stdin : bytes) (fb_ok : bool) (evs : list event) : option (genv * sys sql_store) :=
    match kd_file k with
    | None => None
    | Some text =>
        match from_bytes Y text with
        | None => None
        | Some cfg =>
            match start C ([] : list row) cfg (command_passphrase stdin) fb_ok (kd_disk k) with
            | (Some (_, _, t), Ok st) => Some (env cfg st, serve (env cfg st) t evs)
            | _ => None
            end
        end
    end.

  (** One after the other [main.rs:194-223]. *)
  Definition execs (k : keydir) (cs : list command) : keydir := fold_left (fun k c => fst (exec k c)) cs k.

  (** A directory in which no command was given [main.rs:194-223]. *)
  Definition nothing : keydir := KeyDir None None.

  (** The client's side: where it connects and whom it expects there, from the URL it is given
      [ipc_keystore.rs:109-120], [config.rs:294-319]; [None]: refused. *)
  Definition aim (text : bytes) : option (bytes * bytes) :=
    match parse_url text with
    | None => None
    | Some u =>
        match file_path u, server_key u with
        | Some path, Ok key => Some (path, key)
        | _, _ => None
        end
    end.
End Commands.
