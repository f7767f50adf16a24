(** * Cli: the text the command line reads and the statements sent to the database

    [crates/lair_keystore/src/bin/lair-keystore-bin] and the key statements of
    [crates/lair_keystore/src/store_sqlite.rs]. *)

From Verif Require Import Base Utf8 Base64 Crypto Types Codec Secret Store Server System SeedBundle.

Local Notation "x <- e ; k" := (rbind e (fun x => k)) (at level 60, right associativity).

(** ** Piped passphrases *)

(** [read_piped_passphrase] [main.rs:58-76]: all of standard input, less a final CR LF or LF. *)
Definition read_piped (raw : bytes) : bytes :=
  match rev raw with
  | x0a :: x0d :: r => rev r
  | x0a :: r => rev r
  | _ => raw
  end.

(** [str::split] at line feeds, on characters. Called at [cmd_import_seed.rs:19-38]. *)
Fixpoint split_lines (l : list bytes) : list (list bytes) :=
  match l with
  | [] => [[]]
  | c :: l =>
      if beq c [x0a] then [] :: split_lines l
      else match split_lines l with
           | line :: ls => (c :: line) :: ls
           | [] => [[c]]
           end
  end.

(** The list of passphrases of the import command [cmd_import_seed.rs:19-38]: lines trimmed,
    empty ones left out. *)
Definition pass_list (multi : bytes) : res (list bytes) :=
  cs <- ok_of_opt (str "Utf8Error") (chars multi);
  Ok (List.filter (fun s => negb (beq s [])) (map (fun line => concat (trim line)) (split_lines cs))).

(** The three passphrases: of the keystore, of the bundle, and of the deep lock
    [cmd_import_seed.rs:13-54]. *)
Definition import_passphrases (deep : bool) (raw : bytes) : res (bytes * bytes * option bytes) :=
  l <- pass_list (read_piped raw);
  if deep then
    match l with
    | [a; b; c] => Ok (a, b, Some c)
    | _ => Err (str "expected 3 newline delimited passphrases")
    end
  else
    match l with
    | [a; b] => Ok (a, b, None)
    | _ => Err (str "expected 2 newline delimited passphrases")
    end.

(** The passphrase of [init] and [server] [cmd_init.rs:24-28], [cmd_server.rs:11-15]. *)
Definition command_passphrase (raw : bytes) : bytes := read_piped raw.

(** ** The import command [cmd_import_seed.rs:73-136] *)

Section Import.
  Variable C : Crypto.

  (** The first passphrase cipher that opens [cmd_import_seed.rs:80-99]. *)
  Fixpoint unlock_first (ks : list locked) (pass : bytes) : option unlocked :=
    match ks with
    | [] => None
    | k :: ks =>
        match k with
        | LkPw _ _ _ _ _ _ =>
            match unlock_pw C k pass with
            | Ok b => Some b
            | Err _ => unlock_first ks pass
            end
        | _ => unlock_first ks pass
        end
    end.

  (** What is stored: the call made of the keystore [cmd_import_seed.rs:73-131].  The bundle is
      given in base64; the limits of a deep lock are always [Moderate]. *)
  Definition import_seed (tag bundle64 bundle_pass : bytes) (deep_pass : option bytes)
      (exportable : bool) : res direct :=
    raw <- from_b64url bundle64;
    ks <- from_locked raw;
    b <- ok_of_opt (str "could not unlock seed bundle") (unlock_first ks bundle_pass);
    Ok (match deep_pass with
        | Some p => DInsertDeep (u_seed b) tag (ops_limit Moderate) (mem_limit Moderate)
                      (blake2b C 64 p) exportable
        | None => DInsertSeed (u_seed b) tag exportable
        end).
End Import.

(** ** Key statements *)

(** [{b:02X}]. Called at [store_sqlite.rs:507-559]. *)
Definition hex_digit (n : N) : byte := if (n <? 10)%N then bn (n + 48) else bn (n + 55).
(** Upper-case hexadecimal [store_sqlite.rs:507-559]. *)
Definition hex (l : bytes) : bytes :=
  concat (map (fun b => [hex_digit (nb b / 16); hex_digit (nb b mod 16)]%N) l).

(** [KEY_PRAGMA] [store_sqlite.rs:507-509]. *)
Definition KEY_PRAGMA : bytes :=
  str "PRAGMA key = ""x'0000000000000000000000000000000000000000000000000000000000000000'"";".

(** [secure_write_key_pragma] [store_sqlite.rs:512-531]: the digits are written over bytes 16
    to 80 of the template; more than fit are an error. *)
Definition key_pragma (key : bytes) : res bytes :=
  let d := hex key in
  if Nat.leb (length d) 64
  then Ok (take 16 KEY_PRAGMA ++ d ++ drop (16 + length d) KEY_PRAGMA)
  else Err (str "failed to write whole buffer").

(** The key handed to [ATTACH DATABASE] [store_sqlite.rs:634]. *)
Definition attach_key (pragma : bytes) : bytes := take (81 - 14) (drop 14 pragma).

(** [set_salt] [store_sqlite.rs:547-559]. *)
Definition salt_pragma (name salt : bytes) : bytes :=
  str "PRAGMA " ++ name ++ str " = ""x'" ++ hex salt ++ str "'"";".
