(** * Asks: the functions of a client

    [LairClient]'s functions [lair_client.rs:70-560]: what each of them sends and what it gives
    back, and the functions that make a connection ready for use: [ipc_keystore_connect_options]
    [ipc_keystore.rs:113-164] and [InProcKeystore::new_client] [in_proc_keystore.rs:59-105]. *)

From Verif Require Import Base Crypto Types Secret SeedBundle Client.

(** One constructor for each function, with its arguments.  Passphrases are as the caller gives
    them. *)
Inductive ask :=
| AHello (expected : bytes)                                                     (* [106-129] *)
| AUnlock (pass : bytes)                                                        (* [135-147] *)
| AList                                                                         (* [150-161] *)
| AGet (tag : bytes)                                                            (* [164-174] *)
| ANewSeed (tag : bytes) (pass : option bytes) (exportable : bool)              (* [180-204] *)
| AExport (tag sender recipient : bytes) (pass : option bytes)                  (* [208-233] *)
| AImport (sender recipient : bytes) (pass : option bytes) (nonce cipher tag : bytes)
    (exportable : bool)                                                         (* [240-278] *)
| ADerive (src : bytes) (src_pass : option bytes) (dst : bytes) (dst_pass : option bytes)
    (path : list N)                                                             (* [287-327] *)
| ASign (pk : bytes) (pass : option bytes) (data : bytes)                       (* [331-349] *)
| ABox (sender recipient : bytes) (pass : option bytes) (data : bytes)          (* [353-378] *)
| ABoxOpen (sender recipient : bytes) (pass : option bytes) (nonce cipher : bytes)
                                                                                (* [382-408] *)
| ABoxSign (sender recipient : bytes) (pass : option bytes) (data : bytes)      (* [416-441] *)
| ABoxSignOpen (sender recipient : bytes) (pass : option bytes) (nonce cipher : bytes)
                                                                                (* [449-475] *)
| ANewCert (tag : bytes)                                                        (* [481-491] *)
| ACertKey (tag : bytes)                                                        (* [495-507] *)
| ASecretBox (tag : bytes) (pass : option bytes) (data : bytes)                 (* [511-529] *)
| ASecretBoxOpen (tag : bytes) (pass : option bytes) (nonce cipher : bytes).    (* [533-556] *)

(** What a call takes from its surroundings: the message id drawn by [new_msg_id]
    [lair_api.rs:68-70], the headers drawn when passphrases are encrypted, the
    limits in force when the function is called ([PwHashLimits::current]). *)
Record draws := Draws { d_id : bytes; d_hdr : bytes; d_hdr2 : bytes; d_limits : limits }.

(** What a call gives back. [lair_client.rs:106-556]. *)
Inductive value :=
| VUnit
| VText (s : bytes)
| VInfos (l : list entry_info)
| VInfo (i : entry_info)
| VSeed (si : seed_info)
| VBox (nonce cipher : bytes)
| VBytes (s : bytes)                 (* a signature, a message, a private key *)
| VCert (ci : cert_info).

Section Asks.
  Variable C : Crypto.

  (** [encrypt_passphrase] [lair_client.rs:564-575] *)
  Definition hide (key hdr pass : bytes) : secret := sec_encrypt C key hdr (blake2b C 64 pass).

  (** [DeepLockPassphrase::new] [lair_api.rs:52-62] *)
  Definition dlp_of (l : limits) (s : secret) : dlp := Dlp (ops_limit l) (mem_limit l) s.

  (** The request that a function sends; [enc] is the client's encryption context key.
      [lair_client.rs:106-556]. *)
  Definition request_of (enc : bytes) (d : draws) (a : ask) : api :=
    let i := d_id d in
    let opt p := option_map (hide enc (d_hdr d)) p in
    let deep h p := option_map (fun p => dlp_of (d_limits d) (hide enc h p)) p in
    match a with
    | AHello _ => ReqHello i
    | AUnlock p => ReqUnlock i (hide enc (d_hdr d) p)
    | AList => ReqListEntries i
    | AGet t => ReqGetEntry i t
    | ANewSeed t p x => ReqNewSeed i t (deep (d_hdr d) p) x
    | AExport t s r p => ReqExportSeed i t s r (opt p)
    | AImport s r p n c t x => ReqImportSeed i s r (deep (d_hdr d) p) n c t x
    | ADerive s sp t tp path => ReqDeriveSeed i s (deep (d_hdr d) sp) t (deep (d_hdr2 d) tp) path
    | ASign k p m => ReqSign i k (opt p) m
    | ABox s r p m => ReqBox i s r (opt p) m
    | ABoxOpen s r p n c => ReqBoxOpen i s r (opt p) n c
    | ABoxSign s r p m => ReqBoxSign i s r (opt p) m
    | ABoxSignOpen s r p n c => ReqBoxSignOpen i s r (opt p) n c
    | ANewCert t => ReqNewCert i t
    | ACertKey t => ReqCertKey i t
    | ASecretBox t p m => ReqSecretBox i t (opt p) m
    | ASecretBoxOpen t p n c => ReqSecretBoxOpen i t (opt p) n c
    end.

  (** What a function makes of a response of the right kind; [dec] is the client's decryption
      context key.  [None]: it panics ([SecretData::decrypt], see [Secret]). [lair_client.rs:106-556]. *)
  Definition value_of (dec : bytes) (a : ask) (m : api) : option (res value) :=
    match a, m with
    | AHello expected, ResHello _ _ version pk =>
        Some (if beq pk expected then Ok (VText version) else Err (str "ServerPubKeyMismatch"))
    | AUnlock _, ResUnlock _ => Some (Ok VUnit)
    | AList, ResListEntries _ l => Some (Ok (VInfos l))
    | AGet _, ResGetEntry _ i => Some (Ok (VInfo i))
    | ANewSeed _ _ _, ResNewSeed _ _ si | AImport _ _ _ _ _ _ _, ResImportSeed _ _ si
    | ADerive _ _ _ _ _, ResDeriveSeed _ si => Some (Ok (VSeed si))
    | AExport _ _ _ _, ResExportSeed _ n c | ABox _ _ _ _, ResBox _ n c
    | ABoxSign _ _ _ _, ResBoxSign _ n c | ASecretBox _ _ _, ResSecretBox _ n c =>
        Some (Ok (VBox n c))
    | ASign _ _ _, ResSign _ s | ABoxOpen _ _ _ _ _, ResBoxOpen _ s
    | ABoxSignOpen _ _ _ _ _, ResBoxSignOpen _ s | ASecretBoxOpen _ _ _ _, ResSecretBoxOpen _ s =>
        Some (Ok (VBytes s))
    | ANewCert _, ResNewCert _ _ ci => Some (Ok (VCert ci))
    | ACertKey _, ResCertKey _ s =>
        match sec_open_any C dec s with
        | None => None
        | Some (Ok k) => Some (Ok (VBytes k))
        | Some (Err e) => Some (Err e)
        end
    | _, _ => Some (Err (str "unexpected response type"))
    end.

  (** What the function gives back when its call ends. [lair_client.rs:45-68]. *)
  Definition give_back (dec : bytes) (a : ask) (req : api) (o : outcome) : option (res value) :=
    match result_of req o with
    | Ok m => value_of dec a m
    | Err e => Some (Err e)
    end.
End Asks.

(** ** Making a connection ready *)

(** After the handshake with the server of the expected key [in_proc_keystore.rs:92-101],
    [ipc_keystore.rs:133-138]: ask for hello, check the version if required, unlock. *)
Inductive ready :=
| ToHello | ToUnlock | Usable | Unusable (e : bytes).

(** The arguments of [ipc_keystore_connect_options] [ipc_keystore.rs:68-138]. *)
Record how := How {
  h_key : bytes;               (* the key of the server that is expected *)
  h_pass : bytes;              (* the passphrase *)
  h_exact : option bytes       (* the version required, if [exact_client_server_version_match] *)
}.

(** The call that is made next. [ipc_keystore.rs:113-164], [in_proc_keystore.rs:92-101]. *)
Definition next_ask (h : how) (r : ready) : option ask :=
  match r with
  | ToHello => Some (AHello (h_key h))
  | ToUnlock => Some (AUnlock (h_pass h))
  | _ => None
  end.

(** What follows when it gives back [v].  [priv_check_hello_ver] [ipc_keystore.rs:148-164]. *)
Definition proceed (h : how) (r : ready) (v : res value) : ready :=
  match r, v with
  | ToHello, Ok (VText version) =>
      match h_exact h with
      | Some w => if beq version w then ToUnlock else Unusable (str "Invalid lair server version")
      | None => ToUnlock
      end
  | ToUnlock, Ok _ => Usable
  | (ToHello | ToUnlock), Err e => Unusable e
  | ToHello, Ok _ => Unusable (str "unexpected response type")
  | r, _ => r
  end.
