(** * Handshake: how a connection gets its keys

    [crates/lair_keystore_api/src/sodium_secretstream.rs:108-326], the context keys
    of the client [lair_client/async_io.rs:23-42] and the client's [hello]
    [lair_client.rs:106-129]. *)

From Verif Require Import Base Crypto Types Codec System Wire.

Section Handshake.
  Variable C : Crypto.

  (** What a party has after the handshake: the keys, the two secretstream states,
      and what the transport delivers next. [sodium_secretstream.rs:108-326]. *)
  Record session := Session {
    h_rx : bytes;
    h_tx : bytes;
    h_enc : ss_state C;
    h_dec : ss_state C;
    h_rest : list bytes
  }.

  (** What a party wrote, and how it ended. [sodium_secretstream.rs:108-326]. *)
  Definition handshake : Type := bytes * res session.

  (** [priv_init_ss] [sodium_secretstream.rs:302-326].  [hdr] is the header that
      libsodium draws. *)
  Definition init_ss (out : bytes) (tx rx hdr : bytes) (cs : list bytes) : handshake :=
    (out ++ hdr,
     match read_exact HEADERBYTES cs with
     | None => Err eof
     | Some (hdr', cs) => Ok (Session rx tx (ss_init C tx hdr) (ss_init C rx hdr') cs)
     end).

  (** [new_s3_server] [sodium_secretstream.rs:108-189].  [sk]: the ephemeral kx
      secret; [r]: randomness of the seal.  The roles of client and server in [kx] are
      exchanged with respect to the names of the parties. *)
  Definition s3_server (id_pub id_sec sk r hdr : bytes) (cs : list bytes) : handshake :=
    match read_exact (64 + SEALBYTES) cs with
    | None => ([], Err eof)
    | Some (cipher, cs) =>
        match seal_open C cipher id_pub id_sec with
        | Err e => ([], Err e)
        | Ok msg =>
            let oth_cbox_pub := take 32 msg in
            let oth_kx_pub := drop 32 msg in
            match seal C r (x_base C sk) oth_cbox_pub with
            | Err e => ([], Err e)
            | Ok cipher =>
                match kx_client C (x_base C sk) sk oth_kx_pub with
                | Err e => (cipher, Err e)
                | Ok (rx, tx) => init_ss cipher tx rx hdr cs
                end
            end
        end
    end.

  (** [new_s3_client] [sodium_secretstream.rs:192-282].  [bk], [ck]: the ephemeral
      crypto_box and kx secrets. *)
  Definition s3_client (srv_pub bk ck r hdr : bytes) (cs : list bytes) : handshake :=
    match seal C r (x_base C bk ++ x_base C ck) srv_pub with
    | Err e => ([], Err e)
    | Ok out =>
        match read_exact (32 + SEALBYTES) cs with
        | None => (out, Err eof)
        | Some (cipher, cs) =>
            match seal_open C cipher (x_base C bk) bk with
            | Err e => (out, Err e)
            | Ok oth =>
                match kx_server C (x_base C ck) ck oth with
                | Err e => (out, Err e)
                | Ok (rx, tx) => init_ss out tx rx hdr cs
                end
            end
        end
    end.

  (** [new_async_io_lair_client] [async_io.rs:23-42]. *)
  Definition client_enc_ctx (s : session) : bytes := kdf C 142 (str "ToSrvCxK") (h_tx s).
  (** [lair_client/async_io.rs:34-42]. *)
  Definition client_dec_ctx (s : session) : bytes := kdf C 42 (str "ToCliCxK") (h_rx s).
End Handshake.

Arguments Session {C} h_rx h_tx h_enc h_dec h_rest.
Arguments h_rx {C} s.
Arguments h_tx {C} s.
Arguments h_enc {C} s.
Arguments h_dec {C} s.
Arguments h_rest {C} s.
Arguments client_enc_ctx {C} s.
Arguments client_dec_ctx {C} s.

(** [LairClient::hello] [lair_client.rs:106-129] with [priv_lair_api_request]
    [lair_client.rs:45-68]: an error answer and an answer of another kind are errors;
    the server's key must be the expected one; the result is the version. *)
Definition client_hello (expected : bytes) (answer : api) : res bytes :=
  match answer with
  | ResHello _ _ version pk =>
      if beq pk expected then Ok version else Err (str "ServerPubKeyMismatch")
  | ResError _ e => Err e
  | _ => Err (str "invalid response type")
  end.
