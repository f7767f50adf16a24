(** * Crypto: libsodium as seen through sodoken 0.0.11

    The cryptographic primitives are not modelled; they are a record of
    functions.  [CryptoOk] lists everything that is assumed of them: sizes,
    and that decryption, verification and key agreement undo encryption,
    signing and key agreement.  No secrecy or unforgeability is assumed.

    The functions that consume randomness take the random bytes as an extra
    argument. *)

From Verif Require Import Base.

(** Sizes, libsodium constants as used in
    [crates/lair_keystore_api/src/encoding_types.rs:250-290] (24-byte header,
    17-byte overhead [ABYTES]) and
    [crates/lair_keystore_api/src/sodium_secretstream.rs:128,146]
    ([SEALBYTES] = 48), [lair_server/priv_api.rs:418] ([MACBYTES] = 16). *)
Definition ABYTES : nat := 17.
(** [encoding_types.rs:217,265]. *)
Definition HEADERBYTES : nat := 24.
(** [priv_api.rs:418,639]. *)
Definition MACBYTES : nat := 16.
(** The nonces of boxes, as at [export_seed_by_tag.rs:64-73]. *)
Definition NONCEBYTES : nat := 24.
(** [sodium_secretstream.rs:128]. *)
Definition SEALBYTES : nat := 48.

(** Tags of secretstream messages: [push_message] [crypt.rs:44], [push_final]
    [encoding_types.rs:220,268]. *)
Inductive sstag := TagMessage | TagFinal.

#[global] Instance sstag_eq_dec : EqDecision sstag.
Proof. solve_decision. Defined.

Record Crypto := MkCrypto {
  (** [sodoken::hash::blake2b::hash]: output length, input *)
  blake2b : nat -> bytes -> bytes;
  (** [sodoken::hash::argon2id::hash]: passphrase, salt, ops, mem.
      Fails when the limits are out of range. *)
  argon2id : bytes -> bytes -> N -> N -> res bytes;
  (** [sodoken::kdf::derive_from_key]: subkey id, context, parent key *)
  kdf : N -> bytes -> bytes -> bytes;
  (** [sodoken::sign::seed_keypair], public and secret part *)
  sign_pk : bytes -> bytes;
  sign_sk : bytes -> bytes;
  (** [sodoken::sign::detached]: secret key, message *)
  sign_detached : bytes -> bytes -> bytes;
  (** [sodoken::sign::verify_detached]: public key, signature, message *)
  sign_verify : bytes -> bytes -> bytes -> bool;
  (** [sodoken::crypto_box::*::seed_keypair], secret part *)
  box_sk : bytes -> bytes;
  (** X25519 public key of a secret key *)
  x_base : bytes -> bytes;
  (** [crypto_box::curve25519xsalsa20poly1305::easy/open_easy]:
      nonce, message / cipher, their public key, our secret key *)
  box_easy : bytes -> bytes -> bytes -> bytes -> res bytes;
  box_open : bytes -> bytes -> bytes -> bytes -> res bytes;
  (** [secretbox::xsalsa20poly1305::easy/open_easy]: nonce, message / cipher, key *)
  sbox_easy : bytes -> bytes -> bytes -> bytes;
  sbox_open : bytes -> bytes -> bytes -> res bytes;
  (** [crypto_box::curve25519xchacha20poly1305::seal/seal_open]:
      randomness, message, recipient key / cipher, our key pair *)
  seal : bytes -> bytes -> bytes -> res bytes;
  seal_open : bytes -> bytes -> bytes -> res bytes;
  (** [sign::ed25519_pk_to_curve25519], [sign::ed25519_sk_to_curve25519] *)
  ed_pk_to_x : bytes -> res bytes;
  ed_sk_to_x : bytes -> res bytes;
  (** [kx::client_session_keys], [kx::server_session_keys]:
      our public, our secret, their public key; result is (rx, tx) *)
  kx_client : bytes -> bytes -> bytes -> res (bytes * bytes);
  kx_server : bytes -> bytes -> bytes -> res (bytes * bytes);
  (** [secretstream::xchacha20poly1305]: the state after initialisation from
      key and header, pushing one message, pulling one *)
  ss_state : Type;
  ss_init : bytes -> bytes -> ss_state;
  ss_push : ss_state -> sstag -> bytes -> bytes * ss_state;
  ss_pull : ss_state -> bytes -> option (sstag * bytes * ss_state);
}.

(** Public part of [crypto_box seed_keypair], as at [lair_store.rs:228-260]. *)
Definition box_pk (C : Crypto) (seed : bytes) : bytes := x_base C (box_sk C seed).

(** What is assumed of the primitives; no counterpart, they are libsodium's, called as at
    [encoding_types.rs:205-290]. *)
Record CryptoOk (C : Crypto) : Prop := MkCryptoOk {
  blake2b_len : forall n m, length (blake2b C n m) = n;
  argon2id_len : forall p s o m k, argon2id C p s o m = Ok k -> length k = 32;
  kdf_len : forall i c k, length (kdf C i c k) = 32;
  sign_pk_len : forall s, length s = 32 -> length (sign_pk C s) = 32;
  sign_sk_len : forall s, length s = 32 -> length (sign_sk C s) = 64;
  sign_len : forall k m, length k = 64 -> length (sign_detached C k m) = 64;
  sign_ok : forall s m, length s = 32 ->
    sign_verify C (sign_pk C s) (sign_detached C (sign_sk C s) m) m = true;
  box_sk_len : forall s, length s = 32 -> length (box_sk C s) = 32;
  x_base_len : forall k, length k = 32 -> length (x_base C k) = 32;
  box_ok : forall n m a b,
    length n = NONCEBYTES -> length a = 32 -> length b = 32 ->
    exists c, box_easy C n m (x_base C b) a = Ok c
         /\ length c = length m + MACBYTES
         /\ box_open C n c (x_base C a) b = Ok m;
  box_open_len : forall n c p k m,
    box_open C n c p k = Ok m -> length c = length m + MACBYTES;
  sbox_len : forall n m k, length (sbox_easy C n m k) = length m + MACBYTES;
  sbox_ok : forall n m k, length n = NONCEBYTES -> length k = 32 ->
    sbox_open C n (sbox_easy C n m k) k = Ok m;
  sbox_open_len : forall n c k m,
    sbox_open C n c k = Ok m -> length c = length m + MACBYTES;
  seal_ok : forall r m k, length k = 32 ->
    exists c, seal C r m (x_base C k) = Ok c
         /\ length c = length m + SEALBYTES
         /\ seal_open C c (x_base C k) k = Ok m;
  ed_to_x_ok : forall s, length s = 32 ->
    exists k, ed_sk_to_x C (sign_sk C s) = Ok k
         /\ length k = 32
         /\ ed_pk_to_x C (sign_pk C s) = Ok (x_base C k);
  kx_ok : forall c s, length c = 32 -> length s = 32 ->
    exists k1 k2,
      kx_client C (x_base C c) c (x_base C s) = Ok (k1, k2)
      /\ kx_server C (x_base C s) s (x_base C c) = Ok (k2, k1)
      /\ length k1 = 32 /\ length k2 = 32;
  ss_ok : forall st t m,
    ss_pull C st (fst (ss_push C st t m)) = Some (t, m, snd (ss_push C st t m));
  ss_push_len : forall st t m, length (fst (ss_push C st t m)) = length m + ABYTES;
  ss_pull_len : forall st c t m st',
    ss_pull C st c = Some (t, m, st') -> length c = length m + ABYTES;
}.
