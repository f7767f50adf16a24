(** * Secret: encrypted fields

    [SecretData] and [SecretDataSized] of
    [crates/lair_keystore_api/src/encoding_types.rs:200-290]. *)

From Verif Require Import Base Crypto Types.

Section Secret.
  Variable C : Crypto.

  (** [SecretData::encrypt] [encoding_types.rs:212-230] and
      [SecretDataSized::encrypt] [260-275]: one secretstream holding one final
      message.  [hdr] is the random header chosen by [SecretStreamEncrypt::new]. *)
  Definition sec_encrypt (key hdr data : bytes) : secret :=
    Sec hdr (fst (ss_push C (ss_init C key hdr) TagFinal data)).

  (** [SecretDataSized<M, C>::decrypt] [encoding_types.rs:278-289]: [pull] writes
      into a buffer of exactly [M] bytes.  The tag of the message is not checked. *)
  Definition sec_open (M : nat) (key : bytes) (s : secret) : res bytes :=
    match ss_pull C (ss_init C key (s_header s)) (s_cipher s) with
    | Some (_, m, _) =>
        if Nat.eqb (length m) M then Ok m else Err (str "BadMessageSize")
    | None => Err (str "InternalSodium")
    end.

  (** [SecretData::decrypt] [encoding_types.rs:233-245].  [None] is the panic of
      [cipher.len() - sss::ABYTES] on a cipher shorter than 17 bytes (line 241). *)
  Definition sec_open_any (key : bytes) (s : secret) : option (res bytes) :=
    if Nat.ltb (length (s_cipher s)) ABYTES then None
    else Some
      match ss_pull C (ss_init C key (s_header s)) (s_cipher s) with
      | Some (_, m, _) => Ok m
      | None => Err (str "InternalSodium")
      end.

  Hypothesis HC : CryptoOk C.

  Lemma sec_open_encrypt key hdr data :
    sec_open (length data) key (sec_encrypt key hdr data) = Ok data.
  Proof.
    unfold sec_open, sec_encrypt. cbn [s_header s_cipher]. rewrite (ss_ok C HC).
    by rewrite Nat.eqb_refl.
  Qed.

  Lemma sec_open_any_encrypt key hdr data :
    sec_open_any key (sec_encrypt key hdr data) = Some (Ok data).
  Proof.
    unfold sec_open_any, sec_encrypt. cbn [s_header s_cipher].
    rewrite (ss_push_len C HC), (ss_ok C HC).
    destruct (Nat.ltb_spec (length data + ABYTES) ABYTES); [lia|done].
  Qed.

  Lemma sec_encrypt_ok key hdr data : length hdr = 24 ->
    secret_ok (length data + ABYTES) (sec_encrypt key hdr data).
  Proof. intros H. split; [done|]. apply (ss_push_len C HC). Qed.

  Lemma sec_open_length M key s m : sec_open M key s = Ok m -> length m = M.
  Proof.
    unfold sec_open. destruct (ss_pull _ _ _) as [[[t m'] st']|]; [|done].
    destruct (Nat.eqb_spec (length m') M); [|done]. by intros [= <-].
  Qed.
End Secret.
