(** * SecretVocab: the words in which it is said what the keystore tells *)

From Verif Require Import Base Utf8 Crypto Types Codec Secret Store Lru Server System
  ServerSpec ServerVocab WriteProofs FreshVocab.

(** The texts of the errors of the server itself [priv_api.rs], [priv_srv.rs:345-364],
    [encoding_types.rs:200-290], [sodium_secretstream/framed.rs:23]. *)
Definition server_texts : list bytes :=
  [str "KeystoreLocked"; str "InvalidPassphrase"; str "invalid request"; str "invalid entry type";
   str "seed is not exportable"; str "Bad Seed Length"; str "InvalidCipherLength";
   str "deep_seed crypto_box not yet implemented"; str "deep_seed secretbox not yet implemented";
   str "The entry for this key is not a seed which can produce a signature";
   str "The tag provided is for a Cert, which cannot be derived. You must specify the tag for a Seed.";
   str "A passphrase was provided for a seed which is not deep-locked. Make the request without a `src_passphrase`.";
   str "A `src_passphrase` is needed to unlock the source seed which is deep-locked.";
   str "Ed25519 pub key generated from seed does not match";
   str "X25519 pub key generated from seed does not match";
   str "BadMessageSize"; str "InternalSodium"; str "FrameOverflow"; str "io"].

(** The texts of the errors of the two stores [mem_store.rs:95-207], [store_sqlite.rs:78-116,439-504]. *)
Definition store_texts : list bytes :=
  [str "tag already registered"; str "ed pk already registered"; str "x pk already registered";
   str "tag not found"; str "pub key not found";
   str "UNIQUE constraint failed"; str "Query returned no rows"].

(** The text of an error of libsodium, or of its wrapper. *)
Definition library_text (C : Crypto) (e : bytes) : Prop :=
  (exists p s o m, argon2id C p s o m = Err e)
  \/ (exists n m p k, box_easy C n m p k = Err e)
  \/ (exists n c p k, box_open C n c p k = Err e)
  \/ (exists n c k, sbox_open C n c k = Err e)
  \/ (exists p, ed_pk_to_x C p = Err e)
  \/ (exists k, ed_sk_to_x C k = Err e).

(** The byte strings in an answer, its id apart. *)
Definition of_seed_info (si : seed_info) : list bytes := [si_ed si; si_x si].
Definition of_cert_info (ci : cert_info) : list bytes := [ci_sni ci; ci_digest ci; ci_cert ci].
Definition of_info (i : entry_info) : list bytes :=
  match i with
  | ISeed t si | IDeep t si => t :: of_seed_info si
  | ICert t ci => t :: of_cert_info ci
  end.

Definition pieces (m : api) : list bytes :=
  match m with
  | ResError _ e => [e]
  | ResHello _ n v k => [n; v; k]
  | ResGetEntry _ i => of_info i
  | ResListEntries _ l => flat_map of_info l
  | ResNewSeed _ t si | ResImportSeed _ t si => t :: of_seed_info si
  | ResDeriveSeed _ si => of_seed_info si
  | ResSign _ sig => [sig]
  | ResExportSeed _ n c | ResBox _ n c | ResBoxSign _ n c | ResSecretBox _ n c => [n; c]
  | ResBoxOpen _ m | ResBoxSignOpen _ m | ResSecretBoxOpen _ m => [m]
  | ResNewCert _ t ci => t :: of_cert_info ci
  | ResCertKey _ s => [s_header s; s_cipher s]
  | _ => []
  end.

Section Tells.
  Variable S : store_impl.
  Variable g : genv.
  Notation C := (g_crypto g).

  (** An error text that the handling of request [tid] of connection [cid] was given from outside,
      in one of its steps: by the store, or by the fallback signer. *)
  Definition heard_store (evs : list event) (cid tid : nat) (e : bytes) : Prop :=
    exists pre o post, evs = pre ++ EvStep cid tid o :: post /\ no_restart post
      /\ ((exists q, st_get S (store_at S g pre) q = Err e)
          \/ (exists x, fst (st_write S (store_at S g pre) x) = Err e)
          \/ st_list S (store_at S g pre) = Err e).
  Definition heard_signer (evs : list event) (cid tid : nat) (e : bytes) : Prop :=
    exists pre o post, evs = pre ++ EvStep cid tid o :: post /\ no_restart post /\ o_sign o = Err e.
  (** Its handling was broken off with this text. *)
  Definition broken_off (evs : list event) (cid tid : nat) (e : bytes) : Prop :=
    exists pre post, evs = pre ++ EvAbort cid tid e :: post /\ no_restart post.

  (** 24 random bytes drawn by the handling of this request. *)
  Definition nonce_for (evs : list event) (cid tid : nat) (n : bytes) : Prop :=
    length n = 24 /\ drew evs (ByRequest (restarts evs) cid tid) [n].

  (** The reasons for which a byte string may be part of the answer to request [tid], [rq], of
      connection [cid], [c], other than an error. *)
  Inductive tellable (evs : list event) (cid : nat) (c : conn S) (tid : nat) (rq : request S) : bytes -> Prop :=
  | tell_server b : b ∈ [g_name g; g_version g; g_id_pk g] -> tellable evs cid c tid rq b
  | tell_asked b : new_tag (rq_msg S rq) = Some b -> tellable evs cid c tid rq b
  | tell_entry e b : c_unl S c = true -> stored S g evs e -> b ∈ of_info (info_of e) ->
      tellable evs cid c tid rq b
  | tell_random b : nonce_for evs cid tid b -> tellable evs cid c tid rq b
  (** a signature of what was to be signed *)
  | tell_signature i k d data e seed : c_unl S c = true ->
      rq_msg S rq = ReqSign i k d data -> stored S g evs e -> ed_of e = Some k ->
      signing_seed g (c_dec S c) e d seed ->
      tellable evs cid c tid rq (sign_detached C (sign_sk C seed) data)
  | tell_signer i k d data sig : c_unl S c = true ->
      rq_msg S rq = ReqSign i k d data -> FbCall i k data (Ok sig) ∈ sh_fb S (s_sh S (run S g evs)) ->
      tellable evs cid c tid rq sig
  (** a ciphertext of what was to be encrypted, for the one it was to be encrypted for *)
  | tell_box i s r d data e seed n b : c_unl S c = true ->
      rq_msg S rq = ReqBox i s r d data -> stored S g evs e -> plain_seed g e seed -> x_of e = Some s ->
      nonce_for evs cid tid n -> box_easy C n data r (box_sk C seed) = Ok b ->
      tellable evs cid c tid rq b
  | tell_box_sign i s r d data e seed xp xs n b : c_unl S c = true ->
      rq_msg S rq = ReqBoxSign i s r d data -> stored S g evs e -> plain_seed g e seed ->
      ed_of e = Some s -> ed_pk_to_x C r = Ok xp -> ed_sk_to_x C (sign_sk C seed) = Ok xs ->
      nonce_for evs cid tid n -> box_easy C n data xp xs = Ok b ->
      tellable evs cid c tid rq b
  | tell_secret_box i t d data e seed n : c_unl S c = true ->
      rq_msg S rq = ReqSecretBox i t d data -> stored S g evs e -> tag_of e = t -> plain_seed g e seed ->
      nonce_for evs cid tid n ->
      tellable evs cid c tid rq (sbox_easy C n data seed)
  (** what a ciphertext holds that the client brought *)
  | tell_opened i s r d n cipher e seed b : c_unl S c = true ->
      rq_msg S rq = ReqBoxOpen i s r d n cipher -> stored S g evs e -> plain_seed g e seed ->
      x_of e = Some r -> box_open C n cipher s (box_sk C seed) = Ok b ->
      tellable evs cid c tid rq b
  | tell_opened_sign i s r d n cipher e seed xp xs b : c_unl S c = true ->
      rq_msg S rq = ReqBoxSignOpen i s r d n cipher -> stored S g evs e -> plain_seed g e seed ->
      ed_of e = Some r -> ed_pk_to_x C s = Ok xp -> ed_sk_to_x C (sign_sk C seed) = Ok xs ->
      box_open C n cipher xp xs = Ok b ->
      tellable evs cid c tid rq b
  | tell_secret_opened i t d n cipher e seed b : c_unl S c = true ->
      rq_msg S rq = ReqSecretBoxOpen i t d n cipher -> stored S g evs e -> tag_of e = t ->
      plain_seed g e seed -> sbox_open C n cipher seed = Ok b ->
      tellable evs cid c tid rq b
  (** an exportable seed, encrypted for the recipient named *)
  | tell_exported i t s r d e seed e2 seed2 n b : c_unl S c = true ->
      rq_msg S rq = ReqExportSeed i t s r d ->
      stored S g evs e -> tag_of e = t -> plain_seed g e seed -> exportable e = true ->
      stored S g evs e2 -> x_of e2 = Some s -> plain_seed g e2 seed2 ->
      nonce_for evs cid tid n -> box_easy C n seed r (box_sk C seed2) = Ok b ->
      tellable evs cid c tid rq b
  (** the private key of a certificate, encrypted for this connection *)
  | tell_cert_key i t e priv hdr : c_unl S c = true ->
      rq_msg S rq = ReqCertKey i t -> stored S g evs e -> tag_of e = t -> cert_priv g e priv ->
      nonce_for evs cid tid hdr ->
      tellable evs cid c tid rq (s_cipher (sec_encrypt C (c_enc S c) hdr priv)).

  (** The texts that may be in the error that answers it: fixed ones, and those given by the
      library, the store, the fallback signer or the system. *)
  Definition error_text_of (evs : list event) (cid tid : nat) (rq : request S) (e : bytes) : Prop :=
    e ∈ server_texts
    \/ library_text C e
    \/ heard_store evs cid tid e
    \/ (heard_signer evs cid tid e /\ g_fallback g = true
        /\ exists i k d data, rq_msg S rq = ReqSign i k d data)
    \/ broken_off evs cid tid e.
End Tells.
