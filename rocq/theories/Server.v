(** * Server: the request handlers of the keystore server

    [crates/lair_keystore_api/src/lair_server/priv_srv.rs] and
    [priv_api.rs], with the [LairStore] wrappers of [lair_store.rs:228-490].

    A handler is a program over the effects it has: reading and setting the
    connection's unlock flag, drawing random bytes, operating on the store and
    the three caches, asking the fallback signer, sending a message.  Every
    effect is an interleaving point, which is at least as fine as the [await]
    points and locks of the code. *)

From Verif Require Import Base Crypto Types Secret Store Lru.

(** [FullLairEntry] [priv_srv.rs:5-16]. *)
Record full := Full {
  f_seed : option bytes;
  f_exportable : bool;
  f_entry : entry;
  f_ed_sk : option bytes;
  f_x_sk : option bytes
}.

(** What [tls_cert_self_signed_new] [internal/tls.rs:65-137] makes up: the server
    name, the private key and the certificate (DER), all from rcgen. *)
Record gencert := GenCert { gc_sni : bytes; gc_priv : bytes; gc_cert : bytes }.

(** ** Programs *)

(** The bodies of the handlers, [priv_api.rs:1-1098], as trees of their effects. *)
Inductive prog (A : Type) : Type :=
| Ret (a : A)
| LoadUnlocked (k : bool -> prog A)
| SetUnlocked (k : prog A)
| Rand (n : nat) (k : bytes -> prog A)
| StWrite (e : entry) (k : res unit -> prog A)
| StList (k : res (list entry_info) -> prog A)
| StGet (q : key) (k : res entry -> prog A)
| CacheGet (q : key) (k : option full -> prog A)
| CachePut (f : full) (k : prog A)
| CertGen (k : res gencert -> prog A)
| AskFallback (id pk data : bytes) (k : res bytes -> prog A)
| Send (m : api) (k : res unit -> prog A)
| Crash.

Arguments Ret {A} a.
Arguments LoadUnlocked {A} k.
Arguments SetUnlocked {A} k.
Arguments Rand {A} n k.
Arguments StWrite {A} e k.
Arguments StList {A} k.
Arguments StGet {A} q k.
Arguments CacheGet {A} q k.
Arguments CachePut {A} f k.
Arguments CertGen {A} k.
Arguments AskFallback {A} id pk data k.
Arguments Send {A} m k.
Arguments Crash {A}.

(** One thing after the other [priv_api.rs:1-1098]. *)
Fixpoint bind {A B} (p : prog A) (f : A -> prog B) : prog B :=
  match p with
  | Ret a => f a
  | LoadUnlocked k => LoadUnlocked (fun x => bind (k x) f)
  | SetUnlocked k => SetUnlocked (bind k f)
  | Rand n k => Rand n (fun x => bind (k x) f)
  | StWrite e k => StWrite e (fun x => bind (k x) f)
  | StList k => StList (fun x => bind (k x) f)
  | StGet q k => StGet q (fun x => bind (k x) f)
  | CacheGet q k => CacheGet q (fun x => bind (k x) f)
  | CachePut e k => CachePut e (bind k f)
  | CertGen k => CertGen (fun x => bind (k x) f)
  | AskFallback i p d k => AskFallback i p d (fun x => bind (k x) f)
  | Send m k => Send m (fun x => bind (k x) f)
  | Crash => Crash
  end.

(** The [?] operator: continue with the value, stop with the error. As at [priv_api.rs:50-90]. *)
Definition orelse {A B} (f : A -> prog (res B)) (r : res A) : prog (res B) :=
  match r with Ok a => f a | Err e => Ret (Err e) end.
(** The [?] operator, as at [priv_api.rs:50-90]. *)
Definition bindr {A B} (p : prog (res A)) (f : A -> prog (res B)) : prog (res B) :=
  bind p (orelse f).

Notation "x <-? p ; q" := (bindr p (fun x => q))
  (at level 20, p at level 100, q at level 200).
Notation "x <-! r ; q" := (orelse (fun x => q) r)
  (at level 20, r at level 100, q at level 200).

(** [return Err(...)], as at [priv_api.rs:418]. *)
Definition fail {A} (e : bytes) : prog (res A) := Ret (Err e).
(** [sodoken::random::bytes_buf], as at [lair_store.rs:228-260]. *)
Definition rand (n : nat) : prog (res bytes) := Rand n (fun b => Ret (Ok b)).
(** [send.send(...)], as at [priv_api.rs:128-150]. *)
Definition send (m : api) : prog (res unit) := Send m (fun r => Ret r).

(** ** The server *)

(** What stays fixed while a server runs: the parts of [LairServerConfig]
    [config.rs:34-73] the handlers read, the identity key, the name and version
    ([SrvInner] [priv_srv.rs:18-30]), the store's bidirectional context key
    and whether there is a fallback signer.  [g_rcgen] stands for the certificate
    generator: which triples of server name, private key and certificate it makes. *)
Record genv := GEnv {
  g_crypto : Crypto;
  g_salt : bytes;
  g_ops : N;
  g_mem : N;
  g_id_seed : secret;
  g_id_pk : bytes;
  g_name : bytes;
  g_version : bytes;
  g_bidi : bytes;
  g_fallback : bool;
  g_rcgen : gencert -> bool
}.

Section Handlers.
  Variable g : genv.
  Notation C := (g_crypto g).

  (** [LairStore::insert_seed] [lair_store.rs:239-287]. *)
  Definition insert_seed (seed tag : bytes) (exportable : bool) : prog (res seed_info) :=
    hdr <-? rand HEADERBYTES;
    let si := SeedInfo (sign_pk C seed) (box_pk C seed) exportable in
    let e := ESeed tag si (sec_encrypt C (g_bidi g) hdr seed) in
    _ <-? StWrite e (fun r => Ret r);
    Ret (Ok si).

  (** [LairStore::new_seed] [lair_store.rs:292-306]. *)
  Definition new_seed (tag : bytes) (exportable : bool) : prog (res seed_info) :=
    seed <-? rand 32;
    insert_seed seed tag exportable.

  (** [LairStore::insert_deep_locked_seed] [lair_store.rs:313-382]. *)
  Definition insert_deep_locked_seed (seed tag : bytes) (ops mem : N) (pass : bytes)
      (exportable : bool) : prog (res seed_info) :=
    salt <-? rand 16;
    key <-! argon2id C pass salt ops mem;
    hdr <-? rand HEADERBYTES;
    let si := SeedInfo (sign_pk C seed) (box_pk C seed) exportable in
    let e := EDeep tag si salt ops mem (sec_encrypt C key hdr seed) in
    _ <-? StWrite e (fun r => Ret r);
    Ret (Ok si).

  (** [LairStore::new_deep_locked_seed] [lair_store.rs:389-413]. *)
  Definition new_deep_locked_seed (tag : bytes) (ops mem : N) (pass : bytes)
      (exportable : bool) : prog (res seed_info) :=
    seed <-? rand 32;
    insert_deep_locked_seed seed tag ops mem pass exportable.

  (** [LairStore::new_wka_tls_cert] [lair_store.rs:418-458]; the digest is
      computed in [internal/tls.rs:127-128]. *)
  Definition new_wka_tls_cert (tag : bytes) : prog (res cert_info) :=
    gc <-? CertGen (fun r => Ret r);
    hdr <-? rand HEADERBYTES;
    let ci := CertInfo (gc_sni gc) (blake2b C 32 (gc_cert gc)) (gc_cert gc) in
    let e := ECert tag ci (sec_encrypt C (g_bidi g) hdr (gc_priv gc)) in
    _ <-? StWrite e (fun r => Ret r);
    Ret (Ok ci).

  (** The pure part of [priv_gen_and_register_entry] [priv_api.rs:842-883];
      [derive_ed] [801-814], [derive_x] [816-835]. *)
  Definition gen_full (e : entry) : res full :=
    match e with
    | ESeed _ si sec =>
        rbind (sec_open C 32 (g_bidi g) sec) (fun seed =>
          if negb (beq (sign_pk C seed) (si_ed si)) then
            Err (str "Ed25519 pub key generated from seed does not match")
          else if negb (beq (box_pk C seed) (si_x si)) then
            Err (str "X25519 pub key generated from seed does not match")
          else
            Ok (Full (Some seed) (si_exportable si) e
                  (Some (sign_sk C seed)) (Some (box_sk C seed))))
    | _ => Ok (Full None false e None None)
    end.

  (** [priv_get_full_entry_by_tag], [..._by_ed_pub_key], [..._by_x_pub_key]
      [priv_api.rs:901-974] with [priv_gen_and_register_entry] [837-899]. *)
  Definition get_full (q : key) : prog (res full) :=
    CacheGet q (fun o =>
      match o with
      | Some f => Ret (Ok f)
      | None =>
          e <-? StGet q (fun r => Ret r);
          f <-! gen_full e;
          CachePut f (Ret (Ok f))
      end).

  (** The [unlocked] check of [priv_get_store] [priv_srv.rs:355-364] and of the
      handlers that do not call it. *)
  Definition check_unlocked {A} (p : prog (res A)) : prog (res A) :=
    LoadUnlocked (fun u => if u then p else fail (str "KeystoreLocked")).

  Section Conn.
    (** The two context keys of a connection [priv_srv.rs:158-182]. *)
    Variable enc_key dec_key : bytes.

    (** [req.passphrase.decrypt(dec_ctx_key)]. As at [priv_api.rs:50-110]. *)
    Definition open_pass (s : secret) : res bytes := sec_open C 64 dec_key s.

    (** [priv_req_hello] [priv_api.rs:5-40]. *)
    Definition h_hello (id : bytes) : prog (res unit) :=
      send (ResHello id (g_name g) (g_version g) (g_id_pk g)).

    (** The identity key obtained from a passphrase hash
        [priv_api.rs:50-96]. *)
    Definition unlock_pk (pass : secret) : res bytes :=
      rbind (open_pass pass) (fun p =>
      rbind (argon2id C p (g_salt g) (g_ops g) (g_mem g)) (fun pre =>
      rmap (box_pk C) (sec_open C 32 (kdf C 142 (str "IdnSecKy") pre) (g_id_seed g)))).

    (** [priv_req_unlock] [priv_api.rs:42-112]. *)
    Definition h_unlock (id : bytes) (pass : secret) : prog (res unit) :=
      pk <-! unlock_pk pass;
      if beq (g_id_pk g) pk then SetUnlocked (send (ResUnlock id))
      else fail (str "InvalidPassphrase").

    (** [priv_req_get_entry] [priv_api.rs:114-163]. *)
    Definition h_get_entry (id tag : bytes) : prog (res unit) :=
      check_unlocked (
        f <-? get_full (ByTag tag);
        send (ResGetEntry id (info_of (f_entry f)))).

    (** [priv_req_list_entries] [priv_api.rs:165-189]. *)
    Definition h_list (id : bytes) : prog (res unit) :=
      check_unlocked (
        l <-? StList (fun r => Ret r);
        send (ResListEntries id l)).

    (** Storing a seed, deep locked or not: [priv_api.rs:202-224],
        [290-318], [439-464]. *)
    Definition store_seed (seed tag : bytes) (deep : option dlp) (exportable : bool)
        : prog (res seed_info) :=
      match deep with
      | Some d =>
          p <-! open_pass (dl_pass d);
          insert_deep_locked_seed seed tag (dl_ops d) (dl_mem d) p exportable
      | None => insert_seed seed tag exportable
      end.

    (** [priv_req_new_seed] [priv_api.rs:191-235]. *)
    Definition h_new_seed (id tag : bytes) (deep : option dlp) (exportable : bool)
        : prog (res unit) :=
      check_unlocked (
        si <-? match deep with
               | Some d =>
                   p <-! open_pass (dl_pass d);
                   new_deep_locked_seed tag (dl_ops d) (dl_mem d) p exportable
               | None => new_seed tag exportable
               end;
        send (ResNewSeed id tag si)).

    (** [deep_unlock_key_from_passphrase] [priv_api.rs:479-497]. *)
    Definition deep_key (pass : secret) (ops mem : N) (salt : bytes) : res bytes :=
      rbind (open_pass pass) (fun p => argon2id C p salt ops mem).

    (** The loop of [priv_api.rs:277-287]. *)
    Definition derive_path (seed : bytes) (path : list N) : bytes :=
      fold_left (fun parent i => kdf C i (str "SeedBndl") parent) path seed.

    (** The source seed of a derivation [priv_api.rs:248-273].  The limits are
        those of the request, not those of the entry. *)
    Definition derive_source (e : entry) (deep : option dlp) : res (bytes * bool) :=
      match e, deep with
      | ESeed _ si sec, None =>
          rmap (fun s => (s, si_exportable si)) (sec_open C 32 (g_bidi g) sec)
      | EDeep _ si salt _ _ sec, Some d =>
          rbind (deep_key (dl_pass d) (dl_ops d) (dl_mem d) salt) (fun k =>
          rmap (fun s => (s, si_exportable si)) (sec_open C 32 k sec))
      | ECert _ _ _, _ => Err (str "The tag provided is for a Cert, which cannot be derived. You must specify the tag for a Seed.")
      | ESeed _ _ _, Some _ => Err (str "A passphrase was provided for a seed which is not deep-locked. Make the request without a `src_passphrase`.")
      | EDeep _ _ _ _ _ _, None => Err (str "A `src_passphrase` is needed to unlock the source seed which is deep-locked.")
      end.

    (** [priv_req_derive_seed] [priv_api.rs:236-335]. *)
    Definition h_derive (id src_tag : bytes) (src_deep : option dlp) (dst_tag : bytes)
        (dst_deep : option dlp) (path : list N) : prog (res unit) :=
      check_unlocked (
        e <-? StGet (ByTag src_tag) (fun r => Ret r);
        sx <-! derive_source e src_deep;
        si <-? store_seed (derive_path (fst sx) path) dst_tag dst_deep (snd sx);
        send (ResDeriveSeed id si)).

    (** [priv_api.rs:337-477,573-773], in the uses of boxes. *)
    Definition no_deep_box : bytes := str "deep_seed crypto_box not yet implemented".

    (** [priv_req_export_seed_by_tag] [priv_api.rs:337-393]. *)
    Definition h_export (id tag sender recipient : bytes) : prog (res unit) :=
      check_unlocked (
        sf <-? get_full (ByTag tag);
        ef <-? get_full (ByX sender);
        nonce <-? rand NONCEBYTES;
        c <-! match f_x_sk ef with
              | Some x_sk =>
                  match f_seed sf with
                  | Some seed =>
                      if negb (f_exportable sf) then Err (str "seed is not exportable")
                      else box_easy C nonce seed recipient x_sk
                  | None => Err no_deep_box
                  end
              | None => Err no_deep_box
              end;
        send (ResExportSeed id nonce c)).

    (** [priv_req_import_seed] [priv_api.rs:395-477]. *)
    Definition h_import (id sender recipient : bytes) (deep : option dlp)
        (nonce cipher tag : bytes) (exportable : bool) : prog (res unit) :=
      check_unlocked (check_unlocked (
        f <-? get_full (ByX recipient);
        seed <-! (if negb (Nat.eqb (length cipher) (32 + MACBYTES)) then
                    Err (str "Bad Seed Length")
                  else match f_x_sk f with
                       | Some x_sk => box_open C nonce cipher sender x_sk
                       | None => Err no_deep_box
                       end);
        si <-? store_seed seed tag deep exportable;
        send (ResImportSeed id tag si))).

    (** The signing key [priv_api.rs:522-549]. *)
    Definition sign_key (f : full) (deep : option secret) : res bytes :=
      match f_entry f, f_ed_sk f, deep with
      | ESeed _ _ _, Some ed_sk, _ => Ok ed_sk
      | EDeep _ _ salt ops mem sec, _, Some pass =>
          rbind (deep_key pass ops mem salt) (fun k =>
          rmap (sign_sk C) (sec_open C 32 k sec))
      | _, _, _ => Err (str "The entry for this key is not a seed which can produce a signature")
      end.

    (** [priv_req_sign_by_pub_key] [priv_api.rs:499-571].  Any error of the lookup
        leads to the fallback signer, if there is one. *)
    Definition h_sign (id pk : bytes) (deep : option secret) (data : bytes)
        : prog (res unit) :=
      check_unlocked (
        bind (get_full (ByEd pk)) (fun r =>
          match r with
          | Ok f =>
              k <-! sign_key f deep;
              send (ResSign id (sign_detached C k data))
          | Err e =>
              if g_fallback g then
                sig <-? AskFallback id pk data (fun r => Ret r);
                send (ResSign id sig)
              else fail e
          end)).

    (** [priv_req_crypto_box_xsalsa_by_pub_key] [priv_api.rs:573-617]. *)
    Definition h_box (id sender recipient data : bytes) : prog (res unit) :=
      check_unlocked (
        f <-? get_full (ByX sender);
        nonce <-? rand NONCEBYTES;
        c <-! match f_x_sk f with
              | Some x_sk => box_easy C nonce data recipient x_sk
              | None => Err no_deep_box
              end;
        send (ResBox id nonce c)).

    (** [priv_req_crypto_box_xsalsa_open_by_pub_key] [priv_api.rs:619-670]. *)
    Definition h_box_open (id sender recipient nonce cipher : bytes) : prog (res unit) :=
      check_unlocked (
        f <-? get_full (ByX recipient);
        m <-! (if Nat.ltb (length cipher) MACBYTES then Err (str "InvalidCipherLength")
               else match f_x_sk f with
                    | Some x_sk => box_open C nonce cipher sender x_sk
                    | None => Err no_deep_box
                    end);
        send (ResBoxOpen id m)).

    (** [priv_req_crypto_box_xsalsa_by_sign_pub_key] [priv_api.rs:672-719]. *)
    Definition h_box_sign (id sender recipient data : bytes) : prog (res unit) :=
      check_unlocked (
        f <-? get_full (ByEd sender);
        nonce <-? rand NONCEBYTES;
        c <-! match f_ed_sk f with
              | Some ed_sk =>
                  rbind (ed_pk_to_x C recipient) (fun x_pk =>
                  rbind (ed_sk_to_x C ed_sk) (fun x_sk =>
                  box_easy C nonce data x_pk x_sk))
              | None => Err no_deep_box
              end;
        send (ResBoxSign id nonce c)).

    (** [priv_req_crypto_box_xsalsa_open_by_sign_pub_key] [priv_api.rs:721-773]. *)
    Definition h_box_sign_open (id sender recipient nonce cipher : bytes)
        : prog (res unit) :=
      check_unlocked (
        f <-? get_full (ByEd recipient);
        m <-! (if Nat.ltb (length cipher) MACBYTES then Err (str "InvalidCipherLength")
               else match f_ed_sk f with
                    | Some ed_sk =>
                        rbind (ed_pk_to_x C sender) (fun x_pk =>
                        rbind (ed_sk_to_x C ed_sk) (fun x_sk =>
                        box_open C nonce cipher x_pk x_sk))
                    | None => Err no_deep_box
                    end);
        send (ResBoxSignOpen id m)).

    (** [priv_req_new_wka_tls_cert] [priv_api.rs:775-799]. *)
    Definition h_new_cert (id tag : bytes) : prog (res unit) :=
      check_unlocked (
        ci <-? new_wka_tls_cert tag;
        send (ResNewCert id tag ci)).

    (** [priv_req_get_wka_tls_cert_priv_key] [priv_api.rs:976-1016]. *)
    Definition h_cert_key (id tag : bytes) : prog (res unit) :=
      check_unlocked (
        f <-? get_full (ByTag tag);
        match f_entry f with
        | ECert _ _ sec =>
            match sec_open_any C (g_bidi g) sec with
            | None => Crash
            | Some r =>
                priv <-! r;
                hdr <-? rand HEADERBYTES;
                send (ResCertKey id (sec_encrypt C enc_key hdr priv))
            end
        | _ => fail (str "invalid entry type")
        end).

    (** [priv_api.rs:1018-1098]. *)
    Definition no_deep_sbox : bytes := str "deep_seed secretbox not yet implemented".

    (** [priv_req_secret_box_xsalsa_by_tag] [priv_api.rs:1018-1055]. *)
    Definition h_sbox (id tag data : bytes) : prog (res unit) :=
      check_unlocked (
        f <-? get_full (ByTag tag);
        nonce <-? rand NONCEBYTES;
        c <-! match f_seed f with
              | Some seed => Ok (sbox_easy C nonce data seed)
              | None => Err no_deep_sbox
              end;
        send (ResSecretBox id nonce c)).

    (** [priv_req_secret_box_xsalsa_open_by_tag] [priv_api.rs:1057-1098]. *)
    Definition h_sbox_open (id tag nonce cipher : bytes) : prog (res unit) :=
      check_unlocked (
        f <-? get_full (ByTag tag);
        m <-! (if Nat.ltb (length cipher) MACBYTES then Err (str "InvalidCipherLength")
               else match f_seed f with
                    | Some seed => sbox_open C nonce cipher seed
                    | None => Err no_deep_sbox
                    end);
        send (ResSecretBoxOpen id m)).

    (** [priv_dispatch_incoming] [priv_srv.rs:238-353].  The text of the error for a
        response sent as a request is cut down to its constant part. *)
    Definition dispatch (a : api) : prog (res unit) :=
      match a with
      | ReqHello id => h_hello id
      | ReqUnlock id p => h_unlock id p
      | ReqGetEntry id t => h_get_entry id t
      | ReqListEntries id => h_list id
      | ReqNewSeed id t d x => h_new_seed id t d x
      | ReqExportSeed id t s r _ => h_export id t s r
      | ReqImportSeed id s r d n c t x => h_import id s r d n c t x
      | ReqDeriveSeed id s sd t td p => h_derive id s sd t td p
      | ReqSign id k d m => h_sign id k d m
      | ReqBox id s r _ m => h_box id s r m
      | ReqBoxOpen id s r _ n c => h_box_open id s r n c
      | ReqBoxSign id s r _ m => h_box_sign id s r m
      | ReqBoxSignOpen id s r _ n c => h_box_sign_open id s r n c
      | ReqNewCert id t => h_new_cert id t
      | ReqCertKey id t => h_cert_key id t
      | ReqSecretBox id t _ m => h_sbox id t m
      | ReqSecretBoxOpen id t _ n c => h_sbox_open id t n c
      | ResError _ _ | ResHello _ _ _ _ | ResUnlock _ | ResGetEntry _ _
      | ResListEntries _ _ | ResNewSeed _ _ _ | ResExportSeed _ _ _
      | ResImportSeed _ _ _ | ResDeriveSeed _ _ | ResSign _ _ | ResBox _ _ _
      | ResBoxOpen _ _ | ResBoxSign _ _ _ | ResBoxSignOpen _ _ | ResNewCert _ _ _
      | ResCertKey _ _ | ResSecretBox _ _ _ | ResSecretBoxOpen _ _ =>
          fail (str "invalid request")
      end.
  End Conn.
End Handlers.
