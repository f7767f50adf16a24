(** * Types: what the keystore stores and what travels over a connection *)

From Verif Require Import Base Utf8.

(** [SecretData] and [SecretDataSized]
    [crates/lair_keystore_api/src/encoding_types.rs:200-208,250-256]:
    secretstream header and cipher. *)
Record secret := Sec { s_header : bytes; s_cipher : bytes }.

(** [SeedInfo] [lair_store.rs:66-78]. *)
Record seed_info := SeedInfo {
  si_ed : bytes;
  si_x : bytes;
  si_exportable : bool
}.

(** [CertInfo] [lair_store.rs:84-95]. *)
Record cert_info := CertInfo {
  ci_sni : bytes;
  ci_digest : bytes;
  ci_cert : bytes
}.

(** [LairEntryInfo] [lair_store.rs:98-128]. *)
Inductive entry_info :=
| ISeed (tag : bytes) (si : seed_info)
| IDeep (tag : bytes) (si : seed_info)
| ICert (tag : bytes) (ci : cert_info).

(** [LairEntryInner] [lair_store.rs:135-191]. *)
Inductive entry :=
| ESeed (tag : bytes) (si : seed_info) (seed : secret)
| EDeep (tag : bytes) (si : seed_info) (salt : bytes) (ops mem : N) (seed : secret)
| ECert (tag : bytes) (ci : cert_info) (priv : secret).

(** [LairEntryInner::tag] [lair_store.rs:211-217]. *)
Definition tag_of (e : entry) : bytes :=
  match e with ESeed t _ _ | EDeep t _ _ _ _ _ | ECert t _ _ => t end.

(** The public part of an entry, as built in
    [mem_store.rs:68-87], [store_sqlite.rs:362-382], [lair_server/priv_api.rs:128-150]. *)
Definition info_of (e : entry) : entry_info :=
  match e with
  | ESeed t si _ => ISeed t si
  | EDeep t si _ _ _ _ => IDeep t si
  | ECert t ci _ => ICert t ci
  end.

(** The public keys of an entry, as matched on in [mem_store.rs:103-137], [store_sqlite.rs:395-424]. *)
Definition seed_info_of (e : entry) : option seed_info :=
  match e with
  | ESeed _ si _ | EDeep _ si _ _ _ _ => Some si
  | ECert _ _ _ => None
  end.

(** [DeepLockPassphrase] [lair_api.rs:40-49]. *)
Record dlp := Dlp { dl_ops : N; dl_mem : N; dl_pass : secret }.

(** [LairApiEnum] [lair_api.rs:131-249]; the fields of each variant are those of
    the structures in [lair_api/*.rs]; the first is always [msg_id].  An error
    ([one_err::OneErr]) is its text. *)
Inductive api :=
| ResError (id err : bytes)  (* [error.rs:6-12] *)
| ReqHello (id : bytes)  (* [hello.rs:6-9] *)
| ResHello (id name version server_pub_key : bytes)  (* [hello.rs:42-54] *)
| ReqUnlock (id : bytes) (passphrase : secret)  (* [unlock.rs:6-12] *)
| ResUnlock (id : bytes)  (* [unlock.rs:45-48] *)
| ReqGetEntry (id tag : bytes)  (* [get_entry.rs:6-12] *)
| ResGetEntry (id : bytes) (info : entry_info)  (* [get_entry.rs:45-51] *)
| ReqListEntries (id : bytes)  (* [list_entries.rs:6-9] *)
| ResListEntries (id : bytes) (infos : list entry_info)  (* [list_entries.rs:41-47] *)
| ReqNewSeed (id tag : bytes) (deep : option dlp) (exportable : bool)  (* [new_seed.rs:7-21] *)
| ResNewSeed (id tag : bytes) (si : seed_info)  (* [new_seed.rs:62-71] *)
| ReqExportSeed (id tag sender recipient : bytes) (deep : option secret)  (* [export_seed_by_tag.rs:6-22] *)
| ResExportSeed (id nonce cipher : bytes)  (* [export_seed_by_tag.rs:64-73] *)
| ReqImportSeed (id sender recipient : bytes) (deep : option dlp)
    (nonce cipher tag : bytes) (exportable : bool)  (* [import_seed.rs:6-31] *)
| ResImportSeed (id tag : bytes) (si : seed_info)  (* [import_seed.rs:79-88] *)
| ReqDeriveSeed (id src_tag : bytes) (src_deep : option dlp)
    (dst_tag : bytes) (dst_deep : option dlp) (path : list N)  (* [derive_seed.rs:6-28] *)
| ResDeriveSeed (id : bytes) (si : seed_info)  (* [derive_seed.rs:71-77] *)
| ReqSign (id pub_key : bytes) (deep : option secret) (data : bytes)  (* [sign_by_pub_key.rs:6-19] *)
| ResSign (id signature : bytes)  (* [sign_by_pub_key.rs:59-65] *)
| ReqBox (id sender recipient : bytes) (deep : option secret) (data : bytes)  (* [crypto_box_xsalsa_by_pub_key.rs:6-22] *)
| ResBox (id nonce cipher : bytes)  (* [crypto_box_xsalsa_by_pub_key.rs:64-73] *)
| ReqBoxOpen (id sender recipient : bytes) (deep : option secret) (nonce cipher : bytes)  (* [crypto_box_xsalsa_open_by_pub_key.rs:6-25] *)
| ResBoxOpen (id message : bytes)  (* [crypto_box_xsalsa_open_by_pub_key.rs:71-77] *)
| ReqBoxSign (id sender recipient : bytes) (deep : option secret) (data : bytes)  (* [crypto_box_xsalsa_by_sign_pub_key.rs:6-22] *)
| ResBoxSign (id nonce cipher : bytes)  (* [crypto_box_xsalsa_by_sign_pub_key.rs:66-75] *)
| ReqBoxSignOpen (id sender recipient : bytes) (deep : option secret) (nonce cipher : bytes)  (* [crypto_box_xsalsa_open_by_sign_pub_key.rs:6-25] *)
| ResBoxSignOpen (id message : bytes)  (* [crypto_box_xsalsa_open_by_sign_pub_key.rs:71-77] *)
| ReqNewCert (id tag : bytes)  (* [new_wka_tls_cert.rs:7-13] *)
| ResNewCert (id tag : bytes) (ci : cert_info)  (* [new_wka_tls_cert.rs:48-57] *)
| ReqCertKey (id tag : bytes)  (* [get_wka_tls_cert_priv_key.rs:6-12] *)
| ResCertKey (id : bytes) (priv_key : secret)  (* [get_wka_tls_cert_priv_key.rs:46-52] *)
| ReqSecretBox (id tag : bytes) (deep : option secret) (data : bytes)  (* [secret_box_xsalsa_by_tag.rs:6-20] *)
| ResSecretBox (id nonce cipher : bytes)  (* [secret_box_xsalsa_by_tag.rs:60-69] *)
| ReqSecretBoxOpen (id tag : bytes) (deep : option secret) (nonce cipher : bytes)  (* [secret_box_xsalsa_open_by_tag.rs:6-23] *)
| ResSecretBoxOpen (id message : bytes)  (* [secret_box_xsalsa_open_by_tag.rs:65-71] *).

(** [LairApiEnum::msg_id] [lair_api.rs:251-358]. *)
Definition msg_id (a : api) : bytes :=
  match a with
  | ResError id _ | ReqHello id | ResHello id _ _ _ | ReqUnlock id _ | ResUnlock id
  | ReqGetEntry id _ | ResGetEntry id _ | ReqListEntries id | ResListEntries id _
  | ReqNewSeed id _ _ _ | ResNewSeed id _ _ | ReqExportSeed id _ _ _ _
  | ResExportSeed id _ _ | ReqImportSeed id _ _ _ _ _ _ _ | ResImportSeed id _ _
  | ReqDeriveSeed id _ _ _ _ _ | ResDeriveSeed id _ | ReqSign id _ _ _ | ResSign id _
  | ReqBox id _ _ _ _ | ResBox id _ _ | ReqBoxOpen id _ _ _ _ _ | ResBoxOpen id _
  | ReqBoxSign id _ _ _ _ | ResBoxSign id _ _ | ReqBoxSignOpen id _ _ _ _ _
  | ResBoxSignOpen id _ | ReqNewCert id _ | ResNewCert id _ _ | ReqCertKey id _
  | ResCertKey id _ | ReqSecretBox id _ _ _ | ResSecretBox id _ _
  | ReqSecretBoxOpen id _ _ _ _ | ResSecretBoxOpen id _ => id
  end.

(** ** What the Rust types guarantee

    The array sizes are in the types ([BinDataSized<N>], [u32], [str]); the
    bounds [2^32] (and [3 * 2^30], whose base64 text has [2^32] characters) say
    that a value fits MessagePack at all. *)

(** [Arc<str>], as at [list_entries.rs:41-47]. *)
Definition text_ok (s : bytes) : Prop := utf8 s = true /\ (N.of_nat (length s) < 2 ^ 32)%N.
(** [BinData] [encoding_types.rs:19-22]. *)
Definition bin_ok (s : bytes) : Prop := (N.of_nat (length s) < 3 * 2 ^ 30)%N.
(** [u32], as at [lair_store.rs:160-163]. *)
Definition u32_ok (n : N) : Prop := (n < 2 ^ 32)%N.

(** [SecretDataSized<c-17, c>]. [encoding_types.rs:250-256]. *)
Definition secret_ok (c : nat) (s : secret) : Prop :=
  length (s_header s) = 24 /\ length (s_cipher s) = c.
(** [SecretData]. [encoding_types.rs:200-208]. *)
Definition usecret_ok (s : secret) : Prop :=
  length (s_header s) = 24 /\ bin_ok (s_cipher s).

(** [SeedInfo] [lair_store.rs:66-78]. *)
Definition seed_info_ok (si : seed_info) : Prop :=
  length (si_ed si) = 32 /\ length (si_x si) = 32.
(** [CertInfo] [lair_store.rs:84-95]. *)
Definition cert_info_ok (ci : cert_info) : Prop :=
  text_ok (ci_sni ci) /\ length (ci_digest ci) = 32 /\ bin_ok (ci_cert ci).

(** [LairEntryInfo] [lair_store.rs:98-128]. *)
Definition entry_info_ok (e : entry_info) : Prop :=
  match e with
  | ISeed t si | IDeep t si => text_ok t /\ seed_info_ok si
  | ICert t ci => text_ok t /\ cert_info_ok ci
  end.

(** [LairEntryInner] [lair_store.rs:135-191]. *)
Definition entry_ok (e : entry) : Prop :=
  match e with
  | ESeed t si s => text_ok t /\ seed_info_ok si /\ secret_ok 49 s
  | EDeep t si salt ops mem s =>
      text_ok t /\ seed_info_ok si /\ length salt = 16 /\ u32_ok ops /\ u32_ok mem
      /\ secret_ok 49 s
  | ECert t ci s => text_ok t /\ cert_info_ok ci /\ usecret_ok s
  end.

(** [DeepLockPassphrase] [lair_api.rs:40-49]. *)
Definition dlp_ok (d : dlp) : Prop :=
  u32_ok (dl_ops d) /\ u32_ok (dl_mem d) /\ secret_ok 81 (dl_pass d).

(** [Option], as at [new_seed.rs:7-21]. *)
Definition opt_ok {A} (P : A -> Prop) (o : option A) : Prop :=
  match o with Some a => P a | None => True end.

(** [Arc<[u8]>]: written as an array of numbers. As at [sign_by_pub_key.rs:6-19]. *)
Definition arr_ok (s : bytes) : Prop := (N.of_nat (length s) < 2 ^ 32)%N.

(** [LairApiEnum] [lair_api.rs:131-249]. *)
Definition api_ok (a : api) : Prop :=
  text_ok (msg_id a) /\
  match a with
  | ResError _ e => text_ok e
  | ReqHello _ | ResUnlock _ | ReqListEntries _ => True
  | ResHello _ n v k => text_ok n /\ text_ok v /\ length k = 32
  | ReqUnlock _ s => secret_ok 81 s
  | ReqGetEntry _ t | ReqNewCert _ t | ReqCertKey _ t => text_ok t
  | ResGetEntry _ i => entry_info_ok i
  | ResListEntries _ l => (N.of_nat (length l) < 2 ^ 32)%N /\ Forall entry_info_ok l
  | ReqNewSeed _ t d _ => text_ok t /\ opt_ok dlp_ok d
  | ResNewSeed _ t si | ResImportSeed _ t si => text_ok t /\ seed_info_ok si
  | ReqExportSeed _ t s r d =>
      text_ok t /\ length s = 32 /\ length r = 32 /\ opt_ok (secret_ok 81) d
  | ResExportSeed _ n c | ResBox _ n c | ResBoxSign _ n c | ResSecretBox _ n c =>
      length n = 24 /\ arr_ok c
  | ReqImportSeed _ s r d n c t _ =>
      length s = 32 /\ length r = 32 /\ opt_ok dlp_ok d /\ length n = 24 /\ arr_ok c
      /\ text_ok t
  | ReqDeriveSeed _ s sd t td p =>
      text_ok s /\ opt_ok dlp_ok sd /\ text_ok t /\ opt_ok dlp_ok td
      /\ (N.of_nat (length p) < 2 ^ 32)%N /\ Forall u32_ok p
  | ResDeriveSeed _ si => seed_info_ok si
  | ReqSign _ k d m => length k = 32 /\ opt_ok (secret_ok 81) d /\ arr_ok m
  | ResSign _ s => length s = 64
  | ReqBox _ s r d m | ReqBoxSign _ s r d m =>
      length s = 32 /\ length r = 32 /\ opt_ok (secret_ok 81) d /\ arr_ok m
  | ReqBoxOpen _ s r d n c | ReqBoxSignOpen _ s r d n c =>
      length s = 32 /\ length r = 32 /\ opt_ok (secret_ok 81) d /\ length n = 24 /\ arr_ok c
  | ResBoxOpen _ m | ResBoxSignOpen _ m | ResSecretBoxOpen _ m => arr_ok m
  | ResNewCert _ t ci => text_ok t /\ cert_info_ok ci
  | ResCertKey _ s => usecret_ok s
  | ReqSecretBox _ t d m => text_ok t /\ opt_ok (secret_ok 81) d /\ arr_ok m
  | ReqSecretBoxOpen _ t d n c =>
      text_ok t /\ opt_ok (secret_ok 81) d /\ length n = 24 /\ arr_ok c
  end.
