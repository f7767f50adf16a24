(** * Codec: entries and messages as bytes

    serde derive + [rmp_serde] with [with_struct_map]:
    [crates/lair_keystore_api/src/lair_store.rs:195-208] for entries and
    [crates/lair_keystore_api/src/sodium_secretstream/inner.rs:55-59,125] for messages.
    Structures are maps from field names to values; enums carry their variant
    name in the field ["type"]; fields that are [None] (or [false] for
    [exportable] of seeds) are left out.

    The readers also accept what serde's generated code accepts besides: a
    structure written as an array of its fields in the order of declaration, and
    fields and variants named by their position.

    Simplification: MessagePack can write a number in more bytes than it needs;
    the model reads a position in any width, serde's buffered values only those
    of 8 and 64 bits ([rkey] follows the shortest form). *)

From Verif Require Import Base Utf8 Base64 Msgpack Types.

(** ** Writing *)

(** A map with string keys ([with_struct_map]) [lair_store.rs:195-201], [inner.rs:55-59]. *)
Definition wmap (l : list (bytes * mval)) : mval :=
  MMap (map (fun kv => (MStr (fst kv), snd kv)) l).

(** [BinData] / [BinDataSized] [encoding_types.rs:72-80,153-161]. *)
Definition wbin (s : bytes) : mval := MStr (to_b64url s).
(** [Arc<[u8]>], [[u8; 24]]: serde writes an array of numbers.
    As at [sign_by_pub_key.rs:6-19], [export_seed_by_tag.rs:64-73]. *)
Definition warr (s : bytes) : mval := MArr (map (fun b => MUInt (nb b)) s).
(** [SecretData], [SecretDataSized]: tuple structures. [encoding_types.rs:200-208,250-256]. *)
Definition wsecret (s : secret) : mval := MArr [wbin (s_header s); wbin (s_cipher s)].

(** [Serialize for SeedInfo] [lair_store.rs:65-79]. *)
Definition wseed_info (si : seed_info) : mval :=
  wmap ([(str "ed25519PubKey", wbin (si_ed si)); (str "x25519PubKey", wbin (si_x si))]
        ++ if si_exportable si then [(str "exportable", MBool true)] else []).

(** [Serialize for CertInfo] [lair_store.rs:84-97]. *)
Definition wcert_info (ci : cert_info) : mval :=
  wmap [(str "sni", MStr (ci_sni ci)); (str "digest", wbin (ci_digest ci));
        (str "cert", wbin (ci_cert ci))].

(** [#[serde(tag = type)]] [lair_store.rs:98,135], [lair_api.rs:131]. *)
Definition wtyped (t : bytes) (l : list (bytes * mval)) : mval :=
  wmap ((str "type", MStr t) :: l).

(** [Serialize for LairEntryInfo] [lair_store.rs:98-128]. *)
Definition winfo (e : entry_info) : mval :=
  match e with
  | ISeed t si => wtyped (str "seed") [(str "tag", MStr t); (str "seed_info", wseed_info si)]
  | IDeep t si =>
      wtyped (str "deepLockedSeed") [(str "tag", MStr t); (str "seed_info", wseed_info si)]
  | ICert t ci =>
      wtyped (str "wkaTlsCert") [(str "tag", MStr t); (str "cert_info", wcert_info ci)]
  end.

(** [Serialize for LairEntryInner] [lair_store.rs:135-191]. *)
Definition wentry (e : entry) : mval :=
  match e with
  | ESeed t si s =>
      wtyped (str "seed")
        [(str "tag", MStr t); (str "seed_info", wseed_info si); (str "seed", wsecret s)]
  | EDeep t si salt ops mem s =>
      wtyped (str "deepLockedSeed")
        [(str "tag", MStr t); (str "seed_info", wseed_info si); (str "salt", wbin salt);
         (str "ops_limit", MUInt ops); (str "mem_limit", MUInt mem); (str "seed", wsecret s)]
  | ECert t ci s =>
      wtyped (str "wkaTlsCert")
        [(str "tag", MStr t); (str "cert_info", wcert_info ci); (str "priv_key", wsecret s)]
  end.

(** [LairEntryInner::encode] [lair_store.rs:195-201]. *)
Definition encode_entry (e : entry) : bytes := enc (wentry e).

(** [Serialize for DeepLockPassphrase] [lair_api.rs:40-49]. *)
Definition wdlp (d : dlp) : mval :=
  wmap [(str "opsLimit", MUInt (dl_ops d)); (str "memLimit", MUInt (dl_mem d));
        (str "passphrase", wsecret (dl_pass d))].

(** A field with [skip_serializing_if = "Option::is_none"]. As at [new_seed.rs:7-21]. *)
Definition wopt {A} (w : A -> mval) (k : bytes) (o : option A) : list (bytes * mval) :=
  match o with Some a => [(k, w a)] | None => [] end.

(** [Serialize for LairApiEnum] [lair_api.rs:131-249], [lair_api/*.rs]. *)
Definition wapi (a : api) : mval :=
  let id i := (str "msgId", MStr i) in
  match a with
  | ResError i e => wtyped (str "resError") [id i; (str "error", MStr e)]
  | ReqHello i => wtyped (str "reqHello") [id i]
  | ResHello i n v k =>
      wtyped (str "resHello")
        [id i; (str "name", MStr n); (str "version", MStr v); (str "serverPubKey", wbin k)]
  | ReqUnlock i s => wtyped (str "reqUnlock") [id i; (str "passphrase", wsecret s)]
  | ResUnlock i => wtyped (str "resUnlock") [id i]
  | ReqGetEntry i t => wtyped (str "reqGetEntry") [id i; (str "tag", MStr t)]
  | ResGetEntry i e => wtyped (str "resGetEntry") [id i; (str "entryInfo", winfo e)]
  | ReqListEntries i => wtyped (str "reqListEntries") [id i]
  | ResListEntries i l =>
      wtyped (str "resListEntries") [id i; (str "entryList", MArr (map winfo l))]
  | ReqNewSeed i t d x =>
      wtyped (str "reqNewSeed")
        ([id i; (str "tag", MStr t)] ++ wopt wdlp (str "deepLockPassphrase") d
         ++ if x then [(str "exportable", MBool true)] else [])
  | ResNewSeed i t si =>
      wtyped (str "resNewSeed") [id i; (str "tag", MStr t); (str "seedInfo", wseed_info si)]
  | ReqExportSeed i t s r d =>
      wtyped (str "reqExportSeedByTag")
        ([id i; (str "tag", MStr t); (str "senderPubKey", wbin s);
          (str "recipientPubKey", wbin r)] ++ wopt wsecret (str "deepLockPassphrase") d)
  | ResExportSeed i n c =>
      wtyped (str "resExportSeedByTag") [id i; (str "nonce", warr n); (str "cipher", warr c)]
  | ReqImportSeed i s r d n c t x =>
      wtyped (str "reqImportSeed")
        ([id i; (str "senderPubKey", wbin s); (str "recipientPubKey", wbin r)]
         ++ wopt wdlp (str "deepLockPassphrase") d
         ++ [(str "nonce", warr n); (str "cipher", warr c); (str "tag", MStr t);
             (str "exportable", MBool x)])
  | ResImportSeed i t si =>
      wtyped (str "resImportSeed") [id i; (str "tag", MStr t); (str "seedInfo", wseed_info si)]
  | ReqDeriveSeed i s sd t td p =>
      wtyped (str "reqDeriveSeed")
        ([id i; (str "srcTag", MStr s)] ++ wopt wdlp (str "srcDeepLockPassphrase") sd
         ++ [(str "dstTag", MStr t)] ++ wopt wdlp (str "dstDeepLockPassphrase") td
         ++ [(str "derivationPath", MArr (map MUInt p))])
  | ResDeriveSeed i si => wtyped (str "resDeriveSeed") [id i; (str "seedInfo", wseed_info si)]
  | ReqSign i k d m =>
      wtyped (str "reqSignByPubKey")
        ([id i; (str "pubKey", wbin k)] ++ wopt wsecret (str "deepLockPassphrase") d
         ++ [(str "data", warr m)])
  | ResSign i s => wtyped (str "resSignByPubKey") [id i; (str "signature", wbin s)]
  | ReqBox i s r d m =>
      wtyped (str "reqCryptoBoxXSalsaByPubKey")
        ([id i; (str "senderPubKey", wbin s); (str "recipientPubKey", wbin r)]
         ++ wopt wsecret (str "deepLockPassphrase") d ++ [(str "data", warr m)])
  | ResBox i n c =>
      wtyped (str "resCryptoBoxXSalsaByPubKey")
        [id i; (str "nonce", warr n); (str "cipher", warr c)]
  | ReqBoxOpen i s r d n c =>
      wtyped (str "reqCryptoBoxXSalsaOpenByPubKey")
        ([id i; (str "senderPubKey", wbin s); (str "recipientPubKey", wbin r)]
         ++ wopt wsecret (str "deepLockPassphrase") d
         ++ [(str "nonce", warr n); (str "cipher", warr c)])
  | ResBoxOpen i m =>
      wtyped (str "resCryptoBoxXSalsaOpenByPubKey") [id i; (str "message", warr m)]
  | ReqBoxSign i s r d m =>
      wtyped (str "reqCryptoBoxXSalsaBySignPubKey")
        ([id i; (str "senderPubKey", wbin s); (str "recipientPubKey", wbin r)]
         ++ wopt wsecret (str "deepLockPassphrase") d ++ [(str "data", warr m)])
  | ResBoxSign i n c =>
      wtyped (str "resCryptoBoxXSalsaBySignPubKey")
        [id i; (str "nonce", warr n); (str "cipher", warr c)]
  | ReqBoxSignOpen i s r d n c =>
      wtyped (str "reqCryptoBoxXSalsaOpenBySignPubKey")
        ([id i; (str "senderPubKey", wbin s); (str "recipientPubKey", wbin r)]
         ++ wopt wsecret (str "deepLockPassphrase") d
         ++ [(str "nonce", warr n); (str "cipher", warr c)])
  | ResBoxSignOpen i m =>
      wtyped (str "resCryptoBoxXSalsaOpenBySignPubKey") [id i; (str "message", warr m)]
  | ReqNewCert i t => wtyped (str "reqNewWkaTlsCert") [id i; (str "tag", MStr t)]
  | ResNewCert i t ci =>
      wtyped (str "resNewWkaTlsCert")
        [id i; (str "tag", MStr t); (str "certInfo", wcert_info ci)]
  | ReqCertKey i t => wtyped (str "reqGetWkaTlsCertPrivKey") [id i; (str "tag", MStr t)]
  | ResCertKey i s => wtyped (str "resGetWkaTlsCertPrivKey") [id i; (str "privKey", wsecret s)]
  | ReqSecretBox i t d m =>
      wtyped (str "reqSecretBoxXSalsaByTag")
        ([id i; (str "tag", MStr t)] ++ wopt wsecret (str "deepLockPassphrase") d
         ++ [(str "data", warr m)])
  | ResSecretBox i n c =>
      wtyped (str "resSecretBoxXSalsaByTag")
        [id i; (str "nonce", warr n); (str "cipher", warr c)]
  | ReqSecretBoxOpen i t d n c =>
      wtyped (str "reqSecretBoxXSalsaOpenByTag")
        ([id i; (str "tag", MStr t)] ++ wopt wsecret (str "deepLockPassphrase") d
         ++ [(str "nonce", warr n); (str "cipher", warr c)])
  | ResSecretBoxOpen i m =>
      wtyped (str "resSecretBoxXSalsaOpenByTag") [id i; (str "message", warr m)]
  end.

(** The bytes of a message, [sodium_secretstream/inner.rs:55-59]. *)
Definition encode_api (a : api) : bytes := enc (wapi a).

(** ** Reading *)

(** The [?] operator, for [option]: serde's derived readers [lair_store.rs:135-191], [lair_api.rs:131-249]. *)
Definition obind {A B} (o : option A) (f : A -> option B) : option B :=
  match o with Some a => f a | None => None end.
Local Notation "x <-- e ; k" := (obind e (fun x => k)) (at level 60, right associativity).

(** [String]: a string or bytes, well-formed UTF-8.
    Of serde's derived readers [lair_store.rs:135-191], [lair_api.rs:131-249]. *)
Definition rtext (v : mval) : option bytes :=
  match v with
  | MStr s | MBin s => if utf8 s then Some s else None
  | _ => None
  end.

(** Field and variant names. Of serde's derived readers [lair_store.rs:135-191], [lair_api.rs:131-249]. *)
Definition rname (v : mval) : option bytes :=
  match v with MStr s | MBin s => Some s | _ => None end.

(** The name of a field: itself, or a position among [names], the declared fields
    in order. A position beyond the last is ignored, as unknown names are (here:
    the empty name, which no field has); of the shortest forms of a number serde's
    buffered values take 8 and 64 bits as a position and refuse 16 and 32.
    Of serde's derived readers [lair_store.rs:135-191], [lair_api.rs:131-249]. *)
Definition rkey (names : list bytes) (v : mval) : option bytes :=
  match v with
  | MUInt n =>
      if (n <? N.of_nat (length names))%N then nth_error names (N.to_nat n)
      else if (n <? 256)%N then Some []
      else if (n <? 2 ^ 32)%N then None
      else Some []
  | _ => rname v
  end.

(** Of serde's derived readers [lair_store.rs:135-191], [lair_api.rs:131-249]. *)
Fixpoint rfields (names : list bytes) (l : list (mval * mval)) : option (list (bytes * mval)) :=
  match l with
  | [] => Some []
  | (k, v) :: l =>
      k <-- rkey names k; fs <-- rfields names l; Some ((k, v) :: fs)
  end.

(** The values of an array are the fields in order of declaration; the last ones may
    be left out (and are then missing, see [req] and [dft]), more are refused.
    Of serde's derived readers [lair_store.rs:135-191], [lair_api.rs:131-249]. *)
Fixpoint rpos (names : list bytes) (l : list mval) {struct l} : option (list (bytes * mval)) :=
  match l, names with
  | [], _ => Some []
  | v :: l, n :: names => fs <-- rpos names l; Some ((n, v) :: fs)
  | _ :: _, [] => None
  end.

(** A structure: a map or an array ([visit_map], [visit_seq] of the derived readers).
    Of serde's derived readers [lair_store.rs:135-191], [lair_api.rs:131-249]. *)
Definition rstruct (names : list bytes) (v : mval) : option (list (bytes * mval)) :=
  match v with
  | MMap l => rfields names l
  | MArr l => rpos names l
  | _ => None
  end.

(** Of serde's derived readers [lair_store.rs:135-191], [lair_api.rs:131-249]. *)
Fixpoint occurrences (k : bytes) (fs : list (bytes * mval)) : list mval :=
  match fs with
  | [] => []
  | (k', v) :: fs => if beq k' k then v :: occurrences k fs else occurrences k fs
  end.

(** A required field: exactly once ("missing field" / "duplicate field").
    Of serde's derived readers [lair_store.rs:135-191], [lair_api.rs:131-249]. *)
Definition req {A} (r : mval -> option A) (k : bytes) (fs : list (bytes * mval)) : option A :=
  match occurrences k fs with [v] => r v | _ => None end.

(** A field with [default]. Of serde's derived readers [lair_store.rs:135-191], [lair_api.rs:131-249]. *)
Definition dft {A} (r : mval -> option A) (a : A) (k : bytes) (fs : list (bytes * mval))
  : option A :=
  match occurrences k fs with [] => Some a | [v] => r v | _ => None end.

(** [Option<T>]. Of serde's derived readers [lair_store.rs:135-191], [lair_api.rs:131-249]. *)
Definition ropt {A} (r : mval -> option A) (v : mval) : option (option A) :=
  match v with MNil => Some None | _ => a <-- r v; Some (Some a) end.

(** [bool], as at [lair_store.rs:66-78]. *)
Definition rbool (v : mval) : option bool :=
  match v with MBool b => Some b | _ => None end.

(** [u32], as at [lair_store.rs:160-163]. *)
Definition ru32 (v : mval) : option N :=
  match v with MUInt n => if (n <? 2 ^ 32)%N then Some n else None | _ => None end.

(** [u8], the elements of [Arc<[u8]>], as at [sign_by_pub_key.rs:6-19]. *)
Definition ru8 (v : mval) : option byte :=
  match v with MUInt n => if (n <? 256)%N then Some (bn n) else None | _ => None end.

(** The elements of a [Vec], as at [list_entries.rs:41-47]. *)
Fixpoint rall {A} (r : mval -> option A) (l : list mval) : option (list A) :=
  match l with
  | [] => Some []
  | v :: l => a <-- r v; t <-- rall r l; Some (a :: t)
  end.

(** A [Vec], as at [list_entries.rs:41-47]. *)
Definition rlist {A} (r : mval -> option A) (v : mval) : option (list A) :=
  match v with MArr l => rall r l | _ => None end.

(** [Arc<[u8]>]. As at [sign_by_pub_key.rs:6-19]. *)
Definition rarr (v : mval) : option bytes := rlist ru8 v.
(** [[u8; 24]]. As at [export_seed_by_tag.rs:64-73]. *)
Definition rnonce (v : mval) : option bytes :=
  s <-- rarr v; if Nat.eqb (length s) 24 then Some s else None.

(** [BinData] [encoding_types.rs:82-92]. *)
Definition rbin (v : mval) : option bytes :=
  s <-- rtext v; match from_b64url s with Ok b => Some b | Err _ => None end.
(** [BinDataSized] [encoding_types.rs:163-177]. *)
Definition rsized (n : nat) (v : mval) : option bytes :=
  b <-- rbin v; if Nat.eqb (length b) n then Some b else None.

(** [SecretDataSized<c-17, c>]. [encoding_types.rs:250-256]. *)
Definition rsecret (c : nat) (v : mval) : option secret :=
  match v with
  | MArr [h; d] => h <-- rsized 24 h; d <-- rsized c d; Some (Sec h d)
  | _ => None
  end.
(** [SecretData]. [encoding_types.rs:200-208]. *)
Definition rusecret (v : mval) : option secret :=
  match v with
  | MArr [h; d] => h <-- rsized 24 h; d <-- rbin d; Some (Sec h d)
  | _ => None
  end.

(** [SeedInfo] [lair_store.rs:65-79]. *)
Definition seed_info_fields : list bytes :=
  [str "ed25519PubKey"; str "x25519PubKey"; str "exportable"].
(** [Deserialize for SeedInfo] [lair_store.rs:65-79]. *)
Definition rseed_info (v : mval) : option seed_info :=
  fs <-- rstruct seed_info_fields v;
  ed <-- req (rsized 32) (str "ed25519PubKey") fs;
  x <-- req (rsized 32) (str "x25519PubKey") fs;
  e <-- dft rbool false (str "exportable") fs;
  Some (SeedInfo ed x e).

(** [CertInfo] [lair_store.rs:84-97]. *)
Definition cert_info_fields : list bytes := [str "sni"; str "digest"; str "cert"].
(** [Deserialize for CertInfo] [lair_store.rs:84-97]. *)
Definition rcert_info (v : mval) : option cert_info :=
  fs <-- rstruct cert_info_fields v;
  s <-- req rtext (str "sni") fs;
  d <-- req (rsized 32) (str "digest") fs;
  c <-- req rbin (str "cert") fs;
  Some (CertInfo s d c).

(** Internally tagged enums: find the variant by name.
    Of serde's derived readers [lair_store.rs:135-191], [lair_api.rs:131-249]. *)
Fixpoint lookup_variant {A} (t : bytes) (l : list (bytes * A)) : option A :=
  match l with
  | [] => None
  | (n, r) :: l => if beq t n then Some r else lookup_variant t l
  end.

(** Of serde's derived readers [lair_store.rs:135-191], [lair_api.rs:131-249]. *)
Definition variant {A} (t : bytes)
    (l : list (bytes * (list (bytes * mval) -> option A))) (fs : list (bytes * mval)) : option A :=
  match lookup_variant t l with Some r => r fs | None => None end.

(** The values under the key ["type"].
    Of serde's derived readers [lair_store.rs:135-191], [lair_api.rs:131-249]. *)
Fixpoint tags (l : list (mval * mval)) : list mval :=
  match l with
  | [] => []
  | (k, v) :: l =>
      match rname k with
      | Some s => if beq s (str "type") then v :: tags l else tags l
      | None => tags l
      end
  end.

(** The name of a variant: itself, or its position among the declared ones.
    Of serde's derived readers [lair_store.rs:135-191], [lair_api.rs:131-249]. *)
Definition rvariant {B} (decl : list (bytes * B)) (v : mval) : option bytes :=
  match v with
  | MUInt n =>
      if (n <? N.of_nat (length decl))%N
      then option_map fst (nth_error decl (N.to_nat n)) else None
  | _ => rname v
  end.

(** [#[serde(tag = "type")]]: a map with the key ["type"], exactly once, or an array
    that begins with the variant. [decl] lists the variants in order of declaration,
    each with its fields in order of declaration.
    Of serde's derived readers [lair_store.rs:135-191], [lair_api.rs:131-249]. *)
Definition rtyped {A} (decl : list (bytes * list bytes))
    (l : list (bytes * (list (bytes * mval) -> option A))) (v : mval) : option A :=
  match v with
  | MMap kvs =>
      match tags kvs with
      | [t] =>
          t <-- rvariant decl t; names <-- lookup_variant t decl;
          fs <-- rfields names kvs; variant t l fs
      | _ => None
      end
  | MArr (t :: vs) =>
      t <-- rvariant decl t; names <-- lookup_variant t decl;
      fs <-- rpos names vs; variant t l fs
  | _ => None
  end.

(** The variants of [LairEntryInfo] and their fields [lair_store.rs:98-128]. *)
Definition info_decl : list (bytes * list bytes) :=
  [(str "seed", [str "tag"; str "seed_info"]);
   (str "deepLockedSeed", [str "tag"; str "seed_info"]);
   (str "wkaTlsCert", [str "tag"; str "cert_info"])].

(** The readers of the variants of [LairEntryInfo] [lair_store.rs:98-128]. *)
Definition info_variants : list (bytes * (list (bytes * mval) -> option entry_info)) :=
  [(str "seed", fun fs =>
      t <-- req rtext (str "tag") fs; si <-- req rseed_info (str "seed_info") fs;
      Some (ISeed t si));
   (str "deepLockedSeed", fun fs =>
      t <-- req rtext (str "tag") fs; si <-- req rseed_info (str "seed_info") fs;
      Some (IDeep t si));
   (str "wkaTlsCert", fun fs =>
      t <-- req rtext (str "tag") fs; ci <-- req rcert_info (str "cert_info") fs;
      Some (ICert t ci))].

(** [Deserialize for LairEntryInfo] [lair_store.rs:98-128]. *)
Definition rinfo (v : mval) : option entry_info := rtyped info_decl info_variants v.

(** The variants of [LairEntryInner] and their fields [lair_store.rs:135-191]. *)
Definition entry_decl : list (bytes * list bytes) :=
  [(str "seed", [str "tag"; str "seed_info"; str "seed"]);
   (str "deepLockedSeed",
    [str "tag"; str "seed_info"; str "salt"; str "ops_limit"; str "mem_limit"; str "seed"]);
   (str "wkaTlsCert", [str "tag"; str "cert_info"; str "priv_key"])].

(** The readers of the variants of [LairEntryInner] [lair_store.rs:135-191]. *)
Definition entry_variants : list (bytes * (list (bytes * mval) -> option entry)) :=
  [(str "seed", fun fs =>
      t <-- req rtext (str "tag") fs; si <-- req rseed_info (str "seed_info") fs;
      s <-- req (rsecret 49) (str "seed") fs; Some (ESeed t si s));
   (str "deepLockedSeed", fun fs =>
      t <-- req rtext (str "tag") fs; si <-- req rseed_info (str "seed_info") fs;
      salt <-- req (rsized 16) (str "salt") fs;
      ops <-- req ru32 (str "ops_limit") fs; mem <-- req ru32 (str "mem_limit") fs;
      s <-- req (rsecret 49) (str "seed") fs; Some (EDeep t si salt ops mem s));
   (str "wkaTlsCert", fun fs =>
      t <-- req rtext (str "tag") fs; ci <-- req rcert_info (str "cert_info") fs;
      s <-- req rusecret (str "priv_key") fs; Some (ECert t ci s))].

(** [Deserialize for LairEntryInner] [lair_store.rs:135-191]. *)
Definition rentry (v : mval) : option entry := rtyped entry_decl entry_variants v.

(** [LairEntryInner::decode] [lair_store.rs:204-208]. *)
Definition decode_entry (s : bytes) : res entry :=
  ok_of_opt (str "decode") (v <-- decode_first s; rentry v).

(** [DeepLockPassphrase] [lair_api.rs:40-49]. *)
Definition dlp_fields : list bytes := [str "opsLimit"; str "memLimit"; str "passphrase"].
(** [Deserialize for DeepLockPassphrase] [lair_api.rs:40-49]. *)
Definition rdlp (v : mval) : option dlp :=
  fs <-- rstruct dlp_fields v;
  o <-- req ru32 (str "opsLimit") fs; m <-- req ru32 (str "memLimit") fs;
  p <-- req (rsecret 81) (str "passphrase") fs; Some (Dlp o m p).

(** The variants of [LairApiEnum] [lair_api.rs:131-249] and the fields of each
    [lair_api/*.rs], both in order of declaration. *)
Definition api_decl : list (bytes * list bytes) :=
  [(str "resError", [str "msgId"; str "error"]);
   (str "reqHello", [str "msgId"]);
   (str "resHello", [str "msgId"; str "name"; str "version"; str "serverPubKey"]);
   (str "reqUnlock", [str "msgId"; str "passphrase"]);
   (str "resUnlock", [str "msgId"]);
   (str "reqGetEntry", [str "msgId"; str "tag"]);
   (str "resGetEntry", [str "msgId"; str "entryInfo"]);
   (str "reqListEntries", [str "msgId"]);
   (str "resListEntries", [str "msgId"; str "entryList"]);
   (str "reqNewSeed", [str "msgId"; str "tag"; str "deepLockPassphrase"; str "exportable"]);
   (str "resNewSeed", [str "msgId"; str "tag"; str "seedInfo"]);
   (str "reqExportSeedByTag",
    [str "msgId"; str "tag"; str "senderPubKey"; str "recipientPubKey"; str "deepLockPassphrase"]);
   (str "resExportSeedByTag", [str "msgId"; str "nonce"; str "cipher"]);
   (str "reqImportSeed",
    [str "msgId"; str "senderPubKey"; str "recipientPubKey"; str "deepLockPassphrase";
     str "nonce"; str "cipher"; str "tag"; str "exportable"]);
   (str "resImportSeed", [str "msgId"; str "tag"; str "seedInfo"]);
   (str "reqDeriveSeed",
    [str "msgId"; str "srcTag"; str "srcDeepLockPassphrase"; str "dstTag";
     str "dstDeepLockPassphrase"; str "derivationPath"]);
   (str "resDeriveSeed", [str "msgId"; str "seedInfo"]);
   (str "reqSignByPubKey", [str "msgId"; str "pubKey"; str "deepLockPassphrase"; str "data"]);
   (str "resSignByPubKey", [str "msgId"; str "signature"]);
   (str "reqCryptoBoxXSalsaByPubKey",
    [str "msgId"; str "senderPubKey"; str "recipientPubKey"; str "deepLockPassphrase";
     str "data"]);
   (str "resCryptoBoxXSalsaByPubKey", [str "msgId"; str "nonce"; str "cipher"]);
   (str "reqCryptoBoxXSalsaOpenByPubKey",
    [str "msgId"; str "senderPubKey"; str "recipientPubKey"; str "deepLockPassphrase";
     str "nonce"; str "cipher"]);
   (str "resCryptoBoxXSalsaOpenByPubKey", [str "msgId"; str "message"]);
   (str "reqCryptoBoxXSalsaBySignPubKey",
    [str "msgId"; str "senderPubKey"; str "recipientPubKey"; str "deepLockPassphrase";
     str "data"]);
   (str "resCryptoBoxXSalsaBySignPubKey", [str "msgId"; str "nonce"; str "cipher"]);
   (str "reqCryptoBoxXSalsaOpenBySignPubKey",
    [str "msgId"; str "senderPubKey"; str "recipientPubKey"; str "deepLockPassphrase";
     str "nonce"; str "cipher"]);
   (str "resCryptoBoxXSalsaOpenBySignPubKey", [str "msgId"; str "message"]);
   (str "reqNewWkaTlsCert", [str "msgId"; str "tag"]);
   (str "resNewWkaTlsCert", [str "msgId"; str "tag"; str "certInfo"]);
   (str "reqGetWkaTlsCertPrivKey", [str "msgId"; str "tag"]);
   (str "resGetWkaTlsCertPrivKey", [str "msgId"; str "privKey"]);
   (str "reqSecretBoxXSalsaByTag",
    [str "msgId"; str "tag"; str "deepLockPassphrase"; str "data"]);
   (str "resSecretBoxXSalsaByTag", [str "msgId"; str "nonce"; str "cipher"]);
   (str "reqSecretBoxXSalsaOpenByTag",
    [str "msgId"; str "tag"; str "deepLockPassphrase"; str "nonce"; str "cipher"]);
   (str "resSecretBoxXSalsaOpenByTag", [str "msgId"; str "message"])].

(** The readers of the variants of [LairApiEnum] [lair_api.rs:131-249]. *)
Definition api_variants : list (bytes * (list (bytes * mval) -> option api)) :=
  let id := req rtext (str "msgId") in
  let tag := req rtext (str "tag") in
  let snd := req (rsized 32) (str "senderPubKey") in
  let rcp := req (rsized 32) (str "recipientPubKey") in
  let deep := dft (ropt (rsecret 81)) None (str "deepLockPassphrase") in
  let ddlp := dft (ropt rdlp) None (str "deepLockPassphrase") in
  let nonce := req rnonce (str "nonce") in
  let cipher := req rarr (str "cipher") in
  let data := req rarr (str "data") in
  let message := req rarr (str "message") in
  let seed_info := req rseed_info (str "seedInfo") in
  [(str "resError", fun fs =>
      i <-- id fs; e <-- req rtext (str "error") fs; Some (ResError i e));
   (str "reqHello", fun fs => i <-- id fs; Some (ReqHello i));
   (str "resHello", fun fs =>
      i <-- id fs; n <-- req rtext (str "name") fs; v <-- req rtext (str "version") fs;
      k <-- req (rsized 32) (str "serverPubKey") fs; Some (ResHello i n v k));
   (str "reqUnlock", fun fs =>
      i <-- id fs; p <-- req (rsecret 81) (str "passphrase") fs; Some (ReqUnlock i p));
   (str "resUnlock", fun fs => i <-- id fs; Some (ResUnlock i));
   (str "reqGetEntry", fun fs => i <-- id fs; t <-- tag fs; Some (ReqGetEntry i t));
   (str "resGetEntry", fun fs =>
      i <-- id fs; e <-- req rinfo (str "entryInfo") fs; Some (ResGetEntry i e));
   (str "reqListEntries", fun fs => i <-- id fs; Some (ReqListEntries i));
   (str "resListEntries", fun fs =>
      i <-- id fs; l <-- req (rlist rinfo) (str "entryList") fs; Some (ResListEntries i l));
   (str "reqNewSeed", fun fs =>
      i <-- id fs; t <-- tag fs; d <-- ddlp fs;
      x <-- dft rbool false (str "exportable") fs; Some (ReqNewSeed i t d x));
   (str "resNewSeed", fun fs =>
      i <-- id fs; t <-- tag fs; si <-- seed_info fs; Some (ResNewSeed i t si));
   (str "reqExportSeedByTag", fun fs =>
      i <-- id fs; t <-- tag fs; s <-- snd fs; r <-- rcp fs; d <-- deep fs;
      Some (ReqExportSeed i t s r d));
   (str "resExportSeedByTag", fun fs =>
      i <-- id fs; n <-- nonce fs; c <-- cipher fs; Some (ResExportSeed i n c));
   (str "reqImportSeed", fun fs =>
      i <-- id fs; s <-- snd fs; r <-- rcp fs; d <-- ddlp fs; n <-- nonce fs;
      c <-- cipher fs; t <-- tag fs; x <-- req rbool (str "exportable") fs;
      Some (ReqImportSeed i s r d n c t x));
   (str "resImportSeed", fun fs =>
      i <-- id fs; t <-- tag fs; si <-- seed_info fs; Some (ResImportSeed i t si));
   (str "reqDeriveSeed", fun fs =>
      i <-- id fs; s <-- req rtext (str "srcTag") fs;
      sd <-- dft (ropt rdlp) None (str "srcDeepLockPassphrase") fs;
      t <-- req rtext (str "dstTag") fs;
      td <-- dft (ropt rdlp) None (str "dstDeepLockPassphrase") fs;
      p <-- req (rlist ru32) (str "derivationPath") fs; Some (ReqDeriveSeed i s sd t td p));
   (str "resDeriveSeed", fun fs => i <-- id fs; si <-- seed_info fs; Some (ResDeriveSeed i si));
   (str "reqSignByPubKey", fun fs =>
      i <-- id fs; k <-- req (rsized 32) (str "pubKey") fs; d <-- deep fs; m <-- data fs;
      Some (ReqSign i k d m));
   (str "resSignByPubKey", fun fs =>
      i <-- id fs; s <-- req (rsized 64) (str "signature") fs; Some (ResSign i s));
   (str "reqCryptoBoxXSalsaByPubKey", fun fs =>
      i <-- id fs; s <-- snd fs; r <-- rcp fs; d <-- deep fs; m <-- data fs;
      Some (ReqBox i s r d m));
   (str "resCryptoBoxXSalsaByPubKey", fun fs =>
      i <-- id fs; n <-- nonce fs; c <-- cipher fs; Some (ResBox i n c));
   (str "reqCryptoBoxXSalsaOpenByPubKey", fun fs =>
      i <-- id fs; s <-- snd fs; r <-- rcp fs; d <-- deep fs; n <-- nonce fs; c <-- cipher fs;
      Some (ReqBoxOpen i s r d n c));
   (str "resCryptoBoxXSalsaOpenByPubKey", fun fs =>
      i <-- id fs; m <-- message fs; Some (ResBoxOpen i m));
   (str "reqCryptoBoxXSalsaBySignPubKey", fun fs =>
      i <-- id fs; s <-- snd fs; r <-- rcp fs; d <-- deep fs; m <-- data fs;
      Some (ReqBoxSign i s r d m));
   (str "resCryptoBoxXSalsaBySignPubKey", fun fs =>
      i <-- id fs; n <-- nonce fs; c <-- cipher fs; Some (ResBoxSign i n c));
   (str "reqCryptoBoxXSalsaOpenBySignPubKey", fun fs =>
      i <-- id fs; s <-- snd fs; r <-- rcp fs; d <-- deep fs; n <-- nonce fs; c <-- cipher fs;
      Some (ReqBoxSignOpen i s r d n c));
   (str "resCryptoBoxXSalsaOpenBySignPubKey", fun fs =>
      i <-- id fs; m <-- message fs; Some (ResBoxSignOpen i m));
   (str "reqNewWkaTlsCert", fun fs => i <-- id fs; t <-- tag fs; Some (ReqNewCert i t));
   (str "resNewWkaTlsCert", fun fs =>
      i <-- id fs; t <-- tag fs; ci <-- req rcert_info (str "certInfo") fs;
      Some (ResNewCert i t ci));
   (str "reqGetWkaTlsCertPrivKey", fun fs => i <-- id fs; t <-- tag fs; Some (ReqCertKey i t));
   (str "resGetWkaTlsCertPrivKey", fun fs =>
      i <-- id fs; s <-- req rusecret (str "privKey") fs; Some (ResCertKey i s));
   (str "reqSecretBoxXSalsaByTag", fun fs =>
      i <-- id fs; t <-- tag fs; d <-- deep fs; m <-- data fs; Some (ReqSecretBox i t d m));
   (str "resSecretBoxXSalsaByTag", fun fs =>
      i <-- id fs; n <-- nonce fs; c <-- cipher fs; Some (ResSecretBox i n c));
   (str "reqSecretBoxXSalsaOpenByTag", fun fs =>
      i <-- id fs; t <-- tag fs; d <-- deep fs; n <-- nonce fs; c <-- cipher fs;
      Some (ReqSecretBoxOpen i t d n c));
   (str "resSecretBoxXSalsaOpenByTag", fun fs =>
      i <-- id fs; m <-- message fs; Some (ResSecretBoxOpen i m))].

(** [Deserialize for LairApiEnum]. [lair_api.rs:131-249]. *)
Definition rapi (v : mval) : option api := rtyped api_decl api_variants v.

(** Reading one received message, [sodium_secretstream/inner.rs:125]. *)
Definition decode_api (s : bytes) : res api :=
  ok_of_opt (str "decode") (v <-- decode_first s; rapi v).
