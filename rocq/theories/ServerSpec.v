(** * ServerSpec: what an answer of the server must mean

    Independent of how the handlers work: the meaning of stored entries, of an
    answer to a request, and the reasons for which an error is an acceptable
    answer. *)

From Verif Require Import Base Crypto Types Secret Store Server System.

(** What a request in progress can see of the rest of the server. *)
Record world := W {
  w_L : list entry;     (* entries stored *)
  w_unl : bool;         (* the connection is unlocked *)
  w_fail : bool;        (* something outside has failed while handling it *)
  w_fb : list fbcall    (* questions put to the fallback signer *)
}.

Definition wle (w w' : world) : Prop :=
  w_L w `prefix_of` w_L w'
  /\ (w_unl w = true -> w_unl w' = true)
  /\ (w_fail w = true -> w_fail w' = true)
  /\ w_fb w `prefix_of` w_fb w'.

Section Spec.
  Variable g : genv.
  Notation C := (g_crypto g).

  (** The public keys are those of the seed. *)
  Definition keys_match (si : seed_info) (seed : bytes) : Prop :=
    length seed = 32 /\ si_ed si = sign_pk C seed /\ si_x si = box_pk C seed.

  (** [seed] is what the entry holds under the store's own key. *)
  Definition plain_seed (e : entry) (seed : bytes) : Prop :=
    match e with
    | ESeed _ si sec => sec_open C 32 (g_bidi g) sec = Ok seed /\ keys_match si seed
    | _ => False
    end.

  (** [seed] is what a deep-locked entry holds under the passphrase [pass]. *)
  Definition locked_seed (e : entry) (pass seed : bytes) : Prop :=
    match e with
    | EDeep _ si salt ops mem sec =>
        exists k, argon2id C pass salt ops mem = Ok k /\ sec_open C 32 k sec = Ok seed
                  /\ keys_match si seed
    | _ => False
    end.

  Definition cert_of (gc : gencert) : cert_info :=
    CertInfo (gc_sni gc) (blake2b C 32 (gc_cert gc)) (gc_cert gc).

  (** [priv] is the private key a certificate entry holds. *)
  Definition cert_priv (e : entry) (priv : bytes) : Prop :=
    match e with
    | ECert _ _ sec => sec_open_any C (g_bidi g) sec = Some (Ok priv)
    | _ => False
    end.

  (** An entry that can be used. *)
  Definition stored_ok (e : entry) : Prop :=
    entry_ok e /\
    match e with
    | ESeed _ _ _ => exists seed, plain_seed e seed
    | EDeep _ _ _ _ _ _ => exists pass seed, length pass = 64 /\ locked_seed e pass seed
    | ECert _ ci _ =>
        exists gc, g_rcgen g gc = true /\ ci = cert_of gc /\ cert_priv e (gc_priv gc)
    end.

  Section Req.
    Variable enc_key dec_key : bytes.

    (** [e] is the entry for [seed] stored under tag [t], deep locked or not. *)
    Definition holds_seed (e : entry) (t : bytes) (d : option dlp) (si : seed_info)
        (seed : bytes) : Prop :=
      match d with
      | None => exists sec, e = ESeed t si sec /\ plain_seed e seed
      | Some dl =>
          exists pass salt sec,
            sec_open C 64 dec_key (dl_pass dl) = Ok pass
            /\ e = EDeep t si salt (dl_ops dl) (dl_mem dl) sec
            /\ locked_seed e pass seed
      end.

    (** The seed of entry [e] opened with the passphrase and limits of a
        derivation request. *)
    Definition source_seed (e : entry) (d : option dlp) (seed : bytes) : Prop :=
      match e, d with
      | ESeed _ _ _, None => plain_seed e seed
      | EDeep _ _ salt _ _ sec, Some dl =>
          exists pass k, sec_open C 64 dec_key (dl_pass dl) = Ok pass
            /\ argon2id C pass salt (dl_ops dl) (dl_mem dl) = Ok k
            /\ sec_open C 32 k sec = Ok seed
      | _, _ => False
      end.

    (** The seed of entry [e] opened for signing. *)
    Definition signing_seed (e : entry) (d : option secret) (seed : bytes) : Prop :=
      match e with
      | ESeed _ _ _ => plain_seed e seed
      | EDeep _ _ salt ops mem sec =>
          exists s pass k, d = Some s /\ sec_open C 64 dec_key s = Ok pass
            /\ argon2id C pass salt ops mem = Ok k
            /\ sec_open C 32 k sec = Ok seed
      | ECert _ _ _ => False
      end.

    Definition exportable (e : entry) : bool :=
      match seed_info_of e with Some si => si_exportable si | None => false end.

    (** The store when the request arrived, and the unlock flag. *)
    Variable L0 : list entry.
    Variable u0 : bool.

    (** A right answer [m], other than an error, to the request [rq]. *)
    Definition right_answer (rq : api) (w : world) (m : api) : Prop :=
      msg_id m = msg_id rq /\
      match rq, m with
      | ReqHello _, ResHello _ n v k => n = g_name g /\ v = g_version g /\ k = g_id_pk g
      | ReqUnlock _ s, ResUnlock _ =>
          unlock_pk g dec_key s = Ok (g_id_pk g) /\ w_unl w = true
      | ReqGetEntry _ t, ResGetEntry _ i =>
          w_unl w = true /\ exists e, e ∈ w_L w /\ tag_of e = t /\ i = info_of e
      | ReqListEntries _, ResListEntries _ l =>
          w_unl w = true /\
          exists L1, L0 `prefix_of` L1 /\ L1 `prefix_of` w_L w /\ l ≡ₚ map info_of L1
      | ReqNewSeed _ t d x, ResNewSeed _ t' si =>
          w_unl w = true /\ t' = t /\ si_exportable si = x
          /\ exists e seed, e ∈ w_L w /\ holds_seed e t d si seed
      | ReqExportSeed _ t s r _, ResExportSeed _ n c =>
          w_unl w = true /\ length n = NONCEBYTES
          /\ exists e seed e2 seed2,
               e ∈ w_L w /\ tag_of e = t /\ plain_seed e seed /\ exportable e = true
               /\ e2 ∈ w_L w /\ plain_seed e2 seed2 /\ s = box_pk C seed2
               /\ box_easy C n seed r (box_sk C seed2) = Ok c
      | ReqImportSeed _ s r d n c t x, ResImportSeed _ t' si =>
          w_unl w = true /\ t' = t /\ si_exportable si = x
          /\ exists e seed e2 seed2,
               e2 ∈ w_L w /\ plain_seed e2 seed2 /\ r = box_pk C seed2
               /\ box_open C n c s (box_sk C seed2) = Ok seed
               /\ e ∈ w_L w /\ holds_seed e t d si seed
      | ReqDeriveSeed _ s sd t td p, ResDeriveSeed _ si =>
          w_unl w = true
          /\ exists e seed e2,
               e ∈ w_L w /\ tag_of e = s /\ source_seed e sd seed
               /\ e2 ∈ w_L w /\ si_exportable si = exportable e
               /\ holds_seed e2 t td si
                    (fold_left (fun k i => kdf C i (str "SeedBndl") k) p seed)
      | ReqSign i k d data, ResSign _ sig =>
          w_unl w = true
          /\ ((exists e seed, e ∈ w_L w /\ ByEd k ∈ keys_of e /\ signing_seed e d seed
                 /\ sig = sign_detached C (sign_sk C seed) data)
              \/ (g_fallback g = true /\ FbCall i k data (Ok sig) ∈ w_fb w
                  /\ length sig = 64
                  /\ (w_fail w = true \/ forall e, e ∈ L0 -> ByEd k ∉ keys_of e)))
      | ReqBox _ s r _ data, ResBox _ n c =>
          w_unl w = true /\ length n = NONCEBYTES
          /\ exists e seed, e ∈ w_L w /\ plain_seed e seed /\ s = box_pk C seed
               /\ box_easy C n data r (box_sk C seed) = Ok c
      | ReqBoxOpen _ s r _ n c, ResBoxOpen _ msg =>
          w_unl w = true
          /\ exists e seed, e ∈ w_L w /\ plain_seed e seed /\ r = box_pk C seed
               /\ box_open C n c s (box_sk C seed) = Ok msg
      | ReqBoxSign _ s r _ data, ResBoxSign _ n c =>
          w_unl w = true /\ length n = NONCEBYTES
          /\ exists e seed xp xs, e ∈ w_L w /\ plain_seed e seed /\ s = sign_pk C seed
               /\ ed_pk_to_x C r = Ok xp /\ ed_sk_to_x C (sign_sk C seed) = Ok xs
               /\ box_easy C n data xp xs = Ok c
      | ReqBoxSignOpen _ s r _ n c, ResBoxSignOpen _ msg =>
          w_unl w = true
          /\ exists e seed xp xs, e ∈ w_L w /\ plain_seed e seed /\ r = sign_pk C seed
               /\ ed_pk_to_x C s = Ok xp /\ ed_sk_to_x C (sign_sk C seed) = Ok xs
               /\ box_open C n c xp xs = Ok msg
      | ReqNewCert _ t, ResNewCert _ t' ci =>
          w_unl w = true /\ t' = t
          /\ exists gc sec, g_rcgen g gc = true /\ ci = cert_of gc /\ ECert t ci sec ∈ w_L w
               /\ cert_priv (ECert t ci sec) (gc_priv gc)
      | ReqCertKey _ t, ResCertKey _ sec =>
          w_unl w = true
          /\ exists e priv hdr, e ∈ w_L w /\ tag_of e = t /\ cert_priv e priv
               /\ length hdr = HEADERBYTES /\ sec = sec_encrypt C enc_key hdr priv
      | ReqSecretBox _ t _ data, ResSecretBox _ n c =>
          w_unl w = true /\ length n = NONCEBYTES
          /\ exists e seed, e ∈ w_L w /\ tag_of e = t /\ plain_seed e seed
               /\ c = sbox_easy C n data seed
      | ReqSecretBoxOpen _ t _ n c, ResSecretBoxOpen _ msg =>
          w_unl w = true
          /\ exists e seed, e ∈ w_L w /\ tag_of e = t /\ plain_seed e seed
               /\ sbox_open C n c seed = Ok msg
      | _, _ => False
      end.

    (** ** When an error is acceptable *)

    (** The deep-lock passphrase cannot be used. *)
    Definition bad_deep (d : option dlp) : Prop :=
      exists dl, d = Some dl /\
        (is_ok (sec_open C 64 dec_key (dl_pass dl)) = false
         \/ exists pass salt, sec_open C 64 dec_key (dl_pass dl) = Ok pass
              /\ length salt = 16
              /\ is_ok (argon2id C pass salt (dl_ops dl) (dl_mem dl)) = false).

    (** The tag, or a public key of the seed, is taken. *)
    Definition clash (w : world) (t seed : bytes) : Prop :=
      exists e, e ∈ w_L w /\
        (tag_of e = t \/ ByEd (sign_pk C seed) ∈ keys_of e \/ ByX (box_pk C seed) ∈ keys_of e).

    (** A request that needs no unlocked connection. *)
    Definition open_request (rq : api) : bool :=
      match rq with ReqHello _ | ReqUnlock _ _ => true | _ => false end.

    (** What a request asks to store: the request [rq] justifies storing the
        entry [e] in a keystore that holds [L]. *)
    Definition asked (rq : api) (L : list entry) (e : entry) : Prop :=
      match rq with
      | ReqNewSeed _ t d x =>
          exists si seed, si_exportable si = x /\ holds_seed e t d si seed
      | ReqImportSeed _ s r d n c t x =>
          exists si seed e2 seed2, si_exportable si = x /\ holds_seed e t d si seed
            /\ e2 ∈ L /\ plain_seed e2 seed2 /\ r = box_pk C seed2
            /\ box_open C n c s (box_sk C seed2) = Ok seed
      | ReqDeriveSeed _ s sd t td p =>
          exists si e0 seed, e0 ∈ L /\ tag_of e0 = s /\ source_seed e0 sd seed
            /\ si_exportable si = exportable e0
            /\ holds_seed e t td si (fold_left (fun k i => kdf C i (str "SeedBndl") k) p seed)
      | ReqNewCert _ t =>
          exists gc sec, g_rcgen g gc = true /\ e = ECert t (cert_of gc) sec
            /\ cert_priv e (gc_priv gc)
      | _ => False
      end.

    (** Reasons for an error that lie in the request. *)
    Definition own_excuse (rq : api) (w : world) : Prop :=
      match rq with
      | ReqHello _ => False
      | ReqUnlock _ s => unlock_pk g dec_key s <> Ok (g_id_pk g)
      | ReqGetEntry _ t => forall e, e ∈ L0 -> tag_of e <> t
      | ReqListEntries _ => False
      | ReqNewSeed _ t d x =>
          bad_deep d \/ exists seed, length seed = 32 /\ clash w t seed
      | ReqExportSeed _ t s r _ =>
          forall e e2, e ∈ L0 -> e2 ∈ L0 -> tag_of e = t -> ByX s ∈ keys_of e2 ->
            exportable e = false
            \/ (forall seed, ~ plain_seed e seed)
            \/ (forall seed2, ~ plain_seed e2 seed2)
            \/ exists n seed seed2, length n = NONCEBYTES /\ plain_seed e seed
                 /\ plain_seed e2 seed2
                 /\ is_ok (box_easy C n seed r (box_sk C seed2)) = false
      | ReqImportSeed _ s r d n c t x =>
          bad_deep d
          \/ (forall e2 seed2 seed, e2 ∈ L0 -> plain_seed e2 seed2 -> r = box_pk C seed2 ->
                length seed = 32 -> box_open C n c s (box_sk C seed2) <> Ok seed)
          \/ exists e2 seed2 seed, e2 ∈ w_L w /\ plain_seed e2 seed2 /\ r = box_pk C seed2
               /\ box_open C n c s (box_sk C seed2) = Ok seed /\ clash w t seed
      | ReqDeriveSeed _ s sd t td p =>
          bad_deep td
          \/ (forall e seed, e ∈ L0 -> tag_of e = s -> ~ source_seed e sd seed)
          \/ exists e seed, e ∈ w_L w /\ tag_of e = s /\ source_seed e sd seed
               /\ clash w t (fold_left (fun k i => kdf C i (str "SeedBndl") k) p seed)
      | ReqSign i k d data =>
          (forall e seed, e ∈ L0 -> ByEd k ∈ keys_of e -> ~ signing_seed e d seed)
          /\ (g_fallback g = true -> (forall e, e ∈ L0 -> ByEd k ∉ keys_of e) ->
              (exists err, FbCall i k data (Err err) ∈ w_fb w)
              \/ exists e, e ∈ w_L w /\ ByEd k ∈ keys_of e)
      | ReqBox _ s r _ data =>
          forall e seed, e ∈ L0 -> plain_seed e seed -> s = box_pk C seed ->
            exists n, length n = NONCEBYTES
              /\ is_ok (box_easy C n data r (box_sk C seed)) = false
      | ReqBoxOpen _ s r _ n c =>
          forall e seed, e ∈ L0 -> plain_seed e seed -> r = box_pk C seed ->
            forall msg, box_open C n c s (box_sk C seed) <> Ok msg
      | ReqBoxSign _ s r _ data =>
          forall e seed xp xs, e ∈ L0 -> plain_seed e seed -> s = sign_pk C seed ->
            ed_pk_to_x C r = Ok xp -> ed_sk_to_x C (sign_sk C seed) = Ok xs ->
            exists n, length n = NONCEBYTES /\ is_ok (box_easy C n data xp xs) = false
      | ReqBoxSignOpen _ s r _ n c =>
          forall e seed xp xs, e ∈ L0 -> plain_seed e seed -> r = sign_pk C seed ->
            ed_pk_to_x C s = Ok xp -> ed_sk_to_x C (sign_sk C seed) = Ok xs ->
            forall msg, box_open C n c xp xs <> Ok msg
      | ReqNewCert _ t => exists e, e ∈ w_L w /\ tag_of e = t
      | ReqCertKey _ t => forall e priv, e ∈ L0 -> tag_of e = t -> ~ cert_priv e priv
      | ReqSecretBox _ t _ data =>
          forall e seed, e ∈ L0 -> tag_of e = t -> ~ plain_seed e seed
      | ReqSecretBoxOpen _ t _ n c =>
          forall e seed, e ∈ L0 -> tag_of e = t -> plain_seed e seed ->
            forall msg, sbox_open C n c seed <> Ok msg
      | _ => True
      end.

    Definition excuse (rq : api) (w : world) : Prop :=
      w_fail w = true
      \/ (open_request rq = false /\ u0 = false)
      \/ own_excuse rq w.

    (** Everything a message sent in answer to [rq] must satisfy. *)
    Definition good (rq : api) (w : world) (m : api) : Prop :=
      right_answer rq w m
      \/ exists e, m = ResError (msg_id rq) e /\ excuse rq w.
  End Req.
End Spec.
