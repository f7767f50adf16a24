(** * ServerVocab: the words in which the properties of the server are stated

    Definitions only.  Together with [ServerSpec] (what a seed, a deep-locked seed and
    a certificate entry hold) these are all that is needed to read
    [PropertiesServer*.v]. *)

From Verif Require Import Base Crypto Types Codec Secret Store Lru Server System ServerSpec.

(** Messages that clients send. *)
Definition is_request (m : api) : bool :=
  match m with
  | ReqHello _ | ReqUnlock _ _ | ReqGetEntry _ _ | ReqListEntries _ | ReqNewSeed _ _ _ _
  | ReqExportSeed _ _ _ _ _ | ReqImportSeed _ _ _ _ _ _ _ _ | ReqDeriveSeed _ _ _ _ _ _
  | ReqSign _ _ _ _ | ReqBox _ _ _ _ _ | ReqBoxOpen _ _ _ _ _ _ | ReqBoxSign _ _ _ _ _
  | ReqBoxSignOpen _ _ _ _ _ _ | ReqNewCert _ _ | ReqCertKey _ _ | ReqSecretBox _ _ _ _
  | ReqSecretBoxOpen _ _ _ _ _ => true
  | _ => false
  end.

(** [m] is of the response kind that belongs to the kind of [rq]. *)
Definition answer_kind (rq m : api) : bool :=
  match rq, m with
  | ReqHello _, ResHello _ _ _ _ | ReqUnlock _ _, ResUnlock _
  | ReqGetEntry _ _, ResGetEntry _ _ | ReqListEntries _, ResListEntries _ _
  | ReqNewSeed _ _ _ _, ResNewSeed _ _ _ | ReqExportSeed _ _ _ _ _, ResExportSeed _ _ _
  | ReqImportSeed _ _ _ _ _ _ _ _, ResImportSeed _ _ _
  | ReqDeriveSeed _ _ _ _ _ _, ResDeriveSeed _ _ | ReqSign _ _ _ _, ResSign _ _
  | ReqBox _ _ _ _ _, ResBox _ _ _ | ReqBoxOpen _ _ _ _ _ _, ResBoxOpen _ _
  | ReqBoxSign _ _ _ _ _, ResBoxSign _ _ _ | ReqBoxSignOpen _ _ _ _ _ _, ResBoxSignOpen _ _
  | ReqNewCert _ _, ResNewCert _ _ _ | ReqCertKey _ _, ResCertKey _ _
  | ReqSecretBox _ _ _ _, ResSecretBox _ _ _
  | ReqSecretBoxOpen _ _ _ _ _, ResSecretBoxOpen _ _ => true
  | _, _ => false
  end.

Definition is_error (m : api) : bool := match m with ResError _ _ => true | _ => false end.

(** The public keys of an entry. *)
Definition ed_of (e : entry) : option bytes := option_map si_ed (seed_info_of e).
Definition x_of (e : entry) : option bytes := option_map si_x (seed_info_of e).

(** The same of a listed item. *)
Definition info_tag (i : entry_info) : bytes :=
  match i with ISeed t _ | IDeep t _ | ICert t _ => t end.
Definition info_ed (i : entry_info) : option bytes :=
  match i with ISeed _ si | IDeep _ si => Some (si_ed si) | ICert _ _ => None end.
Definition info_x (i : entry_info) : option bytes :=
  match i with ISeed _ si | IDeep _ si => Some (si_x si) | ICert _ _ => None end.

(** The answer [m] says that the request [rq] has stored an entry with this
    public information. *)
Definition announces (rq m : api) : option entry_info :=
  match rq, m with
  | ReqNewSeed _ _ d _, ResNewSeed _ t si | ReqImportSeed _ _ _ d _ _ _ _, ResImportSeed _ t si =>
      Some (match d with None => ISeed t si | Some _ => IDeep t si end)
  | ReqDeriveSeed _ _ _ t d _, ResDeriveSeed _ si =>
      Some (match d with None => ISeed t si | Some _ => IDeep t si end)
  | ReqNewCert _ _, ResNewCert _ t ci => Some (ICert t ci)
  | _, _ => None
  end.

Definition is_deep (e : entry) : bool := match e with EDeep _ _ _ _ _ _ => true | _ => false end.

Definition is_restart (ev : event) : bool :=
  match ev with EvRestart => true | _ => false end.
Definition no_restart (evs : list event) : Prop := existsb is_restart evs = false.

(** A step in the handling of request [tid] of connection [cid]. *)
Definition is_step (cid tid : nat) (ev : event) : bool :=
  match ev with EvStep c t _ => Nat.eqb c cid && Nat.eqb t tid | _ => false end.

(** The connection an event belongs to. *)
Definition conn_of (ev : event) : option nat :=
  match ev with
  | EvConnect c _ _ | EvReceive c _ | EvStep c _ _ | EvAbort c _ _ | EvHangup c => Some c
  | EvDirect _ _ | EvRestart => None
  end.

Section Vocab.
  Variable S : store_impl.
  Variable g : genv.
  Notation C := (g_crypto g).

  (** A store holds [e]: the lookup under the tag of [e] finds exactly [e]. *)
  Definition holds (s : st S) (e : entry) : Prop := st_get S s (ByTag (tag_of e)) = Ok e.

  (** The keystore holds [e] after the events [evs]. *)
  Definition store_at (evs : list event) : st S := sh_store S (s_sh S (run S g evs)).
  Definition stored (evs : list event) (e : entry) : Prop := holds (store_at evs) e.

  (** [c] is connection number [cid] after the events [evs]. *)
  Definition conn_at (evs : list event) (cid : nat) (c : conn S) : Prop :=
    s_conns S (run S g evs) !! cid = Some c.

  (** Message number [tid] received on the connection. *)
  Definition received (c : conn S) (tid : nat) (rq : request S) : Prop :=
    c_reqs S c !! tid = Some rq.

  (** The handling of [tid] handed [m] to the transport; the transport took it. *)
  Definition sent (c : conn S) (tid : nat) (m : api) : Prop :=
    exists b, (tid, m, b) ∈ c_log S c.
  Definition delivered (c : conn S) (tid : nat) (m : api) : Prop :=
    (tid, m, true) ∈ c_log S c.

  (** What has been sent for request [tid], oldest first, and whether the
      transport took it. *)
  Definition answers (c : conn S) (tid : nat) : list (api * bool) :=
    omap (fun x => match x with (t, m, b) => if Nat.eqb t tid then Some (m, b) else None end)
      (c_log S c).

  (** Nothing remains to be done for [tid]. *)
  Definition finished (c : conn S) (tid : nat) : Prop := c_thr S c !! tid = None.

  (** No operation of the store, the transport, the certificate generator or memory
      failed while the request was being handled. *)
  Definition undisturbed (rq : request S) : Prop := rq_fail S rq = false.

  (** The entry was there when the request arrived; the connection was already
      unlocked when it arrived. *)
  Definition held_before (rq : request S) (e : entry) : Prop := holds (rq_store S rq) e.
  Definition came_unlocked (rq : request S) : Prop := rq_unl S rq = true.

  (** The encrypted passphrase digest [p], sent over connection [c], re-derives the
      identity key of the keystore. *)
  Definition right_passphrase (c : conn S) (p : secret) : Prop :=
    exists pass pre seed,
      sec_open C 64 (c_dec S c) p = Ok pass
      /\ argon2id C pass (g_salt g) (g_ops g) (g_mem g) = Ok pre
      /\ sec_open C 32 (kdf C 142 (str "IdnSecKy") pre) (g_id_seed g) = Ok seed
      /\ box_pk C seed = g_id_pk g.

  (** Events after which a stored entry must still be there: the store outlives
      restarts, or there is none. *)
  Definition lasting (SO : StoreOk S) (evs : list event) : Prop :=
    st_persist S SO = true \/ no_restart evs.

  (** Request [tid] of connection [cid] was not there yet after [evs]; it came during
      the events [evs']. *)
  Definition fresh (evs evs' : list event) (cid tid : nat) : Prop :=
    existsb is_restart evs' = true
    \/ forall c rq, conn_at evs cid c -> ~ received c tid rq.
End Vocab.
