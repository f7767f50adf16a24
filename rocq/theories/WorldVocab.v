(** * WorldVocab: the words in which properties of clients and server together are stated

    Definitions only. *)

From Verif Require Import Base Crypto Types Secret Store Lru Server System ServerVocab Client Asks World.

(** ** Arguments *)

(** What the types of the arguments of the client's functions guarantee, and that they fit
    MessagePack at all; message ids are drawn from 21 letters, headers have 24 bytes. *)
Definition ask_ok (a : ask) : Prop :=
  match a with
  | AHello _ | AUnlock _ | AList => True
  | AGet t | ANewCert t | ACertKey t | ANewSeed t _ _ => text_ok t
  | AExport t s r _ => text_ok t /\ length s = 32 /\ length r = 32
  | AImport s r _ n c t _ => length s = 32 /\ length r = 32 /\ length n = 24 /\ arr_ok c /\ text_ok t
  | ADerive s _ t _ p => text_ok s /\ text_ok t /\ (N.of_nat (length p) < 2 ^ 32)%N /\ Forall u32_ok p
  | ASign k _ m => length k = 32 /\ arr_ok m
  | ABox s r _ m | ABoxSign s r _ m => length s = 32 /\ length r = 32 /\ arr_ok m
  | ABoxOpen s r _ n c | ABoxSignOpen s r _ n c =>
      length s = 32 /\ length r = 32 /\ length n = 24 /\ arr_ok c
  | ASecretBox t _ m => text_ok t /\ arr_ok m
  | ASecretBoxOpen t _ n c => text_ok t /\ length n = 24 /\ arr_ok c
  end.
Definition draws_ok (d : draws) : Prop :=
  text_ok (d_id d) /\ length (d_hdr d) = 24 /\ length (d_hdr2 d) = 24.

(** Requests put together by hand ([LairClient::request]) have the same guarantees. *)
Definition typed (e : wevent) : Prop :=
  match e with
  | WAsk _ d a => ask_ok a /\ draws_ok d
  | WClient _ (NewCall req) => api_ok req
  | _ => True
  end.

(** The function [a], giving back [v], has created the item described. *)
Definition creates (a : ask) (v : value) : option entry_info :=
  match a, v with
  | ANewSeed t p _, VSeed si | AImport _ _ p _ _ t _, VSeed si | ADerive _ _ t p _, VSeed si =>
      Some (match p with None => ISeed t si | Some _ => IDeep t si end)
  | ANewCert t, VCert ci => Some (ICert t ci)
  | _, _ => None
  end.

Section Vocab.
  Variable S : store_impl.
  Variable g : genv.
  Notation C := (g_crypto g).

  (** The connection [cid] of a client after the events [evs]. *)
  Definition link_at (evs : list wevent) (cid : nat) (l : link) : Prop :=
    w_links (wrun S g evs) !! cid = Some l.

  (** What happened to the server during the events [evs]. *)
  Definition server_evs (evs : list wevent) : list event := w_evs (wrun S g evs).

  (** Call number [k] of the client at the end of [cid]. *)
  Definition call_at (evs : list wevent) (cid k : nat) (l : link) (c : call) : Prop :=
    link_at evs cid l /\ k_calls (l_cli l) !! k = Some c.

  (** It has not been made yet. *)
  Definition not_made (evs : list wevent) (cid k : nat) : Prop := forall l c, ~ call_at evs cid k l c.

  (** Message ids are drawn at random: no two calls over one connection use the same. *)
  Definition ids_differ (evs : list wevent) : Prop :=
    forall cid l, link_at evs cid l -> NoDup (map (fun c => msg_id (c_req c)) (k_calls (l_cli l))).

  (** Call [k] is a call of the function [a] and has given back [v]. *)
  Definition gives (evs : list wevent) (cid k : nat) (a : ask) (v : res value) : Prop :=
    exists l c d o, call_at evs cid k l c /\ draws_ok d /\ c_req c = request_of C (l_enc l) d a
      /\ c_st c = CEnd o /\ give_back C (l_dec l) a (c_req c) o = Some v.

  (** A message came in for call [k] and ended it (it has not timed out and so on). *)
  Definition replied (evs : list wevent) (cid k : nat) : Prop :=
    exists l c n m, call_at evs cid k l c /\ c_st c = CEnd (Answer n m).

  (** The server, in the course of [evs], received [rq] as number [tid] over [cid] and, at some
      time, the connection was [c]. *)
  Definition handled (evs : list wevent) (cid : nat) (c : conn S) (tid : nat) (rq : request S) : Prop :=
    exists pre, pre `prefix_of` server_evs evs /\ conn_at S g pre cid c /\ received S c tid rq.

  (** Nothing failed in the server while it handled call [k]. *)
  Definition smooth (evs : list wevent) (cid k : nat) : Prop :=
    forall l cl c tid rq, call_at evs cid k l cl -> handled evs cid c tid rq ->
      rq_msg S rq = c_req cl -> undisturbed S rq.

  (** Call [k], of the function [a], was answered, and the server had no trouble with it. *)
  Definition well (evs : list wevent) (cid k : nat) (a : ask) (v : res value) : Prop :=
    gives evs cid k a v /\ replied evs cid k /\ smooth evs cid k.

  (** The client of [cid] has unlocked the keystore. *)
  Definition unlocked (evs : list wevent) (cid : nat) : Prop :=
    exists k pass, gives evs cid k (AUnlock pass) (Ok VUnit).

  (** [pass] is the passphrase of the keystore: it re-derives the identity key. *)
  Definition opens (digest : bytes) : Prop :=
    exists pre seed, argon2id C digest (g_salt g) (g_ops g) (g_mem g) = Ok pre
      /\ sec_open C 32 (kdf C 142 (str "IdnSecKy") pre) (g_id_seed g) = Ok seed
      /\ box_pk C seed = g_id_pk g.
  Definition right_pass (pass : bytes) : Prop := opens (blake2b C 64 pass).

  (** The keystore keeps what it stores, or is not started anew. *)
  Definition keeps (SO : StoreOk S) (evs : list wevent) : Prop :=
    st_persist S SO = true \/ WServer EvRestart ∉ evs.
End Vocab.
