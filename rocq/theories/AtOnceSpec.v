(** * AtOnceSpec: what handling one request does to a keystore

    The words of C73 that do not mention the handlers: a request meets a keystore with certain
    entries and a connection that is unlocked or not; what it leaves, and what it is answered. *)

From Verif Require Import Base Crypto Types Secret Store Server System ServerSpec ServerVocab WriteProofs AtOnce.

(** Two entries have a tag or a public key in common. *)
Definition in_common (e e' : entry) : Prop :=
  tag_of e = tag_of e' \/ (exists pk, ed_of e = Some pk /\ ed_of e' = Some pk)
  \/ exists pk, x_of e = Some pk /\ x_of e' = Some pk.

Section Spec.
  Variable g : genv.

  (** Answering [m] to [rq], the keystore goes from the entries [L] to [L']. *)
  Definition stores (dec : bytes) (rq m : api) (L L' : list entry) : Prop :=
    if negb (is_error m) && creating rq then
      exists e, L' = L ++ [e] /\ describes rq m e /\ asked g dec rq L e /\ forall e0, e0 ∈ L -> ~ in_common e e0
    else L' = L.

  (** The fallback signer is only asked about a key the keystore does not hold. *)
  Definition questions (rq : api) (L : list entry) (u : bool) (fb : list fbcall) : Prop :=
    forall fc, fc ∈ fb -> g_fallback g = true /\ u = true
      /\ (exists dp, rq = ReqSign (fb_id fc) (fb_pk fc) dp (fb_data fc))
      /\ forall e, e ∈ L -> ed_of e <> Some (fb_pk fc).

  (** The answer: right for the very entries that are there, or an error that has a reason in them.
      [u] is whether the connection is unlocked. *)
  Definition right_now (enc dec : bytes) (rq : api) (L : list entry) (u : bool) (fb : list fbcall)
      (L' : list entry) (u' : bool) (m : api) : Prop :=
    if is_error m then
      msg_id m = msg_id rq
      /\ ((open_request rq = false /\ u = false) \/ own_excuse g dec L rq (W L u false fb))
    else
      (open_request rq = false -> u = true) /\ right_answer g enc dec L rq (W L' u' false fb) m.

  Definition unlocks (m : api) : bool := match m with ResUnlock _ => true | _ => false end.

  (** One request, handled while nothing else happens.  Specification of [priv_srv.rs:191-353]. *)
  Definition handled (enc dec : bytes) (rq : api) (L : list entry) (u : bool) (fb : list fbcall)
      (L' : list entry) (u' : bool) (m : api) : Prop :=
    u' = u || unlocks m
    /\ stores dec rq m L L'
    /\ questions rq L u fb
    /\ right_now enc dec rq L u fb L' u' m.

  (** Requests handled one after the other: from the entries [L] and the unlock flags [us] of the
      connections to [L'] and [us'].  [keys] are the two context keys of each connection. *)
  Inductive served (keys : nat -> bytes * bytes) :
      list turn -> list entry -> (nat -> bool) -> list entry -> (nat -> bool) -> Prop :=
  | served_nil L us us' : (forall i, us' i = us i) -> served keys [] L us L us'
  | served_cons cid tid rq m fb ts L us L1 u1 L2 us2 :
      handled (fst (keys cid)) (snd (keys cid)) rq L (us cid) fb L1 u1 m ->
      served keys ts L1 (fun i => if Nat.eqb i cid then u1 else us i) L2 us2 ->
      served keys (Turn cid tid rq m :: ts) L us L2 us2.

  Section Instant.
    Variable S : store_impl.

    (** The keystore holds exactly the entries [L]. *)
    Definition holds_just (evs : list event) (L : list entry) : Prop :=
      NoDup L /\ forall e, e ∈ L <-> stored S g evs e.

    (** Request [tid] of connection [cid], which says [rq] and was answered [m], took effect in one
        instant: at one step, after its arrival and not after its answer, the keystore
        went from [L] to [L'] and the connection's flag from [u] to [u'] as if the request had been
        handled alone then; and no other step for the request had any effect. *)
    Definition one_instant (evs : list event) (cid tid : nat) (rq m : api) : Prop :=
      exists pre o post c c' r fb L L',
        evs = pre ++ EvStep cid tid o :: post /\ no_restart post
        /\ conn_at S g pre cid c /\ received S c tid r /\ rq_msg S r = rq
        /\ (forall m, ~ sent S c tid m)
        /\ conn_at S g (pre ++ [EvStep cid tid o]) cid c'
        /\ holds_just pre L /\ holds_just (pre ++ [EvStep cid tid o]) L'
        /\ handled (c_enc S c) (c_dec S c) rq L (c_unl S c) fb L' (c_unl S c') m
        /\ (forall fc, fc ∈ fb -> fc ∈ sh_fb S (s_sh S (run S g evs)))
        /\ no_other_effect S g evs cid tid (Some (length pre)).
  End Instant.
End Spec.
