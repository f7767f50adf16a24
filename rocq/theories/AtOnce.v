(** * AtOnce: a keystore that handles one request at a time

    The words of C73.  [at_once] is the server as it would be if it had no caches and did
    nothing else while it handles a request: the request sees one state of the store and of
    the unlock flag, and leaves one state.  Nothing fails from outside. *)

From Verif Require Import Base Crypto Types Secret Store Server System ServerSpec ServerVocab.

Section AtOnce.
  Variable S : store_impl.
  Variable g : genv.

  (** [at_once id s u p fb s' u' m]: the handling [p] of the request with the id [id], begun with the
      store [s] and the unlock flag [u], puts the questions [fb] to the fallback signer, leaves
      [s'] and [u'] and answers [m].  Specification of [priv_srv.rs:191-353]. *)
  Inductive at_once (id : bytes) :
      st S -> bool -> prog (res unit) -> list fbcall -> st S -> bool -> api -> Prop :=
  | at_send s u m k : at_once id s u (Send m k) [] s u m
  | at_error s u e : at_once id s u (Ret (Err e)) [] s u (ResError id e)
  | at_load s u k fb s' u' m :
      at_once id s u (k u) fb s' u' m -> at_once id s u (LoadUnlocked k) fb s' u' m
  | at_set s u k fb s' u' m :
      at_once id s true k fb s' u' m -> at_once id s u (SetUnlocked k) fb s' u' m
  | at_rand s u n b k fb s' u' m : length b = n ->
      at_once id s u (k b) fb s' u' m -> at_once id s u (Rand n k) fb s' u' m
  | at_write s u e k fb s' u' m :
      at_once id (snd (st_write S s e)) u (k (fst (st_write S s e))) fb s' u' m ->
      at_once id s u (StWrite e k) fb s' u' m
  | at_list s u k fb s' u' m :
      at_once id s u (k (st_list S s)) fb s' u' m -> at_once id s u (StList k) fb s' u' m
  | at_get s u q k fb s' u' m :
      at_once id s u (k (st_get S s q)) fb s' u' m -> at_once id s u (StGet q k) fb s' u' m
  | at_cache_get s u q k fb s' u' m :
      at_once id s u (k None) fb s' u' m -> at_once id s u (CacheGet q k) fb s' u' m
  | at_cache_put s u f k fb s' u' m :
      at_once id s u k fb s' u' m -> at_once id s u (CachePut f k) fb s' u' m
  | at_cert s u gc k fb s' u' m : g_rcgen g gc = true -> gencert_okb gc = true ->
      at_once id s u (k (Ok gc)) fb s' u' m -> at_once id s u (CertGen k) fb s' u' m
  | at_ask s u i pk d k r fb s' u' m : (forall sig, r = Ok sig -> length sig = 64) ->
      at_once id s u (k r) fb s' u' m ->
      at_once id s u (AskFallback i pk d k) (FbCall i pk d r :: fb) s' u' m.

  (** The event [ev], after [evs], changes neither the store nor whether connection [cid] is unlocked. *)
  Definition no_effect (evs : list event) (ev : event) (cid : nat) : Prop :=
    store_at S g (evs ++ [ev]) = store_at S g evs
    /\ forall c c', conn_at S g evs cid c -> conn_at S g (evs ++ [ev]) cid c' -> c_unl S c' = c_unl S c.

  (** No step of request [tid] of connection [cid], since the last restart, has an effect; but for
      the one at position [at_], if any. *)
  Definition no_other_effect (evs : list event) (cid tid : nat) (at_ : option nat) : Prop :=
    forall pre o post, evs = pre ++ EvStep cid tid o :: post -> no_restart post ->
      at_ <> Some (length pre) -> no_effect pre (EvStep cid tid o) cid.

  (** Request [tid] of connection [cid], which says [rq] and was answered [m], took effect in one
      instant: there is one step between its arrival and its answer, with nobody else's step in
      between, at which a keystore that handles requests one at a time would have answered [m] and
      gone from the state before that step to the state after it; and nothing else that was done for
      the request had any effect. *)
  Definition instant (evs : list event) (cid tid : nat) (rq m : api) : Prop :=
    exists pre o post c c' r fb,
      evs = pre ++ EvStep cid tid o :: post /\ no_restart post
      /\ conn_at S g pre cid c /\ received S c tid r /\ rq_msg S r = rq
      /\ (forall m, ~ sent S c tid m)
      /\ conn_at S g (pre ++ [EvStep cid tid o]) cid c'
      /\ at_once (msg_id rq) (store_at S g pre) (c_unl S c)
           (dispatch g (c_enc S c) (c_dec S c) rq) fb
           (store_at S g (pre ++ [EvStep cid tid o])) (c_unl S c') m
      /\ (forall fc, fc ∈ fb -> fc ∈ sh_fb S (s_sh S (run S g evs)))
      /\ no_other_effect evs cid tid (Some (length pre)).

  (** ** A whole history *)

  (** A request with its answer. *)
  Record turn := Turn { tu_cid : nat; tu_tid : nat; tu_rq : api; tu_ans : api }.

  (** Requests handled one after the other: from the store [s] and the unlock flags [us] of the
      connections to [s'] and [us'].  [keys] are the two context keys of each connection. *)
  Inductive in_turn (keys : nat -> bytes * bytes) :
      list turn -> st S -> (nat -> bool) -> st S -> (nat -> bool) -> Prop :=
  | turns_nil s us us' : (forall i, us' i = us i) -> in_turn keys [] s us s us'
  | turns_cons cid tid rq m fb ts s us s1 u1 s2 us2 :
      at_once (msg_id rq) s (us cid) (dispatch g (fst (keys cid)) (snd (keys cid)) rq) fb s1 u1 m ->
      in_turn keys ts s1 (fun i => if Nat.eqb i cid then u1 else us i) s2 us2 ->
      in_turn keys (Turn cid tid rq m :: ts) s us s2 us2.

  (** [t] is answered with [tu_ans t] in the history [evs]. *)
  Definition answered_turn (evs : list event) (t : turn) : Prop :=
    exists c r, conn_at S g evs (tu_cid t) c /\ received S c (tu_tid t) r /\ rq_msg S r = tu_rq t
      /\ sent S c (tu_tid t) (tu_ans t).

  (** [t] had its answer before [t'] arrived (both at the server now running). *)
  Definition before_arrival (evs : list event) (t t' : turn) : Prop :=
    exists pre post c, evs = pre ++ post /\ no_restart post
      /\ conn_at S g pre (tu_cid t) c /\ sent S c (tu_tid t) (tu_ans t)
      /\ forall c' r, conn_at S g pre (tu_cid t') c' -> ~ received S c' (tu_tid t') r.

  (** Whether connection [i] is unlocked. *)
  Definition unlocked_at (evs : list event) (i : nat) : bool :=
    match s_conns S (run S g evs) !! i with Some c => c_unl S c | None => false end.

  (** Nobody uses the store but through the server. *)
  Definition is_direct (ev : event) : bool := match ev with EvDirect _ _ => true | _ => false end.
  Definition no_direct (evs : list event) : Prop := existsb is_direct evs = false.
End AtOnce.
