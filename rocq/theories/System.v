(** * System: a running keystore server

    A state machine: connections, the requests being handled concurrently on
    each of them ([priv_srv_accept] [priv_srv.rs:141-236]), the shared store and
    caches.  An execution is a list of events; every event is possible at any
    time, so a statement about all event lists is a statement about every
    schedule, every history of requests and every pattern of failures. *)

From Verif Require Import Base Utf8 Crypto Types Codec Secret Store Lru Server.

(** [MAX_FRAME] [sodium_secretstream.rs:16], compared with the ciphertext length
    in [sodium_secretstream/framed.rs:23]. *)
Definition MAX_FRAME : N := 8192.

(** A message fits one frame. [framed.rs:23] after [crypt.rs:43-56]. *)
Definition fits (m : api) : bool :=
  N.leb (N.of_nat (length (encode_api m) + ABYTES)) MAX_FRAME.

(** [for_each_concurrent(4096, ...)] [priv_srv.rs:191]. *)
Definition MAX_TASKS : N := 4096.

(** The outside world's part in one step: random bytes drawn, whether an
    operation of the store fails, what the certificate generator makes, what
    the fallback signer answers, whether the transport takes a message.
    No counterpart: whatever the handlers of [priv_api.rs:1-1098] ask of the outside. *)
Record oracle := Oracle {
  o_rand : bytes;
  o_fail : bool;
  o_cert : option gencert;
  o_sign : res bytes;
  o_send : bool
}.

(** [n] random bytes from the oracle. [sodoken::random::bytes_buf], as at [lair_store.rs:228-260]. *)
Definition fit (n : nat) (b : bytes) : bytes := take n (b ++ repeat x00 n).

(** What the type system says of generated certificates ([Arc<str>]) and that
    they are smaller than a gigabyte. [internal/tls.rs:65-137]. *)
Definition gencert_okb (gc : gencert) : bool :=
  utf8 (gc_sni gc)
  && N.ltb (N.of_nat (length (gc_sni gc))) (2 ^ 30)
  && N.ltb (N.of_nat (length (gc_priv gc))) (2 ^ 30)
  && N.ltb (N.of_nat (length (gc_cert gc))) (2 ^ 30).

(** A question put to the fallback signer and its answer. [lair_server.rs:361-378]. *)
Record fbcall := FbCall { fb_id : bytes; fb_pk : bytes; fb_data : bytes; fb_ans : res bytes }.

Section System.
  Variable S : store_impl.
  Variable g : genv.

  (** [SrvInner] [priv_srv.rs:18-30]: the store and the three caches.
      [sh_fb] is a ghost: the questions put to the fallback signer so far. *)
  Record shared := Shared {
    sh_store : st S;
    sh_tag : list (bytes * full);
    sh_ed : list (bytes * full);
    sh_x : list (bytes * full);
    sh_fb : list fbcall
  }.

  (** A request being handled: still running, or already failed and about to
      report its error [priv_srv.rs:203-223]. *)
  Inductive thread :=
  | Running (p : prog (res unit))
  | Failed (e : bytes).

  (** A request as received.  The other fields are ghosts: the store and the
      unlock flag when it arrived, and whether some step of its handling
      failed for an outside reason. [priv_srv.rs:191-224]. *)
  Record request := Rq {
    rq_msg : api;
    rq_store : st S;
    rq_unl : bool;
    rq_fail : bool
  }.

  (** One connection.  [c_reqs] and [c_log] are ghosts: the requests received,
      and the messages handed to the transport, each with the number of the
      request it answers and whether the transport took it. [priv_srv.rs:141-190]. *)
  Record conn := Conn {
    c_enc : bytes;
    c_dec : bytes;
    c_unl : bool;
    c_open : bool;
    c_thr : gmap nat thread;
    c_reqs : list request;
    c_log : list (nat * api * bool)
  }.

  (** [SrvInner] [priv_srv.rs:17-30] and its connections [priv_srv.rs:141-236]. *)
  Record sys := Sys { s_sh : shared; s_conns : gmap nat conn }.

  (** ** One effect *)

  (** What becomes of a handler [priv_srv.rs:203-223]. *)
  Record outcome (A : Type) := Outcome {
    r_sh : shared;
    r_unl : bool;
    r_prog : option (prog A);
    r_out : option (api * bool);
    r_fail : bool
  }.
  Global Arguments Outcome {A}.
  Global Arguments r_sh {A}. Global Arguments r_unl {A}.
  Global Arguments r_prog {A}. Global Arguments r_out {A}. Global Arguments r_fail {A}.

  (** A change of [SrvInner::store] [priv_srv.rs:22]. *)
  Definition with_store (sh : shared) (s : st S) : shared :=
    Shared s (sh_tag sh) (sh_ed sh) (sh_x sh) (sh_fb sh).

  (** [lock.entries_by_tag.get(..)] and so on [priv_api.rs:910,935,960]. *)
  Definition cache_get (sh : shared) (q : key) : option full * shared :=
    match q with
    | ByTag t =>
        let (o, l) := lru_get t (sh_tag sh) in
        (o, Shared (sh_store sh) l (sh_ed sh) (sh_x sh) (sh_fb sh))
    | ByEd pk =>
        let (o, l) := lru_get pk (sh_ed sh) in
        (o, Shared (sh_store sh) (sh_tag sh) l (sh_x sh) (sh_fb sh))
    | ByX pk =>
        let (o, l) := lru_get pk (sh_x sh) in
        (o, Shared (sh_store sh) (sh_tag sh) (sh_ed sh) l (sh_fb sh))
    end.

  (** [priv_api.rs:885-895]: always by tag; by public key only for a seed that
      is not deep locked. *)
  Definition cache_put (sh : shared) (f : full) : shared :=
    let tags := lru_put LRU_CAP (tag_of (f_entry f)) f (sh_tag sh) in
    match f_entry f with
    | ESeed _ si _ =>
        Shared (sh_store sh) tags
          (lru_put LRU_CAP (si_ed si) f (sh_ed sh))
          (lru_put LRU_CAP (si_x si) f (sh_x sh)) (sh_fb sh)
    | _ => Shared (sh_store sh) tags (sh_ed sh) (sh_x sh) (sh_fb sh)
    end.

  (** An error of the operating system, as at [priv_srv.rs:203-223]. *)
  Definition io_error : bytes := str "io".

  Definition step1 {A} (sh : shared) (unl : bool) (p : prog A) (o : oracle) : outcome A :=
    match p with
    | Ret a => Outcome sh unl (Some (Ret a)) None false
    | LoadUnlocked k => Outcome sh unl (Some (k unl)) None false
    | SetUnlocked k => Outcome sh true (Some k) None false
    | Rand n k => Outcome sh unl (Some (k (fit n (o_rand o)))) None false
    | StWrite e k =>
        if o_fail o then Outcome sh unl (Some (k (Err io_error))) None true
        else
          let (r, s) := st_write S (sh_store sh) e in
          Outcome (with_store sh s) unl (Some (k r)) None false
    | StList k =>
        if o_fail o then Outcome sh unl (Some (k (Err io_error))) None true
        else Outcome sh unl (Some (k (st_list S (sh_store sh)))) None false
    | StGet q k =>
        if o_fail o then Outcome sh unl (Some (k (Err io_error))) None true
        else Outcome sh unl (Some (k (st_get S (sh_store sh) q))) None false
    | CacheGet q k =>
        let (r, sh') := cache_get sh q in Outcome sh' unl (Some (k r)) None false
    | CachePut f k => Outcome (cache_put sh f) unl (Some k) None false
    | CertGen k =>
        match o_cert o with
        | Some gc =>
            if g_rcgen g gc && gencert_okb gc then Outcome sh unl (Some (k (Ok gc))) None false
            else Outcome sh unl (Some (k (Err io_error))) None true
        | None => Outcome sh unl (Some (k (Err io_error))) None true
        end
    | AskFallback i pk d k =>
        (** [FallbackCmd] [lair_server.rs:107-377] checks that a signature has
            64 bytes [lair_server.rs:318-324]. *)
        let r := match o_sign o with
                 | Ok s => if Nat.eqb (length s) 64 then Ok s else Err io_error
                 | Err e => Err e
                 end in
        Outcome (Shared (sh_store sh) (sh_tag sh) (sh_ed sh) (sh_x sh)
                   (sh_fb sh ++ [FbCall i pk d r])) unl (Some (k r)) None false
    | Send m k =>
        let ok := fits m && o_send o in
        Outcome sh unl (Some (k (if ok then Ok tt else Err (str "FrameOverflow"))))
          (Some (m, ok)) (negb ok)
    | Crash => Outcome sh unl None None false
    end.

  (** ** Connections *)

  (** A finished program leaves the thread [priv_srv.rs:203-223]. *)
  Definition settle (p : prog (res unit)) : option thread :=
    match p with
    | Ret (Ok _) => None
    | Ret (Err e) => Some (Failed e)
    | p => Some (Running p)
    end.

  (** A message given to [send.send] [priv_srv.rs:214-219]. *)
  Definition log_add (c : conn) (tid : nat) (out : option (api * bool))
      : list (nat * api * bool) :=
    match out with
    | Some (m, ok) => c_log c ++ [(tid, m, ok)]
    | None => c_log c
    end.

  (** Ghost: no counterpart in [priv_srv.rs:191-224]. *)
  Definition mark_fail (rqs : list request) (tid : nat) (b : bool) : list request :=
    alter (fun r => Rq (rq_msg r) (rq_store r) (rq_unl r) (rq_fail r || b)) tid rqs.

  (** The futures of [for_each_concurrent] [priv_srv.rs:191]. *)
  Definition set_thr (m : gmap nat thread) (tid : nat) (t : option thread) : gmap nat thread :=
    match t with Some t => <[tid := t]> m | None => delete tid m end.

  (** One step of the handling of request [tid]. [priv_srv.rs:203-223]. *)
  Definition step_thread (sh : shared) (c : conn) (tid : nat) (o : oracle) : shared * conn :=
    match c_thr c !! tid with
    | None => (sh, c)
    | Some (Failed e) =>
        match c_reqs c !! tid with
        | None => (sh, c)
        | Some rq =>
            let m := ResError (msg_id (rq_msg rq)) e in
            let ok := fits m && o_send o in
            (sh, Conn (c_enc c) (c_dec c) (c_unl c) (c_open c) (delete tid (c_thr c))
                   (mark_fail (c_reqs c) tid (negb ok)) (c_log c ++ [(tid, m, ok)]))
        end
    | Some (Running p) =>
        let r := step1 sh (c_unl c) p o in
        match r_prog r with
        | None =>
            (** a panic takes down the task that serves the connection *)
            (r_sh r, Conn (c_enc c) (c_dec c) (r_unl r) false ∅ (c_reqs c) (c_log c))
        | Some p' =>
            (r_sh r, Conn (c_enc c) (c_dec c) (r_unl r) (c_open c)
                       (set_thr (c_thr c) tid (settle p'))
                       (mark_fail (c_reqs c) tid (r_fail r))
                       (log_add c tid (r_out r)))
        end
    end.

  (** Running out of locked memory and the like: [new_mem_locked()?] and
      similar lines make a handler stop with an error at any point. [priv_srv.rs:203-223]. *)
  Definition abort_thread (c : conn) (tid : nat) (e : bytes) : conn :=
    match c_thr c !! tid with
    | Some (Running _) =>
        Conn (c_enc c) (c_dec c) (c_unl c) (c_open c) (<[tid := Failed e]> (c_thr c))
          (mark_fail (c_reqs c) tid true) (c_log c)
    | _ => c
    end.

  (** A decrypted frame arrives [priv_srv.rs:191-203], [inner.rs:118-131].  Bytes
      that are not a message end the receiving side. *)
  Definition receive (sh : shared) (c : conn) (raw : bytes) : conn :=
    if c_open c && N.ltb (N.of_nat (size (c_thr c))) MAX_TASKS then
      match decode_api raw with
      | Ok a =>
          let tid := length (c_reqs c) in
          Conn (c_enc c) (c_dec c) (c_unl c) true
            (set_thr (c_thr c) tid (settle (dispatch g (c_enc c) (c_dec c) a)))
            (c_reqs c ++ [Rq a (sh_store sh) (c_unl c) false]) (c_log c)
      | Err _ => Conn (c_enc c) (c_dec c) (c_unl c) false (c_thr c) (c_reqs c) (c_log c)
      end
    else c.

  (** A connection after its handshake: [priv_srv.rs:158-187]; [rx] and [tx] are
      the session keys. *)
  Definition connect (rx tx : bytes) : conn :=
    Conn (kdf (g_crypto g) 42 (str "ToCliCxK") tx) (kdf (g_crypto g) 142 (str "ToSrvCxK") rx)
      false true ∅ [] [].

  (** ** The store used directly

      [StandaloneServer::store] [crates/lair_keystore/src/server.rs] and
      [LairServer::store] [lair_server.rs:60-66] hand out the store, whose
      methods the [import-seed] command uses. *)
  Inductive direct :=
  | DNewSeed (tag : bytes) (exportable : bool)
  | DInsertSeed (seed tag : bytes) (exportable : bool)
  | DNewDeep (tag : bytes) (ops mem : N) (pass : bytes) (exportable : bool)
  | DInsertDeep (seed tag : bytes) (ops mem : N) (pass : bytes) (exportable : bool)
  | DNewCert (tag : bytes).

  (** [str], as at [lair_store.rs:228-490]. *)
  Definition text_okb (s : bytes) : bool :=
    utf8 s && N.ltb (N.of_nat (length s)) (2 ^ 32).
  (** [u32], as at [lair_store.rs:262-330]. *)
  Definition u32_okb (n : N) : bool := N.ltb n (2 ^ 32).

  (** What the argument types guarantee. [lair_store.rs:228-490]. *)
  Definition direct_okb (d : direct) : bool :=
    match d with
    | DNewSeed t _ | DNewCert t => text_okb t
    | DInsertSeed s t _ => Nat.eqb (length s) 32 && text_okb t
    | DNewDeep t o m p _ => text_okb t && u32_okb o && u32_okb m && Nat.eqb (length p) 64
    | DInsertDeep s t o m p _ =>
        Nat.eqb (length s) 32 && text_okb t && u32_okb o && u32_okb m && Nat.eqb (length p) 64
    end.

  (** The value of a program is not used [lair_store.rs:228-490]. *)
  Definition ignore {A} (p : prog (res A)) : prog (res unit) := bindr p (fun _ => Ret (Ok tt)).

  (** [LairStore]'s functions [lair_store.rs:228-490]. *)
  Definition direct_prog (d : direct) : prog (res unit) :=
    match d with
    | DNewSeed t x => ignore (new_seed g t x)
    | DInsertSeed s t x => ignore (insert_seed g s t x)
    | DNewDeep t o m p x => ignore (new_deep_locked_seed g t o m p x)
    | DInsertDeep s t o m p x => ignore (insert_deep_locked_seed g s t o m p x)
    | DNewCert t => ignore (new_wka_tls_cert g t)
    end.

  (** Run with the oracles given, and abandon what is left (a dropped future). [lair_store.rs:228-490]. *)
  Fixpoint run_direct (sh : shared) (p : prog (res unit)) (os : list oracle) : shared :=
    match os with
    | [] => sh
    | o :: os =>
        let r := step1 sh true p o in
        match r_prog r with
        | Some p' => run_direct (r_sh r) p' os
        | None => r_sh r
        end
    end.

  (** What the caller is told, once the call has come to its end. [lair_store.rs:228-490]. *)
  Fixpoint direct_told (sh : shared) (p : prog (res unit)) (os : list oracle) : option (res unit) :=
    match p, os with
    | Ret v, _ => Some v
    | _, [] => None
    | _, o :: os =>
        let r := step1 sh true p o in
        match r_prog r with
        | Some p' => direct_told (r_sh r) p' os
        | None => None
        end
    end.
  (** As [direct_told] [lair_store.rs:228-490], from a state. *)
  Definition direct_result (s : sys) (d : direct) (os : list oracle) : option (res unit) :=
    if direct_okb d then direct_told (s_sh s) (direct_prog d) os else None.

  (** ** Events *)

  (** What can happen to a server [priv_srv.rs:141-236], [lair_store.rs:228-490]. *)
  Inductive event :=
  | EvConnect (cid : nat) (rx tx : bytes)
  | EvReceive (cid : nat) (raw : bytes)
  | EvStep (cid tid : nat) (o : oracle)
  | EvAbort (cid tid : nat) (e : bytes)
  | EvHangup (cid : nat)
  | EvDirect (d : direct) (os : list oracle)
  | EvRestart.

  (** [Srv::new] [priv_srv.rs:115-136]. *)
  Definition fresh_shared (s : st S) : shared := Shared s [] [] [] [].

  (** A server that has just started for the first time [priv_srv.rs:115-136]. *)
  Definition init : sys := Sys (fresh_shared (st_init S)) ∅.

  (** [EvRestart] is the end of the process, at any point, and a new start with
      the same configuration and passphrase: connections, requests in progress
      and caches are gone, the store is opened again. [priv_srv.rs:141-236]. *)
  Definition step (s : sys) (e : event) : sys :=
    match e with
    | EvConnect cid rx tx =>
        match s_conns s !! cid with
        | Some _ => s
        | None =>
            if Nat.eqb (length rx) 32 && Nat.eqb (length tx) 32
            then Sys (s_sh s) (<[cid := connect rx tx]> (s_conns s)) else s
        end
    | EvReceive cid raw =>
        match s_conns s !! cid with
        | Some c => Sys (s_sh s) (<[cid := receive (s_sh s) c raw]> (s_conns s))
        | None => s
        end
    | EvStep cid tid o =>
        match s_conns s !! cid with
        | Some c =>
            let (sh, c') := step_thread (s_sh s) c tid o in
            Sys sh (<[cid := c']> (s_conns s))
        | None => s
        end
    | EvAbort cid tid e =>
        match s_conns s !! cid with
        | Some c => Sys (s_sh s) (<[cid := abort_thread c tid e]> (s_conns s))
        | None => s
        end
    | EvHangup cid =>
        match s_conns s !! cid with
        | Some c =>
            Sys (s_sh s)
              (<[cid := Conn (c_enc c) (c_dec c) (c_unl c) false (c_thr c) (c_reqs c)
                          (c_log c)]> (s_conns s))
        | None => s
        end
    | EvDirect d os =>
        if direct_okb d then Sys (run_direct (s_sh s) (direct_prog d) os) (s_conns s) else s
    | EvRestart => Sys (fresh_shared (st_reopen S (sh_store (s_sh s)))) ∅
    end.

  (** From the first start [priv_srv.rs:115-136] on. *)
  Definition run (evs : list event) : sys := fold_left step evs init.
End System.
