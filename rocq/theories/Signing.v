(** * Signing: the server and its fallback signer together

    [System] takes what the fallback signer answers from outside.  Here that answer is the outcome of
    a call of [Fallback]: the handler of a sign request for a key that is not held [priv_api.rs:554-563]
    calls [FallbackCmd::sign_by_pub_key] [lair_server.rs:361-378] and goes on when that call is over.
    Sign requests of all connections meet in the one [FallbackCmd] [priv_srv.rs:29].

    Simplified: the text of an error of starting a program [lair_server.rs:157-185] is [io_error]. *)

From Verif Require Import Base Crypto Types Store Server System Fallback.

Section Signing.
  Variable S : store_impl.
  Variable g : genv.

  (** [j_for]: for which request (connection, number) a call now in progress was made. [priv_srv.rs:29]. *)
  Record joined := Joined {
    j_srv : sys S;
    j_fb : fworld;
    j_for : gmap (nat * nat) nat
  }.

  (** What request [tid] of connection [cid] is to be signed for, if its handler stands before
      the fallback signer [priv_api.rs:554-563]. *)
  Definition handler (s : sys S) (cid tid : nat) : option thread :=
    match s_conns S s !! cid with Some c => c_thr S c !! tid | None => None end.
  (** The question a handler waits to be answered [priv_api.rs:554-563]. *)
  Definition to_sign (t : thread) : option sign_req :=
    match t with Running (AskFallback i pk d _) => Some (SignReq i pk d) | _ => None end.

  (** What [sign_by_pub_key] returns [lair_server.rs:367-376]; a dropped call returns nothing. *)
  Definition returned (o : fout) : option (res bytes) :=
    match o with
    | Answered _ r => Some r
    | NoTask => Some (Err (str "no fallback cmd task"))
    | NoSigner => Some (Err io_error)
    | Dropped => None
    end.

  (** The answer it goes on with [priv_api.rs:554-563]. *)
  Definition with_sign (o : oracle) (r : res bytes) : oracle :=
    Oracle (o_rand o) (o_fail o) (o_cert o) r (o_send o).

  (** What can happen to both [priv_api.rs:554-563], [lair_server.rs:101-378]. *)
  Inductive jevent :=
  | JSrv (e : event)           (* an event of the server *)
  | JAsk (cid tid : nat)       (* the handler of a request calls the fallback signer *)
  | JFb (e : fevent).          (* an event of the fallback signer or its program *)

  (** Something that concerns the server only [priv_srv.rs:141-236]. *)
  Definition jsrv (j : joined) (e : event) : joined := Joined (step S g (j_srv j) e) (j_fb j) (j_for j).

  (** [None]: this cannot happen now.  The future of a call is dropped only when its handler is gone.
      [priv_api.rs:554-563], [lair_server.rs:361-378]. *)
  Definition jstep (j : joined) (e : jevent) : option joined :=
    match e with
    | JSrv (EvStep cid tid o) =>
        match handler (j_srv j) cid tid with
        | None => None
        | Some t =>
            match to_sign t with
            | None => Some (jsrv j (EvStep cid tid o))
            | Some _ =>
                match j_for j !! (cid, tid) with
                | None => None
                | Some k =>
                    match f_calls (j_fb j) !! k with
                    | Some (FCall _ (FEnd out) _) =>
                        match returned out with
                        | Some r =>
                            Some (Joined (step S g (j_srv j) (EvStep cid tid (with_sign o r))) (j_fb j)
                                    (delete (cid, tid) (j_for j)))
                        | None => None
                        end
                    | _ => None
                    end
                end
            end
        end
    | JSrv EvRestart => Some (Joined (step S g (j_srv j) EvRestart) fnew ∅)
    | JSrv e => Some (jsrv j e)
    | JAsk cid tid =>
        match handler (j_srv j) cid tid ≫= to_sign, j_for j !! (cid, tid) with
        | Some r, None =>
            match fstep (j_fb j) (Call r) with
            | Some w => Some (Joined (j_srv j) w (<[(cid, tid) := length (f_calls (j_fb j))]> (j_for j)))
            | None => None
            end
        | _, _ => None
        end
    | JFb (Call _) => None
    | JFb (Drop k) =>
        if forallb (fun x => negb (Nat.eqb (snd x) k)
             || match handler (j_srv j) (fst (fst x)) (snd (fst x)) ≫= to_sign with Some _ => false | None => true end)
             (map_to_list (j_for j))
        then match fstep (j_fb j) (Drop k) with
             | Some w => Some (Joined (j_srv j) w (j_for j))
             | None => None
             end
        else None
    | JFb e =>
        match fstep (j_fb j) e with
        | Some w => Some (Joined (j_srv j) w (j_for j))
        | None => None
        end
    end.

  (** Any number of events [priv_api.rs:554-563]. *)
  Fixpoint jrun (j : joined) (es : list jevent) : option joined :=
    match es with
    | [] => Some j
    | e :: es => match jstep j e with Some j => jrun j es | None => None end
    end.

  (** [priv_srv.rs:107-136]. *)
  Definition jnew : joined := Joined (init S) fnew ∅.
End Signing.
