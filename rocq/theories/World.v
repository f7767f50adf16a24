(** * World: clients and the server of a keystore, joined

    The server ([System]), any number of clients ([Client], [Asks]), and between each client and
    the server one connection.  An execution is a list of events; every party runs at its own pace.

    Simplified: a connection is two queues of messages (as bytes), one in each direction.  That what a
    receiver gets is a prefix of what was sent, in order and unaltered, unless a ciphertext is forged,
    is the subject of [Wire] (C28, C29), and that it makes no difference to clients and server that of [Net] (C62); everything that can go wrong on the way is [WLose]: what is in a queue and all
    that is sent later never arrives.  The keys of both ends agree (C27). *)

From Verif Require Import Base Crypto Types Codec Secret Store Lru Server System Client Asks.

Section World.
  Variable S : store_impl.
  Variable g : genv.

  (** One connection, from the client's side.  [l_put] holds the calls whose request was written
      to the connection; [l_evs] is a ghost: what happened to the client. *)
  Record link := Link {
    l_cli : client;
    l_enc : bytes;             (* [get_enc_ctx_key] [async_io.rs:23-42] *)
    l_dec : bytes;
    l_up : list bytes;         (* to the server *)
    l_down : list bytes;       (* to the client *)
    l_up_lost : bool;
    l_down_lost : bool;
    l_put : list nat;
    l_evs : list cevent
  }.

  (** [w_evs] is a ghost: what happened to the server.
      The parties of [in_proc_keystore.rs:59-105], [ipc_keystore.rs:28-66,113-164]. *)
  Record joined := Joined {
    w_srv : sys S;
    w_links : gmap nat link;
    w_evs : list event
  }.

  (** What can happen to them [async_io.rs:6-160], [priv_srv.rs:141-236]. *)
  Inductive wevent :=
  | WConnect (cid : nat) (rx tx : bytes)       (* handshake done; the server's session keys *)
  | WAsk (cid : nat) (d : draws) (a : ask)     (* a function of the client is called *)
  | WClient (cid : nat) (e : cevent)           (* the client does something on its own *)
  | WPut (cid k : nat)                         (* the request of call [k] has been written *)
  | WServe (cid : nat)                         (* the server takes a message *)
  | WServer (e : event)                        (* the server does something on its own *)
  | WTake (cid : nat)                          (* the client takes a message *)
  | WLose (cid : nat) (up : bool).

  (** The server does something [priv_srv.rs:141-236]. *)
  Definition srv_step (w : joined) (e : event) : joined :=
    Joined (step S g (w_srv w) e) (w_links w) (w_evs w ++ [e]).

  (** One connection changes [async_io.rs:6-160]. *)
  Definition set_link (w : joined) (cid : nat) (l : link) : joined :=
    Joined (w_srv w) (<[cid := l]> (w_links w)) (w_evs w).

  (** A client does something [async_io.rs:6-160]. *)
  Definition cli_step (l : link) (e : cevent) : link :=
    Link (cstep (l_cli l) e) (l_enc l) (l_dec l) (l_up l) (l_down l) (l_up_lost l) (l_down_lost l)
      (l_put l) (l_evs l ++ [e]).

  (** What the client may do on its own: not receive; and a send succeeds only if
      the request was written.  (A send may fail though it was: flushing may fail.) [async_io.rs:111-160]. *)
  Definition own (l : link) (e : cevent) : bool :=
    match e with
    | Incoming _ => false
    | Sent k true => bool_decide (k ∈ l_put l)
    | _ => true
    end.

  (** A request is written while its call sends, once. [async_io.rs:147]. *)
  Definition may_put (l : link) (k : nat) : option api :=
    match k_calls (l_cli l) !! k with
    | Some (Call req CSending _) =>
        if fits req && negb (bool_decide (k ∈ l_put l)) then Some req else None
    | _ => None
    end.

  (** The messages a connection's log gained that the transport took. [priv_srv.rs:203-223]. *)
  Definition news (c c' : conn S) : list bytes :=
    omap (fun x => match x with (_, m, true) => Some (encode_api m) | _ => None end)
      (drop (length (c_log S c)) (c_log S c')).

  (** The server takes messages while its side is open and a task is free [priv_srv.rs:191]. *)
  Definition takes (c : conn S) : bool := c_open S c && N.ltb (N.of_nat (size (c_thr S c))) MAX_TASKS.

  (** [async_io.rs:6-160], [priv_srv.rs:141-236]. *)
  Definition wstep (w : joined) (e : wevent) : joined :=
    match e with
    | WConnect cid rx tx =>
        match w_links w !! cid with
        | Some _ => w
        | None =>
            if Nat.eqb (length rx) 32 && Nat.eqb (length tx) 32 then
              set_link (srv_step w (EvConnect cid rx tx)) cid
                (Link new_client (kdf (g_crypto g) 142 (str "ToSrvCxK") rx)
                   (kdf (g_crypto g) 42 (str "ToCliCxK") tx) [] [] false false [] [])
            else w
        end
    | WAsk cid d a =>
        match w_links w !! cid with
        | Some l => set_link w cid (cli_step l (NewCall (request_of (g_crypto g) (l_enc l) d a)))
        | None => w
        end
    | WClient cid e =>
        match w_links w !! cid with
        | Some l => if own l e then set_link w cid (cli_step l e) else w
        | None => w
        end
    | WPut cid k =>
        match w_links w !! cid with
        | Some l =>
            match may_put l k with
            | Some req =>
                set_link w cid
                  (Link (l_cli l) (l_enc l) (l_dec l)
                     (if l_up_lost l then l_up l else l_up l ++ [encode_api req]) (l_down l)
                     (l_up_lost l) (l_down_lost l) (l_put l ++ [k]) (l_evs l))
            | None => w
            end
        | None => w
        end
    | WServe cid =>
        match w_links w !! cid, s_conns S (w_srv w) !! cid with
        | Some (Link cl en de (raw :: up) down ul dl put ce), Some c =>
            if takes c
            then set_link (srv_step w (EvReceive cid raw)) cid (Link cl en de up down ul dl put ce)
            else w
        | _, _ => w
        end
    | WServer ev =>
        match ev with
        | EvConnect _ _ _ | EvReceive _ _ => w
        | EvStep cid _ _ =>
            let w' := srv_step w ev in
            match w_links w !! cid, s_conns S (w_srv w) !! cid, s_conns S (w_srv w') !! cid with
            | Some l, Some c, Some c' =>
                set_link w' cid
                  (Link (l_cli l) (l_enc l) (l_dec l) (l_up l)
                     (if l_down_lost l then l_down l else l_down l ++ news c c')
                     (l_up_lost l) (l_down_lost l) (l_put l) (l_evs l))
            | _, _, _ => w'
            end
        | _ => srv_step w ev
        end
    | WTake cid =>
        match w_links w !! cid with
        | Some (Link cl en de up (raw :: down) ul dl put ce) =>
            match k_recv cl with
            | RRun =>
                set_link w cid
                  (cli_step (Link cl en de up down ul dl put ce)
                     (match decode_api raw with Ok m => Incoming m | Err _ => RecvEnd end))
            | _ => w
            end
        | _ => w
        end
    | WLose cid up =>
        match w_links w !! cid with
        | Some l =>
            set_link w cid
              (if up
               then Link (l_cli l) (l_enc l) (l_dec l) [] (l_down l) true (l_down_lost l) (l_put l) (l_evs l)
               else Link (l_cli l) (l_enc l) (l_dec l) (l_up l) [] (l_up_lost l) true (l_put l) (l_evs l))
        | None => w
        end
    end.

  (** Before the first connection [in_proc_keystore.rs:59-105]. *)
  Definition winit : joined := Joined (init S) ∅ [].
  (** From there [in_proc_keystore.rs:59-105] on. *)
  Definition wrun (evs : list wevent) : joined := fold_left wstep evs winit.
End World.

Arguments Joined {S} w_srv w_links w_evs.
Arguments w_srv {S} j.
Arguments w_links {S} j.
Arguments w_evs {S} j.
