(** * Net: clients and the server of a keystore, joined by byte streams

    As [World], but a connection is what it is on the socket: both ends encrypt, frame and
    write bytes ([Wire]), and what is between them may do with the bytes whatever it likes: each end
    reads bytes that the environment chooses.  Only the handshake is taken to be carried
    faithfully ([Handshake], C27).

    Simplified: the sending of one message is one event, in which the transport takes all bytes or
    fails after some (that tasks which send at the same time do so one after the other is
    the subject of [Sender], C31).  A call that is abandoned while it writes is a write that fails
    and then an abandoned call; that later calls panic rather than fail (C31) is not repeated here. *)

From Verif Require Import Base Crypto Types Codec Secret Store Lru Server System Wire Handshake Client Asks.

Section Net.
  Variable S : store_impl.
  Variable g : genv.
  Notation C := (g_crypto g).

  (** One direction of a connection: the sending end, the receiving end (the bytes that arrived and
      have not been read, and whether the end of the stream did).  Ghosts: [ch_out], what was handed
      to the sending end: plaintext, ciphertext, and whether it was written; [ch_got],
      the ciphertexts that the receiving end accepted; [ch_fed], all bytes that arrived.
      [sodium_secretstream/crypt.rs], [framed.rs:1-102]. *)
  Record chan := Chan {
    ch_snd : tx C;
    ch_dec : ss_state C;
    ch_in : list bytes;
    ch_eof : bool;
    ch_out : list (bytes * bytes * bool);
    ch_got : list bytes;
    ch_fed : bytes
  }.

  (** [x_res]: the calls that have sent their request, and whether that succeeded.
      [x_down_task] is false after the server's task for the connection panicked.
      [x_put] is a ghost: the calls whose request was written, in order.
      [async_io.rs:6-160], [priv_srv.rs:141-236]. *)
  Record nlink := NLink {
    x_cli : client;
    x_enc : bytes;
    x_dec : bytes;
    x_up : chan;
    x_down : chan;
    x_res : gmap nat bool;
    x_task : bool;
    x_put : list nat
  }.

  (** [n_evs] is a ghost: what happened to the server. [priv_srv.rs:17-30]. *)
  Record net := MkNet {
    n_srv : sys S;
    n_links : gmap nat nlink;
    n_evs : list event
  }.

  (** What both ends draw for a handshake. [sodium_secretstream.rs:108-326]. *)
  Record eph := Eph { e_bk : bytes; e_ck : bytes; e_rc : bytes; e_hc : bytes; e_sk : bytes; e_rs : bytes; e_hs : bytes }.

  (** What can happen [async_io.rs:6-160], [priv_srv.rs:141-236]. *)
  Inductive nevent :=
  | NConnect (cid : nat) (id : bytes) (h : eph)    (* a handshake; [id]: the server's secret key *)
  | NAsk (cid : nat) (d : draws) (a : ask)         (* a function of the client is called *)
  | NClient (cid : nat) (e : cevent)               (* the client does something on its own *)
  | NWrite (cid k : nat) (o : transport)           (* call [k] sends its request *)
  | NServer (e : event) (j : nat)                  (* the server does something; of a write that fails
                                                      the transport takes [j] bytes *)
  | NDeliver (cid : nat) (up : bool) (b : bytes)   (* bytes arrive, at the server if [up] *)
  | NEof (cid : nat) (up : bool)                   (* the stream ends *)
  | NServe (cid : nat)                             (* the server reads a message *)
  | NTake (cid : nat).                             (* the client reads a message *)

  (** [PrivSend::send] [inner.rs:52-78] (see [api_send] of [Wire]). *)
  Definition chan_send (h : chan) (m : api) (o : transport) : bool * chan :=
    let (r, t) := api_send C (ch_snd h) m o in
    (is_ok r,
     Chan t (ch_dec h) (ch_in h) (ch_eof h)
       (ch_out h ++ [(encode_api m, fst (ss_push C (t_enc (ch_snd h)) TagMessage (encode_api m)), is_ok r)])
       (ch_got h) (ch_fed h)).

  (** The transport hands over bytes, or its end ([tokio::io::AsyncRead], see [read_exact] of [Wire]).
      Read at [framed.rs:53-90]. *)
  Definition chan_deliver (h : chan) (b : bytes) : chan :=
    if ch_eof h then h
    else Chan (ch_snd h) (ch_dec h) (ch_in h ++ [b]) false (ch_out h) (ch_got h) (ch_fed h ++ b).

  (** The end, as read at [framed.rs:53-90]. *)
  Definition chan_eof (h : chan) : chan :=
    Chan (ch_snd h) (ch_dec h) (ch_in h) true (ch_out h) (ch_got h) (ch_fed h).

  (** One turn of the receiving end [crypt.rs:72-93].  What has arrived may be less than a message:
      then the reader waits, unless the stream has ended. *)
  Inductive reading := RdMore | RdGot (m : bytes) (h : chan) | RdStop | RdPanic.

  (** The frame at the head of what has arrived [framed.rs:53-90]. *)
  Definition frame_of (cs : list bytes) : bytes :=
    match frame_recv cs with Got c _ => c | _ => [] end.

  (** The next message [inner.rs:118-130]. *)
  Definition chan_read (h : chan) : reading :=
    match crypt_recv C (ch_dec h, ch_in h) with
    | Got m (dec, cs) =>
        RdGot m (Chan (ch_snd h) dec cs (ch_eof h) (ch_out h) (ch_got h ++ [frame_of (ch_in h)]) (ch_fed h))
    | Stop e => if beq e eof && negb (ch_eof h) then RdMore else RdStop
    | Panic => RdPanic
    end.

  (** Changing parts of the state; [srv_does] lets the server do something ([System.step]).
      [priv_srv.rs:141-236]. *)
  Definition set_nlink (n : net) (cid : nat) (l : nlink) : net :=
    MkNet (n_srv n) (<[cid := l]> (n_links n)) (n_evs n).
  (** [priv_srv.rs:141-236]. *)
  Definition srv_does (n : net) (e : event) : net :=
    MkNet (step S g (n_srv n) e) (n_links n) (n_evs n ++ [e]).

  (** A part of a connection changes [async_io.rs:6-160]. *)
  Definition with_cli (l : nlink) (c : client) : nlink :=
    NLink c (x_enc l) (x_dec l) (x_up l) (x_down l) (x_res l) (x_task l) (x_put l).
  (** A part of a connection changes [async_io.rs:6-160]. *)
  Definition with_up (l : nlink) (h : chan) : nlink :=
    NLink (x_cli l) (x_enc l) (x_dec l) h (x_down l) (x_res l) (x_task l) (x_put l).
  (** A part of a connection changes [async_io.rs:6-160]. *)
  Definition with_down (l : nlink) (h : chan) : nlink :=
    NLink (x_cli l) (x_enc l) (x_dec l) (x_up l) h (x_res l) (x_task l) (x_put l).
  (** The task of a connection is over [priv_srv.rs:227-231], [async_io.rs:76-84]. *)
  Definition no_task (l : nlink) : nlink :=
    NLink (x_cli l) (x_enc l) (x_dec l) (x_up l) (x_down l) (x_res l) false (x_put l).

  (** The client's own doings: receiving is [NTake]; a send ends as the writing of the
      request ended [async_io.rs:145]. *)
  Definition n_own (l : nlink) (e : cevent) : bool :=
    match e with
    | Incoming _ | RecvEnd | RecvPanic => false
    | Sent k ok => bool_decide (x_res l !! k = Some ok)
    | _ => true
    end.

  (** After the handshake nothing has been sent [sodium_secretstream.rs:170-180]. *)
  Definition new_chan (enc dec : ss_state C) : chan := Chan (Tx enc [] false) dec [] false [] [] [].

  (** The handshake over a faithful transport: each end gets what the other one writes.  (The client's
      first message does not depend on what it reads, and the server's first message
      only on that.) [sodium_secretstream.rs:108-326]. *)
  Definition shake (id : bytes) (h : eph) : option (session C * session C) :=
    let pk := x_base C id in
    let m1 := fst (s3_client C pk (e_bk h) (e_ck h) (e_rc h) (e_hc h) []) in
    let a := fst (s3_server C pk id (e_sk h) (e_rs h) (e_hs h) [m1]) in
    match s3_client C pk (e_bk h) (e_ck h) (e_rc h) (e_hc h) [a] with
    | (b, Ok c) =>
        match s3_server C pk id (e_sk h) (e_rs h) (e_hs h) [b] with
        | (_, Ok s) => Some (c, s)
        | _ => None
        end
    | _ => None
    end.

  (** Sizes of keys and stream headers. [sodium_secretstream.rs:108-326]. *)
  Definition eph_ok (id : bytes) (h : eph) : bool :=
    forallb (fun b => Nat.eqb (length b) 32) [id; e_bk h; e_ck h; e_sk h]
    && Nat.eqb (length (e_hc h)) 24 && Nat.eqb (length (e_hs h)) 24.

  (** The answers that a step of the server adds to the log of its connection are sent.
      [priv_srv.rs:203-223]. *)
  Fixpoint send_news (h : chan) (l : list (nat * api * bool)) (o : transport) : chan :=
    match l with
    | [] => h
    | (_, m, _) :: l => send_news (snd (chan_send h m o)) l o
    end.

  (** A transport that failed once takes nothing more. [framed.rs:18-46]. *)
  Definition line_oracle (dead : bool) (o : oracle) : oracle :=
    Oracle (o_rand o) (o_fail o) (o_cert o) (o_sign o) (o_send o && negb dead).

  (** The server reads while its side is open and a task is free [priv_srv.rs:191]. *)
  Definition takes_more (c : conn S) : bool := c_open S c && N.ltb (N.of_nat (size (c_thr S c))) MAX_TASKS.

  (** One event.  Client: [async_io.rs:6-160] ([Client.cstep]); server: [priv_srv.rs:141-236]
      ([System.step]); both read with [PrivRecv] [inner.rs:118-131]. *)
  Definition nstep (n : net) (e : nevent) : net :=
    match e with
    | NConnect cid id h =>
        match n_links n !! cid with
        | Some _ => n
        | None =>
            if eph_ok id h && beq (x_base C id) (g_id_pk g) then
              match shake id h with
              | Some (c, s) =>
                  set_nlink (srv_does n (EvConnect cid (h_rx s) (h_tx s))) cid
                    (NLink new_client (client_enc_ctx c) (client_dec_ctx c)
                       (new_chan (h_enc c) (h_dec s)) (new_chan (h_enc s) (h_dec c))
                       ∅ true [])
              | None => n
              end
            else n
        end
    | NAsk cid d a =>
        match n_links n !! cid with
        | Some l => set_nlink n cid (with_cli l (cstep (x_cli l) (NewCall (request_of C (x_enc l) d a))))
        | None => n
        end
    | NClient cid e =>
        match n_links n !! cid with
        | Some l => if n_own l e then set_nlink n cid (with_cli l (cstep (x_cli l) e)) else n
        | None => n
        end
    | NWrite cid k o =>
        match n_links n !! cid with
        | Some l =>
            match k_calls (x_cli l) !! k, x_res l !! k with
            | Some (Call req CSending _), None =>
                let (ok, h) := chan_send (x_up l) req o in
                set_nlink n cid
                  (NLink (x_cli l) (x_enc l) (x_dec l) h (x_down l) (<[k := ok]> (x_res l)) (x_task l)
                     (if ok then x_put l ++ [k] else x_put l))
            | _, _ => n
            end
        | None => n
        end
    | NServer ev j =>
        match ev with
        | EvConnect _ _ _ | EvReceive _ _ => n
        | EvStep cid tid o =>
            match n_links n !! cid with
            | Some l =>
                if x_task l then
                  let o := line_oracle (t_dead (ch_snd (x_down l))) o in
                  let n' := srv_does n (EvStep cid tid o) in
                  match s_conns S (n_srv n) !! cid, s_conns S (n_srv n') !! cid with
                  | Some c, Some c' =>
                      set_nlink n' cid
                        (with_down l
                           (send_news (x_down l) (drop (length (c_log S c)) (c_log S c'))
                              (if o_send o then None else Some j)))
                  | _, _ => n'
                  end
                else n
            | None => n
            end
        | _ => srv_does n ev
        end
    | NDeliver cid up b =>
        match n_links n !! cid with
        | Some l =>
            set_nlink n cid
              (if up then with_up l (chan_deliver (x_up l) b) else with_down l (chan_deliver (x_down l) b))
        | None => n
        end
    | NEof cid up =>
        match n_links n !! cid with
        | Some l =>
            set_nlink n cid (if up then with_up l (chan_eof (x_up l)) else with_down l (chan_eof (x_down l)))
        | None => n
        end
    | NServe cid =>
        match n_links n !! cid, s_conns S (n_srv n) !! cid with
        | Some l, Some c =>
            if takes_more c then
              match chan_read (x_up l) with
              | RdMore => n
              | RdGot m h => set_nlink (srv_does n (EvReceive cid m)) cid (with_up l h)
              | RdStop => srv_does n (EvHangup cid)
              | RdPanic => set_nlink (srv_does n (EvHangup cid)) cid (no_task l)
              end
            else n
        | _, _ => n
        end
    | NTake cid =>
        match n_links n !! cid with
        | Some l =>
            match k_recv (x_cli l), chan_read (x_down l) with
            | RRun, RdGot m h =>
                set_nlink n cid
                  (with_down (with_cli l (cstep (x_cli l)
                     (match decode_api m with Ok a => Incoming a | Err _ => RecvEnd end))) h)
            | RRun, RdStop => set_nlink n cid (with_cli l (cstep (x_cli l) RecvEnd))
            | RRun, RdPanic => set_nlink n cid (with_cli l (cstep (x_cli l) RecvPanic))
            | _, _ => n
            end
        | None => n
        end
    end.

  (** At the start there are no connections. [priv_srv.rs:115-136]. *)
  Definition ninit : net := MkNet (init S) ∅ [].
  (** From there [priv_srv.rs:115-136] on. *)
  Definition nrun (evs : list nevent) : net := fold_left nstep evs ninit.
End Net.

Arguments Chan {g}. Arguments ch_snd {g} c. Arguments ch_dec {g} c. Arguments ch_in {g} c. Arguments ch_eof {g} c.
Arguments ch_out {g} c. Arguments ch_got {g} c. Arguments ch_fed {g} c.
Arguments NLink {g}. Arguments x_cli {g} n. Arguments x_enc {g} n. Arguments x_dec {g} n. Arguments x_up {g} n.
Arguments x_down {g} n. Arguments x_res {g} n. Arguments x_task {g} n. Arguments x_put {g} n.
Arguments MkNet {S g}. Arguments n_srv {S g} n. Arguments n_links {S g} n. Arguments n_evs {S g} n.
Arguments RdMore {g}. Arguments RdGot {g} m h. Arguments RdStop {g}. Arguments RdPanic {g}.
Arguments chan_send {g} h m o. Arguments chan_deliver {g} h b. Arguments chan_eof {g} h. Arguments chan_read {g} h.
Arguments send_news {g} h l o. Arguments n_own {g} l e.
Arguments with_cli {g} l c. Arguments with_up {g} l h. Arguments with_down {g} l h. Arguments no_task {g} l.
Arguments set_nlink {S g} n cid l. Arguments srv_does {S g} n e.
