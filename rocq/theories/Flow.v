(** * Flow: what waits for what

    Clients and the server exchange bytes over pipes that hold only so many
    ([tokio::io::duplex(4096)], [in_proc_keystore.rs:80]; the buffers of a unix socket,
    [ipc_keystore/raw_ipc.rs:41-76]): a writer that finds its pipe full waits for the reader.
    Modelled is who waits for whom; contents are the subject of [Wire.v], [Net.v] and [Server.v].

    - a client: calls wait for the one permit of the sender [sodium_secretstream/inner.rs:52-78];
      the receiving task only reads [lair_client/async_io.rs:54-83];
    - the server, per connection: it reads as long as fewer than 4096 requests are unfinished
      [lair_server/priv_srv.rs:185-226]; a handler uses the store a number of times, each time
      with a connection of the pool [store_sqlite.rs:272-313], and then waits for the one
      permit of the sender of its connection.

    Simplified: of a byte is kept whether it is the last of its message, and of which; a handler is the
    list of its uses of the store, of which nothing is known (the fallback signer, which may take
    any time, is not one of them); nothing fails and nobody hangs up. *)

From Verif Require Import Base.

(** A byte: the last one of the message of a call, or another. *)
Notation tok := (option nat).

(** The bytes of a message. [framed.rs:18-46]. *)
Definition message (k len : nat) : list tok := repeat None len ++ [Some k].

(** A handler: its call, its uses of the store to come ([true]: writing), and whether it holds the
    connection for the first of them. [priv_srv.rs:191-224], [store_sqlite.rs:272-313]. *)
Record handler := Hnd { h_call : nat; h_uses : list bool; h_holds : bool }.

Record fconn := FConn {
  f_reads : bool;              (* the receiving task of the client runs *)
  f_new : list nat;            (* calls that wait to send [inner.rs:61-63] *)
  f_cw : option (list tok);    (* the client's sender: what is to be written [inner.rs:69] *)
  f_up : list tok;             (* the pipe to the server *)
  f_work : list handler;       (* requests that are being handled *)
  f_rdy : list nat;            (* answers that wait to be sent *)
  f_sw : option (list tok);    (* the server's sender *)
  f_down : list tok;           (* the pipe to the client *)
  f_done : list nat            (* calls that got their answer [async_io.rs:69-71] *)
}.

(** [SqlPoolInner] [store_sqlite.rs:45-51]: the free connections. *)
Record flow := Flow { fl_read : nat; fl_write : nat; fl_conns : list fconn }.

(** What can happen [inner.rs:52-78], [async_io.rs:54-83], [priv_srv.rs:185-226]. *)
Inductive fevent :=
| FConnect                     (* a client connects *)
| FIssue (c k : nat)           (* client [c] makes call [k] *)
| FStop (c : nat)              (* client [c] stops reading *)
| FTake (c i : nat)            (* a call gets the client's permit *)
| FWrite (c : nat)             (* the client writes a byte *)
| FRead (c : nat)              (* the server reads a byte *)
| FGrab (c i : nat)            (* a handler gets a connection to the store *)
| FFree (c i : nat)            (* and gives it back *)
| FFinish (c i : nat)          (* a handler has its answer *)
| FSend (c i : nat)            (* it gets the server's permit *)
| FPut (c : nat)               (* the server writes a byte *)
| FGet (c : nat).              (* the client reads a byte *)

(** [priv_srv.rs:191], [READ_CON_COUNT] [store_sqlite.rs:13], [246]. *)
Definition flow_cap : nat := N.to_nat 4096.
Global Arguments flow_cap : simpl never.
(** [READ_CON_COUNT] [store_sqlite.rs:13]. *)
Definition flow_reads : nat := 3.
(** The connection for writing [store_sqlite.rs:246]. *)
Definition flow_writes : nat := 1.

Section Flow.
  Variables cap_up cap_down : nat.                (* what the pipes hold *)
  Variables req_len resp_len : nat -> nat -> nat. (* of each call: bytes before the last *)
  Variable uses : nat -> nat -> list bool.        (* of each call: the uses of the store *)

  (** The requests read and not yet answered [priv_srv.rs:191]. *)
  Definition unfinished (f : fconn) : nat :=
    length (f_work f) + length (f_rdy f) + match f_sw f with Some _ => 1 | None => 0 end.

  (** The permit is given back after the last byte [inner.rs:71-75]. *)
  Definition rest (l : list tok) : option (list tok) := match l with [] => None | _ => Some l end.

  (** Connections of the pool not in use [store_sqlite.rs:272-313]. *)
  Definition free (s : flow) (w : bool) : nat := if w then fl_write s else fl_read s.
  (** They change [store_sqlite.rs:60-76,272-313]. *)
  Definition set_free (s : flow) (w : bool) (n : nat) : flow :=
    if w then Flow (fl_read s) n (fl_conns s) else Flow n (fl_write s) (fl_conns s).
  (** One connection changes [priv_srv.rs:185-226]. *)
  Definition set_conn (s : flow) (c : nat) (f : fconn) : flow :=
    Flow (fl_read s) (fl_write s) (<[c := f]> (fl_conns s)).

  (** What becomes of one connection; [None]: the event cannot happen now.
      [inner.rs:52-78], [async_io.rs:54-83], [priv_srv.rs:185-226]. *)
  Definition conn_step (c : nat) (f : fconn) (e : fevent) : option fconn :=
    let '(FConn rd new cw up work rdy sw down done) := f in
    match e with
    | FIssue _ k => Some (FConn rd (new ++ [k]) cw up work rdy sw down done)
    | FStop _ => Some (FConn false new cw up work rdy sw down done)
    | FTake _ i =>
        match new !! i, cw with
        | Some k, None =>
            Some (FConn rd (delete i new) (Some (message k (req_len c k))) up work rdy sw down done)
        | _, _ => None
        end
    | FWrite _ =>
        match cw with
        | Some (t :: r) =>
            if length up <? cap_up then Some (FConn rd new (rest r) (up ++ [t]) work rdy sw down done) else None
        | _ => None
        end
    | FRead _ =>
        match up with
        | t :: up =>
            if unfinished f <? flow_cap then
              Some (FConn rd new cw up
                (match t with Some k => work ++ [Hnd k (uses c k) false] | None => work end)
                rdy sw down done)
            else None
        | [] => None
        end
    | FGrab _ i =>
        match work !! i with
        | Some (Hnd k (w :: us) false) =>
            Some (FConn rd new cw up (<[i := Hnd k (w :: us) true]> work) rdy sw down done)
        | _ => None
        end
    | FFree _ i =>
        match work !! i with
        | Some (Hnd k (w :: us) true) =>
            Some (FConn rd new cw up (<[i := Hnd k us false]> work) rdy sw down done)
        | _ => None
        end
    | FFinish _ i =>
        match work !! i with
        | Some (Hnd k [] false) => Some (FConn rd new cw up (delete i work) (rdy ++ [k]) sw down done)
        | _ => None
        end
    | FSend _ i =>
        match rdy !! i, sw with
        | Some k, None =>
            Some (FConn rd new cw up work (delete i rdy) (Some (message k (resp_len c k))) down done)
        | _, _ => None
        end
    | FPut _ =>
        match sw with
        | Some (t :: r) =>
            if length down <? cap_down then Some (FConn rd new cw up work rdy (rest r) (down ++ [t]) done) else None
        | _ => None
        end
    | FGet _ =>
        match down with
        | t :: down =>
            if rd then
              Some (FConn rd new cw up work rdy sw down (match t with Some k => done ++ [k] | None => done end))
            else None
        | [] => None
        end
    | FConnect => None
    end.

  (** The connection an event belongs to. [priv_srv.rs:141-236]. *)
  Definition place (e : fevent) : option nat :=
    match e with
    | FConnect => None
    | FIssue c _ | FStop c | FTake c _ | FWrite c | FRead c | FGrab c _ | FFree c _ | FFinish c _
    | FSend c _ | FPut c | FGet c => Some c
    end.

  (** The use of the store a handler is at. [store_sqlite.rs:272-313]. *)
  Definition use_of (f : fconn) (i : nat) : bool :=
    match f_work f !! i with Some (Hnd _ (w :: _) _) => w | _ => false end.

  Definition fstep (s : flow) (e : fevent) : option flow :=
    match place e with
    | None => Some (Flow (fl_read s) (fl_write s) (fl_conns s ++ [FConn true [] None [] [] [] None [] []]))
    | Some c =>
        match fl_conns s !! c with
        | None => None
        | Some f =>
            match conn_step c f e with
            | None => None
            | Some f' =>
                match e with
                | FGrab _ i =>
                    (* [acquire_owned] [276, 303] *)
                    match free s (use_of f i) with
                    | O => None
                    | S n => Some (set_conn (set_free s (use_of f i) n) c f')
                    end
                | FFree _ i => Some (set_conn (set_free s (use_of f i) (S (free s (use_of f i)))) c f')
                | _ => Some (set_conn s c f')
                end
            end
        end
    end.

  (** Any number of events [priv_srv.rs:185-226]. *)
  Fixpoint fruns (s : flow) (es : list fevent) : option flow :=
    match es with
    | [] => Some s
    | e :: es => match fstep s e with Some s => fruns s es | None => None end
    end.

  (** Before the first connection [in_proc_keystore.rs:80]. *)
  Definition finit : flow := Flow flow_reads flow_writes [].
End Flow.
