(** * Accept: how the ipc server takes in connections

    [IpcKeystoreServer::new] [crates/lair_keystore_api/src/ipc_keystore.rs:28-66],
    [ipc_bind] [crates/lair_keystore_api/src/ipc_keystore/raw_ipc.rs:41-76, unix] and the
    handshake part of [priv_srv_accept]
    [crates/lair_keystore_api/src/lair_server/priv_srv.rs:140-234].

    Simplified: a connection is a number; what happens in its handshake and what is
    sent over it are the subject of [Handshake.v] and [Wire.v].  The operating system
    is a queue of connections not yet taken, and a number [files] of connections the
    process can have open at once (its limit of open files less the files it needs
    for other things).  A connection that finds nobody listening is turned away. *)

From Verif Require Import Base.

(** Where each connection stands. *)
Record listener := Lst {
  l_open : bool;          (* the stream of [raw_ipc.rs:64-72] still owns the socket *)
  l_wait : list nat;      (* connected, not yet taken by [accept()], oldest first *)
  l_shake : list nat;     (* inside [srv_hnd.accept(send, recv).await], [ipc_keystore.rs:54] *)
  l_serve : list nat;     (* its requests are read by a task of its own, [priv_srv.rs:185] *)
  l_gone : list nat;      (* closed *)
  l_refused : list nat;   (* turned away *)
  l_taken : list nat      (* every connection [accept()] returned, in that order *)
}.

(** What can happen [ipc_keystore.rs:28-66], [raw_ipc.rs:41-76]. *)
Inductive aevent :=
| AArrive (c : nat)          (* a client connects to the socket *)
| APoll (fail : bool)        (* the loop asks for the next connection; [accept()] may fail *)
| AShake (c : nat) (ok : bool) (* the handshake of [c] ends, well or badly, or [c] hangs up in it *)
| AClose (c : nat).          (* [c] hangs up while being served *)

(** [for_each_concurrent(4096, …)] [ipc_keystore.rs:46]. *)
Definition accept_cap : nat := N.to_nat 4096.
Global Arguments accept_cap : simpl never.

Section Accept.
  Variable files : nat.

  (** [ipc_bind] [raw_ipc.rs:61]. *)
  Definition listener_init : listener := Lst true [] [] [] [] [] [].

  (** The connections that were made so far [raw_ipc.rs:41-76]. *)
  Definition known (s : listener) (c : nat) : bool :=
    bool_decide (c ∈ l_wait s ++ l_shake s ++ l_serve s ++ l_gone s ++ l_refused s).

  (** [accept()] fails [raw_ipc.rs:66]: [try_unfold] yields the error and, having given
      up its state, nothing ever after.  The future that owned the socket is dropped:
      the socket is closed and whoever waits on it is turned away.  The loop logs the
      error and ends [ipc_keystore.rs:48-51,59-61]; nothing binds the socket again. *)
  Definition lose_socket (s : listener) : listener :=
    Lst false [] (l_shake s) (l_serve s) (l_gone s) (l_refused s ++ l_wait s) (l_taken s).

  Definition astep (s : listener) (e : aevent) : listener :=
    match e with
    | AArrive c =>
        if known s c then s
        else if l_open s then
          Lst true (l_wait s ++ [c]) (l_shake s) (l_serve s) (l_gone s) (l_refused s) (l_taken s)
        else
          Lst false (l_wait s) (l_shake s) (l_serve s) (l_gone s) (l_refused s ++ [c]) (l_taken s)
    | APoll fail =>
        (* the loop asks only while fewer than the cap of its futures are unfinished *)
        if l_open s && (length (l_shake s) <? accept_cap) then
          if fail then lose_socket s
          else
            match l_wait s with
            | [] => s
            | c :: q =>
                (* no descriptor left: [EMFILE] *)
                if files <=? length (l_shake s) + length (l_serve s) then lose_socket s
                else
                  Lst true q (l_shake s ++ [c]) (l_serve s) (l_gone s) (l_refused s) (l_taken s ++ [c])
            end
        else s
    | AShake c ok =>
        if bool_decide (c ∈ l_shake s) then
          let rest := List.filter (fun d => negb (d =? c)) (l_shake s) in
          if ok then
            (* [priv_srv.rs:185]: the rest runs in a task of its own *)
            Lst (l_open s) (l_wait s) rest (c :: l_serve s) (l_gone s) (l_refused s) (l_taken s)
          else
            (* logged, both halves dropped [ipc_keystore.rs:54-56] *)
            Lst (l_open s) (l_wait s) rest (l_serve s) (c :: l_gone s) (l_refused s) (l_taken s)
        else s
    | AClose c =>
        if bool_decide (c ∈ l_serve s) then
          Lst (l_open s) (l_wait s) (l_shake s)
            (List.filter (fun d => negb (d =? c)) (l_serve s)) (c :: l_gone s) (l_refused s) (l_taken s)
        else s
    end.

  (** Any number of events [ipc_keystore.rs:28-66]. *)
  Definition arun (evs : list aevent) : listener := fold_left astep evs listener_init.
End Accept.
