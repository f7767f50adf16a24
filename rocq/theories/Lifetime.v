(** * Lifetime: what keeps a connection open and what ends it

    A connection of the client [lair_client/async_io.rs] with the server [lair_server/priv_srv.rs:141-231]:
    who holds its two ends, and what makes whom let go.  Contents are the subject of [Net.v] and [Server.v].

    - the client's end is held by its receiving task [async_io.rs:54-85], which owns the reading half and
      holds the sender, and by every handle [async_io.rs:87,100] and every call in progress [133-144];
    - the server's end is held by the one task of the connection [priv_srv.rs:185-231], in which the handlers
      of its requests run too.

    Simplified: sending a message is one step (see [Sender.v], [Flow.v]); a message that is sent after the
    reader of the other side stopped is lost.  This is so for a unix socket [ipc_keystore/raw_ipc.rs:13-76] and for the pair of
    pipes of [in_proc_keystore.rs:80-84]: the reader finds the end of the stream when the writer shut down
    or let go, after what was sent before. *)

From Verif Require Import Base.

(** A task: in its loop; after its loop, when it has only to shut down; over.
    [async_io.rs:54-85], [priv_srv.rs:185-231]. *)
Inductive task := Reading | Ending | Gone.

(** Who holds a connection [async_io.rs:44-100], [priv_srv.rs:185-231]. *)
Record life := Life {
  l_handles : nat;      (* handles of the client and calls in progress *)
  l_ctask : task;       (* the client's receiving task *)
  l_cshut : bool;       (* the client's sender is shut down *)
  l_up : nat;           (* messages to the server under way *)
  l_stask : task;       (* the server's task for the connection *)
  l_work : nat;         (* requests that are handled in it *)
  l_sshut : bool;       (* the server's sender is shut down *)
  l_down : nat          (* messages to the client under way *)
}.

Inductive levent :=
| LClone             (* a handle is cloned, or a call begins *)
| LDrop              (* a handle is dropped, or a call is over *)
| LCall              (* a call sends its request *)
| LShutdown          (* the client's shutdown function [async_io.rs:111-114] *)
| LServe             (* the server reads a request *)
| LServeBad          (* the server reads what is no request [priv_srv.rs:192-198] *)
| LServePanic        (* the server's task panics over what it reads *)
| LServeEnd          (* the server finds the end of the stream *)
| LAnswer            (* a handler sends its answer *)
| LServerLeaves      (* the server's task shuts down and is over [priv_srv.rs:227-231] *)
| LGet               (* the client reads an answer *)
| LGetBad            (* the client reads what is no answer [async_io.rs:62-66] *)
| LGetPanic          (* the client's task panics over what it reads *)
| LGetEnd            (* the client finds the end of the stream *)
| LClientLeaves      (* the client's task shuts down and is over [async_io.rs:78-84] *)
| LKillClient        (* the process of the client ends *)
| LKillServer.       (* the process of the server ends *)

(** [None]: this cannot happen now. [async_io.rs:54-160], [priv_srv.rs:185-231]. *)
Definition lstep (l : life) (e : levent) : option life :=
  let '(Life h ct cs up st wk ss dn) := l in
  match e with
  | LClone => if 0 <? h then Some (Life (S h) ct cs up st wk ss dn) else None
  | LDrop =>                (* the last holder closes *)
      match h, ct with
      | O, _ => None
      | 1, Gone => Some (Life 0 Gone true up st wk ss dn)
      | S h, _ => Some (Life h ct cs up st wk ss dn)
      end
  | LCall =>
      if (0 <? h) && negb cs
      then Some (Life h ct cs (match st with Reading => S up | _ => up end) st wk ss dn) else None
  | LShutdown => if 0 <? h then Some (Life h ct true up st wk ss dn) else None
  | LServe =>
      match st, up with
      | Reading, S up => Some (Life h ct cs up Reading (S wk) ss dn)
      | _, _ => None
      end
  | LServeBad =>
      match st, up with
      | Reading, S up => Some (Life h ct cs up Ending wk ss dn)
      | _, _ => None
      end
  | LServePanic =>          (* the task is dropped and with it all it owns *)
      match st, up with
      | Reading, S up => Some (Life h ct cs up Gone 0 true dn)
      | _, _ => None
      end
  | LServeEnd =>
      match st, up, cs with
      | Reading, O, true => Some (Life h ct cs 0 Ending wk ss dn)
      | _, _, _ => None
      end
  | LAnswer =>              (* not read by anybody: into the buffer of the socket, or refused *)
      match wk with
      | S wk => Some (Life h ct cs up st wk ss (match ct with Reading => S dn | _ => dn end))
      | O => None
      end
  | LServerLeaves =>        (* [for_each_concurrent] is over when the handlers are *)
      match st, wk with
      | Ending, O => Some (Life h ct cs up Gone 0 true dn)
      | _, _ => None
      end
  | LGet =>
      match ct, dn with
      | Reading, S dn => Some (Life h Reading cs up st wk ss dn)
      | _, _ => None
      end
  | LGetBad =>
      match ct, dn with
      | Reading, S dn => Some (Life h Ending cs up st wk ss dn)
      | _, _ => None
      end
  | LGetPanic =>            (* without shutting down: the handles still hold the sender *)
      match ct, dn with
      | Reading, S dn => Some (Life h Gone (cs || (h =? 0)) up st wk ss dn)
      | _, _ => None
      end
  | LGetEnd =>
      match ct, dn, ss with
      | Reading, O, true => Some (Life h Ending cs up st wk ss 0)
      | _, _, _ => None
      end
  | LClientLeaves =>
      match ct with
      | Ending => Some (Life h Gone true up st wk ss dn)
      | _ => None
      end
  | LKillClient => Some (Life 0 Gone true up st wk ss dn)
  | LKillServer => Some (Life h ct cs up Gone 0 true dn)
  end.

(** Both sides have agreed on keys [async_io.rs:6-88]: the client has one handle. *)
Definition lnew : life := Life 1 Reading false 0 Reading 0 false 0.

(** Any number of events [async_io.rs:54-160]. *)
Fixpoint lruns (l : life) (es : list levent) : option life :=
  match es with
  | [] => Some l
  | e :: es => match lstep l e with Some l => lruns l es | None => None end
  end.

(** What happens without anybody's doing, sooner or later.  An answer can be sent while the client reads;
    when the client has let go, sending fails at once; in between the buffer may be full.
    [async_io.rs:54-85], [priv_srv.rs:185-231]. *)
Definition due (l : life) (e : levent) : bool :=
  match lstep l e with
  | None => false
  | Some _ =>
      match e with
      | LServe | LServeEnd | LServerLeaves | LGet | LGetEnd | LClientLeaves => true
      | LAnswer => match l_ctask l with Reading => true | Gone => l_handles l =? 0 | Ending => false end
      | _ => false
      end
  end.
