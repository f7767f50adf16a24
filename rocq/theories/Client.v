(** * Client: calls of a client over one connection

    [new_async_io_lair_client] and [Cli::request] [lair_client/async_io.rs:6-160], and
    [priv_lair_api_request] [lair_client.rs:45-68].  Calls are tasks that may run in any order,
    be dropped by their caller, or run out of time; the receiving task may end (after the peer
    closed or sent what cannot be read) or panic.

    Simplified: of the sender (modelled in [Sender]) is kept whether it was shut down: sending that
    begins after that fails, sending that began before may end either way.  Time is an event that
    may happen at any moment. *)

From Verif Require Import Base Types.

(** The one-shot channel of a call, from the receiver's side. [async_io.rs:120]. *)
Inductive mail :=
| MEmpty
| MGot (n : nat) (m : api)     (* the [n]-th message received *)
| MLost.                       (* the sending side was dropped *)

Inductive outcome :=
| Answer (n : nat) (m : api)
| Aborted                      (* [ConnectionAborted], [154-156] *)
| TimedOut                     (* [150-153] *)
| NotSent                      (* an error of sending, [145] *)
| Abandoned.                   (* the caller dropped the future *)

Inductive cstate :=
| CSend                        (* registered, to begin sending, [136-145] *)
| CSending                     (* inside [send], [145] *)
| CWait                        (* waits for the answer, [148-156] *)
| CEnd (o : outcome).

(** A call of [Cli::request] [async_io.rs:116-160]. *)
Record call := Call { c_req : api; c_st : cstate; c_mail : mail }.

(** The receiving task [54-83]. *)
Inductive rstate :=
| RRun                         (* in the loop, [58-73] *)
| RShut                        (* shuts down the sender, [75] *)
| RClear                       (* to clear the pending calls, [80] *)
| REnded
| RPanicked.

Record client := Client {
  k_pending : gmap bytes nat;  (* [CliInner::pending] [94] *)
  k_calls : list call;
  k_recv : rstate;
  k_closed : bool;             (* the sender was shut down *)
  k_seen : nat                 (* messages received *)
}.

Inductive cevent :=
| NewCall (req : api)          (* [request] is called, [115-139] *)
| Begin (k : nat)              (* its future gets to send *)
| Sent (k : nat) (ok : bool)   (* sending ends *)
| Incoming (m : api)           (* a message is received, [59-71] *)
| Poll (k : nat)               (* it looks for its answer, [148] *)
| Timeout (k : nat)            (* 30 seconds after it began to wait *)
| Abandon (k : nat)            (* its future is dropped *)
| RecvEnd                      (* the connection gives no more messages *)
| Shutdown                     (* the shutdown, by the receiving task, ends, [75] *)
| Clear                        (* [80] *)
| UserShutdown                 (* [LairClient::shutdown] [110-113] *)
| RecvPanic.                   (* the receiving task panics *)

(** A call goes on [async_io.rs:116-160]. *)
Definition set_call (w : client) (k : nat) (c : call) : client :=
  Client (k_pending w) (<[k := c]> (k_calls w)) (k_recv w) (k_closed w) (k_seen w).
(** [CliInner::pending] [async_io.rs:97]. *)
Definition set_pending (w : client) (p : gmap bytes nat) : client :=
  Client p (k_calls w) (k_recv w) (k_closed w) (k_seen w).

(** The sending side of [k]'s channel is dropped. [async_io.rs:72,83,129,137]. *)
Definition lose (w : client) (k : nat) : client :=
  match k_calls w !! k with
  | Some (Call req st MEmpty) => set_call w k (Call req st MLost)
  | _ => w
  end.

(** [HashMap::insert] and [remove] on the pending calls: the sender that comes out is dropped.
    [async_io.rs:129,137]. *)
Definition unregister (w : client) (id : bytes) : client :=
  match k_pending w !! id with
  | Some k => lose (set_pending w (delete id (k_pending w))) k
  | None => w
  end.
(** [async_io.rs:137]. *)
Definition register (w : client) (id : bytes) (k : nat) : client :=
  let w := unregister w id in set_pending w (<[id := k]> (k_pending w)).

(** The future ends: [Clean] is dropped [124-130]. *)
Definition finish (w : client) (k : nat) (o : outcome) : client :=
  match k_calls w !! k with
  | Some (Call req _ ml) => unregister (set_call w k (Call req (CEnd o) ml)) (msg_id req)
  | None => w
  end.

(** The receiving task goes on [async_io.rs:54-85]. *)
Definition set_recv (w : client) (r : rstate) (closed : bool) : client :=
  Client (k_pending w) (k_calls w) r closed (k_seen w).

(** [pending.clear()] [async_io.rs:83]. *)
Definition lost_mail (c : call) : call :=
  match c_mail c with MEmpty => Call (c_req c) (c_st c) MLost | _ => c end.

(** [pending.clear()] [80] *)
Definition clear (w : client) : client :=
  Client ∅ (imap (fun k c => if bool_decide (k_pending w !! msg_id (c_req c) = Some k) then lost_mail c else c)
    (k_calls w)) (k_recv w) (k_closed w) (k_seen w).

(** [async_io.rs:54-85,111-160], [lair_client.rs:45-68]. *)
Definition cstep (w : client) (e : cevent) : client :=
  match e with
  | NewCall req =>
      let k := length (k_calls w) in
      register (Client (k_pending w) (k_calls w ++ [Call req CSend MEmpty]) (k_recv w) (k_closed w) (k_seen w))
        (msg_id req) k
  | Begin k =>
      match k_calls w !! k with
      | Some (Call req CSend ml) =>
          if k_closed w then finish w k NotSent else set_call w k (Call req CSending ml)
      | _ => w
      end
  | Sent k ok =>
      match k_calls w !! k with
      | Some (Call req CSending ml) => if ok then set_call w k (Call req CWait ml) else finish w k NotSent
      | _ => w
      end
  | Incoming m =>
      let w' := Client (k_pending w) (k_calls w) (k_recv w) (k_closed w) (S (k_seen w)) in
      match k_recv w, k_pending w !! msg_id m with
      | RRun, Some k =>
          let w' := set_pending w' (delete (msg_id m) (k_pending w)) in
          match k_calls w !! k with
          | Some (Call req st MEmpty) => set_call w' k (Call req st (MGot (k_seen w) m))
          | _ => w'
          end
      | _, _ => w'
      end
  | Poll k =>
      match k_calls w !! k with
      | Some (Call req CWait (MGot n m)) => finish w k (Answer n m)
      | Some (Call req CWait MLost) => finish w k Aborted
      | _ => w
      end
  | Timeout k =>
      match k_calls w !! k with
      | Some (Call req CWait (MGot n m)) => finish w k (Answer n m)
      | Some (Call req CWait MLost) => finish w k Aborted
      | Some (Call req CWait MEmpty) => finish w k TimedOut
      | _ => w
      end
  | Abandon k =>
      match k_calls w !! k with
      | Some (Call _ (CEnd _) _) | None => w
      | Some _ => finish w k Abandoned
      end
  | RecvEnd => match k_recv w with RRun => set_recv w RShut (k_closed w) | _ => w end
  | Shutdown => match k_recv w with RShut => set_recv w RClear true | _ => w end
  | Clear => match k_recv w with RClear => clear (set_recv w REnded (k_closed w)) | _ => w end
  | UserShutdown => set_recv w (k_recv w) true
  | RecvPanic => match k_recv w with RRun | RShut => set_recv w RPanicked (k_closed w) | _ => w end
  end.

(** [async_io.rs:44-87]. *)
Definition new_client : client := Client ∅ [] RRun false 0.
(** From there [async_io.rs:44-87] on. *)
Definition crun (w : client) (evs : list cevent) : client := fold_left cstep evs w.

(** [AsLairRequest::Response] [lair_api.rs:25-28], given for each request in [lair_api/*.rs]. *)
Definition answers (req res : api) : bool :=
  match req, res with
  | ReqHello _, ResHello _ _ _ _ | ReqUnlock _ _, ResUnlock _ | ReqGetEntry _ _, ResGetEntry _ _
  | ReqListEntries _, ResListEntries _ _ | ReqNewSeed _ _ _ _, ResNewSeed _ _ _
  | ReqExportSeed _ _ _ _ _, ResExportSeed _ _ _ | ReqImportSeed _ _ _ _ _ _ _ _, ResImportSeed _ _ _
  | ReqDeriveSeed _ _ _ _ _ _, ResDeriveSeed _ _ | ReqSign _ _ _ _, ResSign _ _
  | ReqBox _ _ _ _ _, ResBox _ _ _ | ReqBoxOpen _ _ _ _ _ _, ResBoxOpen _ _
  | ReqBoxSign _ _ _ _ _, ResBoxSign _ _ _ | ReqBoxSignOpen _ _ _ _ _ _, ResBoxSignOpen _ _
  | ReqNewCert _ _, ResNewCert _ _ _ | ReqCertKey _ _, ResCertKey _ _
  | ReqSecretBox _ _ _ _, ResSecretBox _ _ _ | ReqSecretBoxOpen _ _ _ _ _, ResSecretBoxOpen _ _ => true
  | _, _ => false
  end.

(** [priv_lair_api_request] [lair_client.rs:56-66] *)
Definition result_of (req : api) (o : outcome) : res api :=
  match o with
  | Answer _ (ResError _ e) => Err e
  | Answer _ m => if answers req m then Ok m else Err (str "unexpected response type")
  | Aborted => Err (str "ConnectionAborted")
  | TimedOut => Err (str "TimedOut")
  | NotSent => Err (str "io")
  | Abandoned => Err (str "no one asks")
  end.
