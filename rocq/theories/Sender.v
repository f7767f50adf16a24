(** * Sender: many tasks sending on one connection

    [PrivSend] [crates/lair_keystore_api/src/sodium_secretstream/inner.rs:3-107].
    Every task is an async function; between two of its steps any other task may run,
    and its future may be dropped.  An execution is a list of events. *)

From Verif Require Import Base Crypto Types Codec System Wire.

(** [send] [inner.rs:52-78] and [shutdown] [inner.rs:88-107]. *)
Inductive job := JSend (a : api) | JShutdown.

Section Sender.
  Variable C : Crypto.

  (** Where a call stands. [inner.rs:52-107]. *)
  Inductive phase :=
  | PWait (j : job)                                  (* waiting for the permit, line 63 *)
  | PTaken (j : job) (enc : ss_state C)              (* has taken the sender, line 66 *)
  | PWrite (a : api) (enc : ss_state C) (todo : bytes) (* inside [write_all] *)
  | PDone (j : job) (r : res unit)                   (* has returned *)
  | PPanic                                           (* panicked at the [unwrap] of line 66 *)
  | PDropped.                                        (* its future was dropped *)

  (** [PrivSendInner] [inner.rs:4-16]: whether the permit is free, the sender if it
      is in its place; then what the transport took, whether it still takes bytes,
      and the calls. *)
  Record sender := Snd {
    n_permit : bool;
    n_slot : option (ss_state C);
    n_wire : bytes;
    n_dead : bool;
    n_tasks : gmap nat phase
  }.

  (** What can happen to a sender [inner.rs:52-107]. *)
  Inductive sevent :=
  | SvCall (tid : nat) (j : job)
  | SvPoll (tid k : nat) (fail : bool)  (* one step; the transport takes [k] bytes or fails *)
  | SvDrop (tid : nat).

  (** The sender goes back, then the permit [inner.rs:71-75]. *)
  Definition finish (s : sender) (tid : nat) (j : job) (r : res unit) (enc : ss_state C) : sender :=
    Snd true (Some enc) (n_wire s) (n_dead s) (<[tid := PDone j r]> (n_tasks s)).

  (** A call goes on [inner.rs:52-107]. *)
  Definition set_phase (s : sender) (tid : nat) (p : phase) : sender :=
    Snd (n_permit s) (n_slot s) (n_wire s) (n_dead s) (<[tid := p]> (n_tasks s)).

  (** The transport takes no more [inner.rs:88-107]. *)
  Definition set_dead (s : sender) : sender :=
    Snd (n_permit s) (n_slot s) (n_wire s) true (n_tasks s).

  Definition poll (s : sender) (tid k : nat) (fail : bool) : sender :=
    match n_tasks s !! tid with
    | Some (PWait j) =>
        if n_permit s then
          match n_slot s with
          | Some enc => Snd false None (n_wire s) (n_dead s) (<[tid := PTaken j enc]> (n_tasks s))
          | None => set_phase s tid PPanic (* unwinding gives the permit back *)
          end
        else s
    | Some (PTaken (JSend a) enc) =>
        (* [crypt.rs:43-56] *)
        let (c, enc) := ss_push C enc TagMessage (encode_api a) in
        match frame_send c with
        | Err e => finish s tid (JSend a) (Err e) enc
        | Ok b => set_phase s tid (PWrite a enc b)
        end
    | Some (PTaken JShutdown enc) =>
        finish (set_dead s) tid JShutdown (if fail then Err (str "io") else Ok tt) enc
    | Some (PWrite a enc todo) =>
        if n_dead s then finish s tid (JSend a) (Err (str "BrokenPipe")) enc
        else if fail then finish (set_dead s) tid (JSend a) (Err (str "BrokenPipe")) enc
        else
          let s' := Snd (n_permit s) (n_slot s) (n_wire s ++ take k todo) false (n_tasks s) in
          match drop k todo with
          | [] => finish s' tid (JSend a) (Ok tt) enc
          | rest => set_phase s' tid (PWrite a enc rest)
          end
    | _ => s
    end.

  (** A dropped future gives its permit back; the sender it had taken is dropped
      with it. [inner.rs:52-107]. *)
  Definition drop_task (s : sender) (tid : nat) : sender :=
    match n_tasks s !! tid with
    | Some (PWait _) => set_phase s tid PDropped
    | Some (PTaken _ _) | Some (PWrite _ _ _) =>
        Snd true (n_slot s) (n_wire s) (n_dead s) (<[tid := PDropped]> (n_tasks s))
    | _ => s
    end.

  (** [inner.rs:52-107]. *)
  Definition sstep (s : sender) (e : sevent) : sender :=
    match e with
    | SvCall tid j =>
        match n_tasks s !! tid with
        | None => set_phase s tid (PWait j)
        | Some _ => s
        end
    | SvPoll tid k fail => poll s tid k fail
    | SvDrop tid => drop_task s tid
    end.

  (** [PrivSend::new] [inner.rs:31-45]. *)
  Definition sender_init (enc : ss_state C) : sender := Snd true (Some enc) [] false ∅.

  (** From [PrivSend::new] on [inner.rs:31-45]. *)
  Definition srun (enc : ss_state C) (evs : list sevent) : sender :=
    fold_left sstep evs (sender_init enc).
End Sender.

Arguments PWait {C} j.
Arguments PTaken {C} j enc.
Arguments PWrite {C} a enc todo.
Arguments PDone {C} j r.
Arguments PPanic {C}.
Arguments PDropped {C}.
Arguments n_permit {C} s.
Arguments n_slot {C} s.
Arguments n_wire {C} s.
Arguments n_dead {C} s.
Arguments n_tasks {C} s.
