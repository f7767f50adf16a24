(** * Wire: frames and encrypted messages on a byte stream

    [crates/lair_keystore_api/src/sodium_secretstream/framed.rs], [crypt.rs] and the
    receiving half of [inner.rs]. *)

From Verif Require Import Base Crypto Types Codec System.

(** ** Reading from the transport *)

(** [AsyncReadExt::read_exact] (tokio 1.41.1).  The transport delivers its bytes in
    pieces, one list element for each [poll_read] that returns data; a piece that is
    longer than the rest of the buffer is delivered in part.  The end of the list is
    the end of the stream ([UnexpectedEof], here [None]). Called at [framed.rs:57-85]. *)
Fixpoint read_exact (n : nat) (cs : list bytes) : option (bytes * list bytes) :=
  match n with
  | O => Some ([], cs)
  | S _ =>
      match cs with
      | [] => None
      | c :: cs' =>
          if Nat.leb (length c) n then
            match read_exact (n - length c) cs' with
            | Some (d, r) => Some (c ++ d, r)
            | None => None
            end
          else Some (take n c, drop n c :: cs')
      end
  end.

(** ** Frames *)

(** [PrivFramedSend::send] [framed.rs:18-38]: the bytes handed to the transport. *)
Definition frame_send (d : bytes) : res bytes :=
  if N.ltb MAX_FRAME (N.of_nat (length d)) then Err (str "FrameOverflow")
  else Ok (le_bytes 2 (N.of_nat (length d)) ++ d).

(** One turn of a receiving stream: an item and the rest, an error, a panic.
    [crypt.rs:74-92], [framed.rs:53-90]. *)
Inductive turn (A St : Type) :=
| Got (a : A) (s : St)
| Stop (e : bytes)
| Panic.
Arguments Got {A St} a s.
Arguments Stop {A St} e.
Arguments Panic {A St}.

(** [read_exact]'s error at the end of the input [framed.rs:57-85]. *)
Definition eof : bytes := str "UnexpectedEof".

(** [PrivFramedRecv::new] [framed.rs:53-90]. *)
Definition frame_recv (cs : list bytes) : turn bytes (list bytes) :=
  match read_exact 2 cs with
  | None => Stop eof
  | Some (l, cs) =>
      if N.ltb MAX_FRAME (le_val l) then Stop (str "FrameOverflow")
      else match read_exact (N.to_nat (le_val l)) cs with
           | None => Stop eof
           | Some (d, cs) => Got d cs
           end
  end.

(** What a stream delivers and how it ends.  [futures::stream::try_unfold] ends after
    the first error.  [Pending] means that the bound on the number of items was
    reached. Called at [framed.rs:53-90], [crypt.rs:74-92], [inner.rs:118-130]. *)
Inductive ending := Ended (e : bytes) | Panicked | Pending.

(** [futures::stream::try_unfold], called at [framed.rs:53-90], [crypt.rs:74-92]. *)
Fixpoint try_unfold {A St} (f : St -> turn A St) (n : nat) (s : St) : list A * ending :=
  match n with
  | O => ([], Pending)
  | S n =>
      match f s with
      | Got a s => let (l, e) := try_unfold f n s in (a :: l, e)
      | Stop e => ([], Ended e)
      | Panic => ([], Panicked)
      end
  end.

(** No stream of frames has more items than bytes. For the definition of [frames] [framed.rs:53-90]. *)
Definition budget (cs : list bytes) : nat := S (length (concat cs)).

(** All of a stream of frames [framed.rs:53-90]. *)
Definition frames (cs : list bytes) : list bytes * ending := try_unfold frame_recv (budget cs) cs.

Section Wire.
  Variable C : Crypto.

  (** ** Encrypted messages *)

  (** [PrivCryptRecv::new] [crypt.rs:72-93].  [cipher.len() - sss::ABYTES] (line 84)
      overflows for a frame shorter than 17 bytes: a panic in a debug build, and in a
      release build the huge length makes the allocation panic. *)
  Definition crypt_recv (s : ss_state C * list bytes) : turn bytes (ss_state C * list bytes) :=
    let (dec, cs) := s in
    match frame_recv cs with
    | Stop e => Stop e
    | Panic => Panic
    | Got c cs =>
        if Nat.ltb (length c) ABYTES then Panic
        else match ss_pull C dec c with
             | Some (_, m, dec) => Got m (dec, cs)
             | None => Stop (str "InternalSodium")
             end
    end.

  (** [PrivRecv::new] [inner.rs:118-131] for API messages. *)
  Definition api_recv (s : ss_state C * list bytes) : turn api (ss_state C * list bytes) :=
    match crypt_recv s with
    | Stop e => Stop e
    | Panic => Panic
    | Got m s =>
        match decode_api m with
        | Ok a => Got a s
        | Err e => Stop e
        end
    end.

  (** All of a stream of messages [inner.rs:118-130]. *)
  Definition messages (dec : ss_state C) (cs : list bytes) : list api * ending :=
    try_unfold api_recv (budget cs) (dec, cs).

  (** The sending half of a connection.  [t_wire] is all that the transport has taken;
      [t_dead] says that a write failed, or the connection was shut down, after which the
      transport takes nothing more. [crypt.rs:15-59], [framed.rs:18-46]. *)
  Record tx := Tx { t_enc : ss_state C; t_wire : bytes; t_dead : bool }.

  (** The transport's part: it takes everything, or fails after some bytes
      (fewer than all, otherwise [write_all] succeeds). [framed.rs:18-46]. *)
  Definition transport := option nat.

  (** [AsyncWriteExt::write_all], called at [framed.rs:18-46]. *)
  Definition write_all (t : tx) (b : bytes) (o : transport) : res unit * tx :=
    if t_dead t then (Err (str "BrokenPipe"), t)
    else match o with
         | None => (Ok tt, Tx (t_enc t) (t_wire t ++ b) false)
         | Some k => (Err (str "BrokenPipe"), Tx (t_enc t) (t_wire t ++ take (Nat.min k (length b - 1)) b) true)
         end.

  (** [PrivCryptSend::send] [crypt.rs:31-59]: the message is encrypted, which advances
      the state of the stream, before its length is checked [framed.rs:23]. *)
  Definition crypt_send (t : tx) (m : bytes) (o : transport) : res unit * tx :=
    let (c, enc) := ss_push C (t_enc t) TagMessage m in
    match frame_send c with
    | Err e => (Err e, Tx enc (t_wire t) (t_dead t))
    | Ok b => write_all (Tx enc (t_wire t) (t_dead t)) b o
    end.

  (** [PrivSend::send] [inner.rs:52-78], by a single task. *)
  Definition api_send (t : tx) (a : api) (o : transport) : res unit * tx :=
    crypt_send t (encode_api a) o.

  (** Several sends one after the other: what the callers learned, the end state. [inner.rs:52-78]. *)
  Fixpoint send_all (t : tx) (l : list (api * transport)) : list (res unit) * tx :=
    match l with
    | [] => ([], t)
    | (a, o) :: l =>
        let (r, t) := api_send t a o in
        let (rs, t) := send_all t l in (r :: rs, t)
    end.
End Wire.

Arguments Tx {C} t_enc t_wire t_dead.
Arguments t_enc {C} t.
Arguments t_wire {C} t.
Arguments t_dead {C} t.
