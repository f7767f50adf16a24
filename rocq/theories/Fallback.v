(** * Fallback: the fallback signer

    [FallbackCmd] [lair_server.rs:101-378]: sign requests of all connections are handed to one
    external program, over its standard input, and its answers read from its standard output.
    Requests, the two tasks that serve a program, and programs run in any order; a program may
    print anything, not read, close its pipes or exit at any time.

    Simplified: a line printed is what [serde_json] makes of it [275-293]; the ids of programs
    [147] are their numbers, so they are distinct; whether a program can be found and started
    [157-185] is an argument of the event.  A pipe is closed when no process holds it any more.
    A run of the code between two awaits, or between two uses of a lock, is one event. *)

From Verif Require Import Base Base64.

(** [LairApiReqSignByPubKey], without the passphrase, which is not used. [sign_by_pub_key.rs:6-19]. *)
Record sign_req := SignReq { s_id : bytes; s_pk : bytes; s_data : bytes }.

(** A line of the program's output: [Res] [279-285], or not one. *)
Inductive line :=
| Garbage
| Reply (id : bytes) (signature error : option bytes).

(** Where an answer comes from: a line (of which program, which of its lines), or these tasks.
    [lair_server.rs:101-378]. *)
Definition source := option (nat * nat).

(** The one-shot channel of a call [366]. *)
Inductive fmail :=
| NoMail
| Told (src : source) (r : res bytes)
| Lost.

Inductive fout :=
| Answered (src : source) (r : res bytes)
| NoTask                       (* ["no fallback cmd task"] [367-371] *)
| NoSigner                     (* no program could be started [157-185] *)
| Dropped.                     (* the caller is gone *)

Inductive fstate :=
| FStart                       (* to get the sender, [365] *)
| FSend (g : nat)              (* has that of program [g], sends to its channel, [367] *)
| FWait (g : nat)              (* waits for the answer, [370] *)
| FEnd (o : fout).

(** A call of [sign_by_pub_key] [lair_server.rs:361-378]. *)
Record fcall := FCall { fc_req : sign_req; fc_st : fstate; fc_mail : fmail }.

(** The writing task [220-271]. *)
Inductive wstate :=
| WIdle                        (* waits for a request, [221] *)
| WWrite (k : nat)             (* writes that of call [k], [246-248] *)
| WExit                        (* out of the loop, [260-270] *)
| WDrop                        (* about to end and drop the channel *)
| WDone.

(** The reading task [274-355]. *)
Inductive lstate :=
| LRun                         (* in the loop, [278] *)
| LExit                        (* to forget the program, [334-345] *)
| LDrain                       (* to answer those who wait, [347-353] *)
| LDone.

Record program := Program {
  g_alive : bool;              (* [try_wait] says it runs, [139] *)
  g_killed : bool;             (* it was forgotten, and with that killed [kill_on_drop] [175] *)
  g_in : bool;                 (* its standard input is open *)
  g_out : bool;                (* its standard output is open *)
  g_lines : list line;         (* all it printed *)
  g_nread : nat;               (* how many of these lines were read *)
  g_queue : list nat;          (* calls in the channel [150-155] *)
  g_pending : gmap bytes nat;  (* [Pending] [199-214] *)
  g_running : bool;
  g_write : wstate;
  g_read : lstate;
  g_put : list nat             (* ghost: calls whose requests were taken to be written *)
}.

Record fworld := FWorld {
  f_cur : option nat;          (* [FallbackCmd::inner] [116] *)
  f_programs : list program;
  f_calls : list fcall
}.

Definition CHANNEL : N := 4096.                                      (* [155] *)

(** A program just started [lair_server.rs:147-214]. *)
Definition new_program : program :=
  Program true false true true [] 0 [] ∅ true WIdle LRun [].

(** A part of the state is changed [lair_server.rs:101-378]. *)
Definition set_g (w : fworld) (g : nat) (p : program) : fworld :=
  FWorld (f_cur w) (<[g := p]> (f_programs w)) (f_calls w).
(** A part of the state is changed [lair_server.rs:101-378]. *)
Definition set_calls (w : fworld) (cs : list fcall) : fworld := FWorld (f_cur w) (f_programs w) cs.
(** A part of the state is changed [lair_server.rs:101-378]. *)
Definition set_c (w : fworld) (k : nat) (c : fcall) : fworld := set_calls w (<[k := c]> (f_calls w)).

(** Sending over a one-shot channel, or dropping its sender. [lair_server.rs:296-329,361-378]. *)
Definition mail_to (m : fmail) (c : fcall) : fcall :=
  match fc_mail c with NoMail => FCall (fc_req c) (fc_st c) m | _ => c end.
(** As [mail_to], to call [k] [lair_server.rs:296-329]. *)
Definition tell (w : fworld) (k : nat) (m : fmail) : fworld :=
  set_calls w (alter (mail_to m) k (f_calls w)).
(** As [tell], if there is one [lair_server.rs:296-329]. *)
Definition tell_opt (w : fworld) (k : option nat) (m : fmail) : fworld :=
  match k with Some k => tell w k m | None => w end.
(** As [tell], to those calls that [P] picks [lair_server.rs:335-356]. *)
Definition tell_if (w : fworld) (P : nat -> fcall -> bool) (m : fmail) : fworld :=
  set_calls w (imap (fun k c => if P k c then mail_to m c else c) (f_calls w)).

(** The call ends with its future. [lair_server.rs:361-378]. *)
Definition fend (w : fworld) (k : nat) (o : fout) : fworld :=
  set_calls w (alter (fun c => FCall (fc_req c) (FEnd o) (fc_mail c)) k (f_calls w)).

(** Forget program [g], if it is the one known [260-270], [336-345]. *)
Definition forget (w : fworld) (g : nat) : fworld :=
  if bool_decide (f_cur w = Some g) then
    FWorld None (alter (fun p => Program (g_alive p) true (g_in p) (g_out p) (g_lines p) (g_nread p)
      (g_queue p) (g_pending p) (g_running p) (g_write p) (g_read p) (g_put p)) g (f_programs w)) (f_calls w)
  else w.

(** A part of the state is changed [lair_server.rs:101-378]. *)
Definition with_write (p : program) (s : wstate) : program :=
  Program (g_alive p) (g_killed p) (g_in p) (g_out p) (g_lines p) (g_nread p)
    (g_queue p) (g_pending p) (g_running p) s (g_read p) (g_put p).
(** A part of the state is changed [lair_server.rs:101-378]. *)
Definition with_queue (p : program) (q : list nat) : program :=
  Program (g_alive p) (g_killed p) (g_in p) (g_out p) (g_lines p) (g_nread p)
    q (g_pending p) (g_running p) (g_write p) (g_read p) (g_put p).
(** A part of the state is changed [lair_server.rs:101-378]. *)
Definition with_pending (p : program) (m : gmap bytes nat) (put : list nat) : program :=
  Program (g_alive p) (g_killed p) (g_in p) (g_out p) (g_lines p) (g_nread p)
    (g_queue p) m (g_running p) (g_write p) (g_read p) put.
(** A part of the state is changed [lair_server.rs:101-378]. *)
Definition with_read (p : program) (n : nat) (s : lstate) (running : bool) : program :=
  Program (g_alive p) (g_killed p) (g_in p) (g_out p) (g_lines p) n
    (g_queue p) (g_pending p) running (g_write p) s (g_put p).
(** A part of the state is changed [lair_server.rs:101-378]. *)
Definition with_pipes (p : program) (alive i o : bool) (ls : list line) : program :=
  Program alive (g_killed p) i o ls (g_nread p)
    (g_queue p) (g_pending p) (g_running p) (g_write p) (g_read p) (g_put p).

Inductive fevent :=
(* these run by themselves *)
| Get (k : nat) (can : bool)   (* [check_get_sub_process_sender]; can a program be started? *)
| Push (k : nat)               (* [send.send] ends *)
| Take (g : nat)               (* the writing task gets a request, or learns there will be none *)
| WFail (g : nat)              (* writing fails, [248-258] *)
| WForget (g : nat)
| WEnd (g : nat)
| Read (g : nat)               (* the reading task gets a line, or the end *)
| LForget (g : nat)
| Drain (g : nat)
| Poll (k : nat)               (* the call gets its answer *)
(* these come from outside *)
| Call (r : sign_req)
| Drop (k : nat)               (* its future is dropped *)
| WOk (g : nat)                (* the program (or its pipe) took what is being written *)
| Print (g : nat) (l : line)
| CloseIn (g : nat)
| CloseOut (g : nat)
| Die (g : nat).               (* the process ends *)

(** Does someone hold a sender of [g]'s channel?  [FallbackCmdInner], and calls until they end.
    [lair_server.rs:101-130,361-378]. *)
Definition holds (g : nat) (c : fcall) : bool :=
  match fc_st c with FSend h | FWait h => Nat.eqb g h | _ => false end.
(** The writing task ends when nobody has [lair_server.rs:207-260]. *)
Definition has_senders (w : fworld) (g : nat) : bool :=
  bool_decide (f_cur w = Some g) || existsb (holds g) (f_calls w).

(** [284-329]: what the reading task does with line number [n] of program [g]; the second
    component says whether it goes on reading. *)
Definition verdict (l : line) : option (bytes * option (res bytes)) * bool :=
  match l with
  | Garbage => (None, false)
  | Reply id _ (Some e) => (Some (id, Some (Err e)), true)
  | Reply id (Some s) None =>
      match from_b64std s with
      | Err e => (Some (id, Some (Err (str "signature_fallback read error: " ++ e))), false)
      | Ok sig =>
          if Nat.eqb (length sig) 64 then (Some (id, Some (Ok sig)), true)
          else (Some (id, Some (Err (str "signature_fallback read error: invalid signature size"))), false)
      end
  | Reply id None None => (Some (id, None), true)
  end.

(** A line for an id nobody waits for is passed over [297-298], even if its signature is bad. *)
Definition read_line (w : fworld) (g : nat) (p : program) (n : nat) (l : line) : fworld :=
  match verdict l with
  | (None, _) => set_g w g (with_read p (S n) LExit (g_running p))
  | (Some (id, r), more) =>
      match g_pending p !! id with
      | None => set_g w g (with_read p (S n) LRun (g_running p))
      | Some k =>
          tell (set_g w g (with_read (with_pending p (delete id (g_pending p)) (g_put p)) (S n)
              (if more then LRun else LExit) (g_running p)))
            k (match r with Some r => Told (Some (g, n)) r | None => Lost end)
      end
  end.

(** [lair_server.rs:136-378]. *)
Definition fstep (w : fworld) (e : fevent) : option fworld :=
  match e with
  | Get k can =>
      match f_calls w !! k with
      | Some (FCall r FStart m) =>
          let spawn :=
            if can then
              let g := length (f_programs w) in
              let w := match f_cur w with Some h => forget w h | None => w end in
              set_c (FWorld (Some g) (f_programs w ++ [new_program]) (f_calls w)) k (FCall r (FSend g) m)
            else fend w k NoSigner in
          match f_cur w with
          | Some h =>
              match f_programs w !! h with
              | Some p => if g_alive p then Some (set_c w k (FCall r (FSend h) m)) else Some spawn
              | None => Some spawn
              end
          | None => Some spawn
          end
      | _ => None
      end
  | Push k =>
      match f_calls w !! k with
      | Some (FCall r (FSend g) m) =>
          match f_programs w !! g with
          | Some p =>
              match g_write p with
              | WDone => Some (fend w k NoTask)
              | _ => if (N.of_nat (length (g_queue p)) <? CHANNEL)%N
                     then Some (set_c (set_g w g (with_queue p (g_queue p ++ [k]))) k (FCall r (FWait g) m))
                     else None
              end
          | None => None
          end
      | _ => None
      end
  | Take g =>
      match f_programs w !! g with
      | Some p =>
          match g_write p, g_queue p with
          | WIdle, k :: q =>
              match f_calls w !! k with
              | Some c =>
                  if g_running p then
                    let id := s_id (fc_req c) in
                    let p' := with_pending (with_write (with_queue p q) (WWrite k))
                      (<[id := k]> (g_pending p)) (g_put p ++ [k]) in
                    Some (tell_opt (set_g w g p') (g_pending p !! id) Lost)
                  else Some (tell (set_g w g (with_write (with_queue p q) WExit)) k
                         (Told None (Err (str "signature fallback process closed"))))
              | None => None
              end
          | WIdle, [] => if has_senders w g then None else Some (set_g w g (with_write p WExit))
          | _, _ => None
          end
      | None => None
      end
  | WFail g =>
      match f_programs w !! g with
      | Some p =>
          match g_write p with
          | WWrite k =>
              if g_in p then None else
              match f_calls w !! k with
              | Some c =>
                  let id := s_id (fc_req c) in
                  Some (tell_opt (set_g w g (with_pending (with_write p WExit) (delete id (g_pending p)) (g_put p)))
                    (g_pending p !! id) (Told None (Err (str "signature_fallback write error"))))
              | None => None
              end
          | _ => None
          end
      | None => None
      end
  | WForget g =>
      match f_programs w !! g with
      | Some p => match g_write p with WExit => Some (forget (set_g w g (with_write p WDrop)) g) | _ => None end
      | None => None
      end
  | WEnd g =>
      match f_programs w !! g with
      | Some p =>
          match g_write p with
          | WDrop => Some (tell_if (set_g w g (with_write (with_queue p []) WDone))
              (fun k _ => bool_decide (k ∈ g_queue p)) Lost)
          | _ => None
          end
      | None => None
      end
  | Read g =>
      match f_programs w !! g with
      | Some p =>
          match g_read p, g_lines p !! g_nread p with
          | LRun, Some l => Some (read_line w g p (g_nread p) l)
          | LRun, None => if g_out p then None else Some (set_g w g (with_read p (g_nread p) LExit (g_running p)))
          | _, _ => None
          end
      | None => None
      end
  | LForget g =>
      match f_programs w !! g with
      | Some p =>
          match g_read p with
          | LExit => Some (forget (set_g w g (with_read p (g_nread p) LDrain (g_running p))) g)
          | _ => None
          end
      | None => None
      end
  | Drain g =>
      match f_programs w !! g with
      | Some p =>
          match g_read p with
          | LDrain =>
              Some (tell_if (set_g w g (with_pending (with_read p (g_nread p) LDone false) ∅ (g_put p)))
                (fun k c => bool_decide (g_pending p !! s_id (fc_req c) = Some k))
                (Told None (Err (str "fallback executable closed"))))
          | _ => None
          end
      | None => None
      end
  | Poll k =>
      match f_calls w !! k with
      | Some (FCall _ (FWait _) (Told s r)) => Some (fend w k (Answered s r))
      | Some (FCall _ (FWait _) Lost) => Some (fend w k NoTask)
      | _ => None
      end
  | Call r => Some (set_calls w (f_calls w ++ [FCall r FStart NoMail]))
  | Drop k =>
      match f_calls w !! k with
      | Some (FCall _ (FEnd _) _) | None => None
      | Some _ => Some (fend w k Dropped)
      end
  | WOk g =>
      match f_programs w !! g with
      | Some p => match g_write p with WWrite _ => if g_in p then Some (set_g w g (with_write p WIdle)) else None | _ => None end
      | None => None
      end
  | Print g l =>
      match f_programs w !! g with
      | Some p => if g_out p then Some (set_g w g (with_pipes p (g_alive p) (g_in p) true (g_lines p ++ [l]))) else None
      | None => None
      end
  | CloseIn g =>
      match f_programs w !! g with
      | Some p => Some (set_g w g (with_pipes p (g_alive p) false (g_out p) (g_lines p)))
      | None => None
      end
  | CloseOut g =>
      match f_programs w !! g with
      | Some p => Some (set_g w g (with_pipes p (g_alive p) (g_in p) false (g_lines p)))
      | None => None
      end
  | Die g =>
      match f_programs w !! g with
      | Some p => Some (set_g w g (with_pipes p false (g_in p) (g_out p) (g_lines p)))
      | None => None
      end
  end.

(** Any number of events [lair_server.rs:101-378]. *)
Fixpoint frun (w : fworld) (es : list fevent) : option fworld :=
  match es with
  | [] => Some w
  | e :: es => match fstep w e with Some w => frun w es | None => None end
  end.

(** [FallbackCmd::new] [lair_server.rs:120-127]. *)
Definition fnew : fworld := FWorld None [] [].
