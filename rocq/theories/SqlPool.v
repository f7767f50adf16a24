(** * SqlPool: the pool of database connections

    [store_sqlite.rs:45-117] and [272-313].  Tasks ask for the write connection or a read
    connection, use it for transactions and give it back; they may be cancelled wherever they
    wait.  A task is one call of a store function; [Cancel] is its future being dropped.

    Simplified: a connection is a number within its side; the semaphore (of tokio) hands permits to
    waiting tasks in any order.  Dropping an [SqlCon] puts the connection back first and gives the
    permit back after, as fields are dropped after [Drop::drop]. *)

From Verif Require Import Base.

(** A semaphore and the places for connections it guards: [write_limit] and [write_con], or
    [read_limit] and [read_cons] [store_sqlite.rs:45-51]. *)
Record side := Side { s_free : nat; s_slots : list (option N) }.

Inductive task :=
| TWant (write : bool)                       (* waits for a permit, [276], [303] *)
| TGot (write : bool)                        (* has one, has not run since *)
| THold (write : bool) (con : option N)      (* has an [SqlCon], [289-294], [307-312] *)
| TRun (write : bool) (con : N)              (* waits for the thread of a transaction, [92-112] *)
| TLeave (write : bool)                      (* the connection is back, the permit not yet *)
| TPanic (write : bool)                      (* [unwrap] of no connection, [91] *)
| TDone.

(** [SqlPoolInner] [store_sqlite.rs:45-51] and its users. *)
Record pool := Pool { p_write : side; p_read : side; p_tasks : list task }.

Inductive pevent :=
| Ask (write : bool)                 (* a new task *)
| Grant (t : nat)                    (* the semaphore gives it a permit *)
| Take (t : nat)                     (* it runs on, [279-287], [305] *)
| Begin (t : nat)                    (* it starts a transaction, [91-92] *)
| Finish (t : nat) (panic : bool)    (* the transaction ends, or its thread panics, [109-112] *)
| End (t : nat)                      (* it drops its [SqlCon], [60-76] *)
| Release (t : nat)                  (* and with it the permit *)
| Cancel (t : nat).                  (* its future is dropped *)

(** The two sides of the pool [store_sqlite.rs:45-51]. *)
Definition get (p : pool) (write : bool) : side := if write then p_write p else p_read p.
(** The two sides of the pool [store_sqlite.rs:45-51]. *)
Definition put (p : pool) (write : bool) (s : side) : pool :=
  if write then Pool s (p_read p) (p_tasks p) else Pool (p_write p) s (p_tasks p).
(** A task goes on [store_sqlite.rs:272-313]. *)
Definition become (p : pool) (t : nat) (x : task) : pool :=
  Pool (p_write p) (p_read p) (<[t := x]> (p_tasks p)).

(** [SqlPool::read] [281-286]; of the one place of [write_con], [Option::take]. *)
Fixpoint take_con (slots : list (option N)) : option N * list (option N) :=
  match slots with
  | [] => (None, [])
  | Some c :: slots => (Some c, None :: slots)
  | None :: slots => let '(c, slots) := take_con slots in (c, None :: slots)
  end.

(** [Drop for SqlCon] [67-72] *)
Fixpoint put_read (c : N) (slots : list (option N)) : list (option N) :=
  match slots with
  | [] => []
  | None :: slots => Some c :: slots
  | Some d :: slots => Some d :: put_read c slots
  end.
(** ... and [65] *)
Definition put_con (write : bool) (c : N) (slots : list (option N)) : list (option N) :=
  if write then [Some c] else put_read c slots.

(** A permit is given back [store_sqlite.rs:53-58]. *)
Definition release (p : pool) (write : bool) : pool :=
  let s := get p write in put p write (Side (S (s_free s)) (s_slots s)).

(** The [SqlCon] is dropped, up to its permit. [store_sqlite.rs:60-76]. *)
Definition give_back (p : pool) (write : bool) (con : option N) : pool :=
  match con with
  | None => p
  | Some c => let s := get p write in put p write (Side (s_free s) (put_con write c (s_slots s)))
  end.

(** [store_sqlite.rs:60-116,272-313]. *)
Definition pstep (p : pool) (e : pevent) : pool :=
  match e with
  | Ask write => Pool (p_write p) (p_read p) (p_tasks p ++ [TWant write])
  | Grant t =>
      match p_tasks p !! t with
      | Some (TWant write) =>
          match s_free (get p write) with
          | O => p
          | S n => become (put p write (Side n (s_slots (get p write)))) t (TGot write)
          end
      | _ => p
      end
  | Take t =>
      match p_tasks p !! t with
      | Some (TGot write) =>
          let '(c, slots) := take_con (s_slots (get p write)) in
          become (put p write (Side (s_free (get p write)) slots)) t (THold write c)
      | _ => p
      end
  | Begin t =>
      match p_tasks p !! t with
      | Some (THold write (Some c)) => become p t (TRun write c)
      | Some (THold write None) => become p t (TPanic write)
      | _ => p
      end
  | Finish t panic =>
      match p_tasks p !! t with
      | Some (TRun write c) => become p t (THold write (if panic then None else Some c))
      | _ => p
      end
  | End t =>
      match p_tasks p !! t with
      | Some (THold write c) => become (give_back p write c) t (TLeave write)
      | Some (TPanic write) => become p t (TLeave write)     (* unwinding *)
      | _ => p
      end
  | Release t =>
      match p_tasks p !! t with
      | Some (TLeave write) => become (release p write) t TDone
      | _ => p
      end
  | Cancel t =>
      match p_tasks p !! t with
      | Some (TWant write) => become p t TDone
      | Some (TGot write) => become (release p write) t TDone
      | Some (THold write c) => become (give_back p write c) t (TLeave write)
      | Some (TRun write c) => become p t (TLeave write)      (* the connection is in the thread *)
      | _ => p
      end
  end.

(** [SqlPool::new_sync] [218-250], [READ_CON_COUNT] [13] *)
Definition new_pool : pool :=
  Pool (Side 1 [Some 0%N]) (Side 3 [Some 0%N; Some 1%N; Some 2%N]) [].
(** Any number of events [store_sqlite.rs:45-117,272-313]. *)
Definition prun (p : pool) (evs : list pevent) : pool := fold_left pstep evs p.
