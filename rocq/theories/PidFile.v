(** * PidFile: starting server processes on one directory

    [crates/lair_keystore/src/pid_check.rs], [server.rs] and the binding of the socket in
    [crates/lair_keystore_api/src/ipc_keystore/raw_ipc.rs], as steps of processes that share
    the pid file, the socket and the process table.  Each step is one call to the operating
    system.  Files are inodes: removing a file does not disturb who has it open.  Not
    modelled: failures of these calls other than those shown, and sleeping between attempts
    (any schedule is possible). *)

From Verif Require Import Base.
From Coq Require DecimalN.

(** ** Process numbers as text *)

(** [format!("{}", pid)]. [pid_check.rs:87]. *)
Fixpoint dec_text (u : Decimal.uint) : bytes :=
  match u with
  | Decimal.Nil => []
  | Decimal.D0 u => x30 :: dec_text u | Decimal.D1 u => x31 :: dec_text u
  | Decimal.D2 u => x32 :: dec_text u | Decimal.D3 u => x33 :: dec_text u
  | Decimal.D4 u => x34 :: dec_text u | Decimal.D5 u => x35 :: dec_text u
  | Decimal.D6 u => x36 :: dec_text u | Decimal.D7 u => x37 :: dec_text u
  | Decimal.D8 u => x38 :: dec_text u | Decimal.D9 u => x39 :: dec_text u
  end.
(** [pid_check.rs:87]. *)
Definition dec (n : N) : bytes := dec_text (N.to_uint n).

(** [i32::from_str], called at [pid_check.rs:58]. *)
Fixpoint text_dec (l : bytes) : option Decimal.uint :=
  match l with
  | [] => Some Decimal.Nil
  | b :: l =>
      text_dec l ≫= (fun u =>
      match b with
      | x30 => Some (Decimal.D0 u) | x31 => Some (Decimal.D1 u) | x32 => Some (Decimal.D2 u)
      | x33 => Some (Decimal.D3 u) | x34 => Some (Decimal.D4 u) | x35 => Some (Decimal.D5 u)
      | x36 => Some (Decimal.D6 u) | x37 => Some (Decimal.D7 u) | x38 => Some (Decimal.D8 u)
      | x39 => Some (Decimal.D9 u)
      | _ => None
      end)
  end.

(** [i32::from_str], called at [pid_check.rs:58]. *)
Definition digits (l : bytes) : option N :=
  match l with [] => None | _ => option_map N.of_uint (text_dec l) end.

(** [Pid::from_str], which is [i32::from_str]; [None] is its error. Called at [pid_check.rs:58]. *)
Definition parse_pid (l : bytes) : option Z :=
  match l with
  | x2d :: r => digits r ≫= (fun n => if (n <=? 2 ^ 31)%N then Some (- Z.of_N n)%Z else None)
  | x2b :: r => digits r ≫= (fun n => if (n <? 2 ^ 31)%N then Some (Z.of_N n) else None)
  | _ => digits l ≫= (fun n => if (n <? 2 ^ 31)%N then Some (Z.of_N n) else None)
  end.

(** ** Processes *)

(** [env!("CARGO_PKG_NAME")] in the [lair_keystore] package [Cargo.toml:2], and the name of
    the executable it builds [Cargo.toml:44-46]. [pid_check.rs:63]. *)
Definition PKG_NAME : bytes := str "lair_keystore".
(** See [PKG_NAME]; [pid_check.rs:63] compares with the former. *)
Definition EXE_NAME : bytes := str "lair-keystore".

(** Where a server process is.  [more] counts the attempts that remain after this one
    [pid_check.rs:21-37]. *)
Inductive pc :=
| POpen (more : nat)                 (* to open the pid file, [pid_check.rs:54] *)
| PRead (more : nat) (ino : nat)     (* to read it, [55] *)
| PLook (more : nat) (pid : Z)       (* to look for the process, [59-60] *)
| PRemove (more : nat)               (* to remove the file, [70] *)
| PCreate (more : nat)               (* to create it, [80-81] *)
| PWrite (ino : nat)                 (* to write to it, [83-84] *)
| PUnbind                            (* to remove the socket, [raw_ipc.rs:58] *)
| PBind                              (* to bind it, [raw_ipc.rs:61] *)
| PUnlock                            (* to open the configuration with the passphrase *)
| PServing
| PRefused
| POther.                            (* any other program *)

(** A process of the table that [pid_check.rs:60-61] looks in. *)
Record proc := Proc { p_name : bytes; p_pc : pc }.

(** What processes share [pid_check.rs:43-90], [raw_ipc.rs:41-76]. *)
Record world := World {
  w_pid : option nat;                (* the inode the pid file's name leads to *)
  w_data : gmap nat bytes;           (* contents of inodes *)
  w_next : nat;                      (* a fresh inode *)
  w_sock : option N;                 (* the process whose socket the socket's name leads to *)
  w_procs : gmap N proc              (* the processes that are alive *)
}.

(** What can happen [pid_check.rs:14-90], [server.rs:17-87]. *)
Inductive event :=
| Spawn (pid : N) (name : bytes) (server : bool)   (* a program starts *)
| Step (pid : N)                                   (* a server process makes its next step *)
| Passphrase (pid : N) (ok : bool)                 (* its passphrase is tried *)
| Kill (pid : N).                                  (* a process ends, for whatever reason *)

(** A process goes on [pid_check.rs:14-90]. *)
Definition set_pc (w : world) (pid : N) (p : proc) (c : pc) : world :=
  World (w_pid w) (w_data w) (w_next w) (w_sock w) (<[pid := Proc (p_name p) c]> (w_procs w)).

(** The attempt failed. [pid_check.rs:20-37]. *)
Definition failed (more : nat) : pc :=
  match more with O => PRefused | S more => POpen more end.

(** [sys.process(pid)] with the name test [pid_check.rs:60-66]. *)
Definition found (w : world) (pid : Z) : bool :=
  match pid with
  | Zneg _ => false
  | _ => match w_procs w !! Z.to_N pid with
         | Some q => beq (p_name q) PKG_NAME
         | None => false
         end
  end.

(** [pid_check.rs:14-90], [server.rs:17-87], [raw_ipc.rs:41-76]. *)
Definition step_proc (w : world) (pid : N) (p : proc) : world :=
  match p_pc p with
  | POpen more =>
      match w_pid w with
      | Some ino => set_pc w pid p (PRead more ino)
      | None => set_pc w pid p (PCreate more)
      end
  | PRead more ino =>
      match parse_pid (default [] (w_data w !! ino)) with
      | Some q => set_pc w pid p (PLook more q)
      | None => set_pc w pid p (failed more)
      end
  | PLook more q =>
      if found w q then set_pc w pid p (failed more) else set_pc w pid p (PRemove more)
  | PRemove more =>
      match w_pid w with
      | Some _ =>
          let w := set_pc w pid p (PCreate more) in
          World None (w_data w) (w_next w) (w_sock w) (w_procs w)
      | None => set_pc w pid p (failed more)
      end
  | PCreate more =>
      match w_pid w with
      | Some _ => set_pc w pid p (failed more)
      | None =>
          let ino := w_next w in
          let w := set_pc w pid p (PWrite ino) in
          World (Some ino) (<[ino := []]> (w_data w)) (S ino) (w_sock w) (w_procs w)
      end
  | PWrite ino =>
      let w := set_pc w pid p PUnbind in
      World (w_pid w) (<[ino := default [] (w_data w !! ino) ++ dec pid]> (w_data w)) (w_next w)
        (w_sock w) (w_procs w)
  | PUnbind =>
      let w := set_pc w pid p PBind in
      World (w_pid w) (w_data w) (w_next w) None (w_procs w)
  | PBind =>
      match w_sock w with
      | Some _ => set_pc w pid p PRefused
      | None =>
          let w := set_pc w pid p PUnlock in
          World (w_pid w) (w_data w) (w_next w) (Some pid) (w_procs w)
      end
  | PUnlock | PServing | PRefused | POther => w
  end.

(** [pid_check.rs:14-90], [server.rs:17-87]. *)
Definition step (w : world) (e : event) : world :=
  match e with
  | Spawn pid name server =>
      match w_procs w !! pid with
      | Some _ => w
      | None =>
          if (pid <? 2 ^ 31)%N then
            World (w_pid w) (w_data w) (w_next w) (w_sock w)
              (<[pid := Proc name (if server then POpen 2 else POther)]> (w_procs w))
          else w
      end
  | Step pid => match w_procs w !! pid with Some p => step_proc w pid p | None => w end
  | Passphrase pid ok =>
      match w_procs w !! pid with
      | Some p =>
          match p_pc p with
          | PUnlock => set_pc w pid p (if ok then PServing else PRefused)
          | _ => w
          end
      | None => w
      end
  | Kill pid => World (w_pid w) (w_data w) (w_next w) (w_sock w) (delete pid (w_procs w))
  end.

(** An empty directory. Before the first [server.rs:17-87]. *)
Definition start : world := World None ∅ 0 None ∅.
(** From there [pid_check.rs:14-90]. *)
Definition run (w : world) (evs : list event) : world := fold_left step evs w.
