(** * InitFile: runs of the init command on one directory

    [lair-keystore-bin/cmd_init.rs:4-49].  Any number of runs interleave and may be killed at any
    point.  A run makes the directory (which has no effect on the file), looks for the
    configuration file, waits for a passphrase and generates a configuration, creates the file
    (failing if it exists) and writes the text in as many pieces as the system likes.

    Simplified: the only file is the configuration file, nothing but these runs changes it, and
    writing does not fail (a failing write ends the run as [Kill] does).  What is written is there
    after a kill (the crash is of the process, not of the machine). *)

From Verif Require Import Base.

Inductive ipc :=
| ILook                       (* to look for the file, [cmd_init.rs:16] *)
| IGenerate                   (* to read the passphrase and generate, [23-31] *)
| ICreate (text : bytes)      (* to create the file, [33-37] *)
| IWrite (rest : bytes)       (* to write the rest, [39] *)
| IDone                       (* reported success, [43-48] *)
| IRefused.                   (* reported an error *)

(** The directory of the configuration file and the runs [cmd_init.rs:4-49]. *)
Record dir := Dir {
  d_file : option bytes;      (* the configuration file *)
  d_runs : gmap N ipc         (* the runs that are not killed *)
}.

(** What can happen to a run [cmd_init.rs:4-49]. *)
Inductive ievent :=
| IStart (run : N)                  (* the command is given *)
| IStep (run : N)                   (* looking, creating, ending *)
| IText (run : N) (text : bytes)    (* the configuration is generated, with its text *)
| IChunk (run : N) (n : nat)        (* the system writes [S n] bytes, or what is left *)
| IKill (run : N).                  (* the run is stopped *)

(** A run goes on [cmd_init.rs:4-49]. *)
Definition iset (w : dir) (r : N) (c : ipc) : dir := Dir (d_file w) (<[r := c]> (d_runs w)).

(** [cmd_init.rs:4-49] *)
Definition istep (w : dir) (e : ievent) : dir :=
  match e with
  | IStart r => match d_runs w !! r with None => iset w r ILook | Some _ => w end
  | IStep r =>
      match d_runs w !! r with
      | Some ILook => iset w r (match d_file w with Some _ => IRefused | None => IGenerate end)
      | Some (ICreate text) =>
          match d_file w with
          | Some _ => iset w r IRefused
          | None => Dir (Some []) (<[r := IWrite text]> (d_runs w))
          end
      | Some (IWrite []) => iset w r IDone
      | _ => w
      end
  | IText r text =>
      match d_runs w !! r with Some IGenerate => iset w r (ICreate text) | _ => w end
  | IChunk r n =>
      match d_runs w !! r with
      | Some (IWrite rest) =>
          Dir (Some (default [] (d_file w) ++ take (S n) rest)) (<[r := IWrite (drop (S n) rest)]> (d_runs w))
      | _ => w
      end
  | IKill r => Dir (d_file w) (delete r (d_runs w))
  end.

(** Any number of events [cmd_init.rs:4-49]. *)
Definition irun (w : dir) (evs : list ievent) : dir := fold_left istep evs w.

(** A directory nobody works in. Before [cmd_init.rs:4-49]. *)
Definition idle (file : option bytes) : dir := Dir file ∅.
