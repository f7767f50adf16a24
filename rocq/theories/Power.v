(** * Power: a machine that loses power

    The sqlite store of [crates/lair_keystore/src/store_sqlite.rs] under the settings it makes, and
    a server on it, on a machine that may stop at any moment.  The end of the process alone
    ([EvRestart] of [System]) loses nothing that was committed.

    Simplified: what sqlite promises is taken from its documentation (of [PRAGMA synchronous] and
    of write-ahead logging): with a write-ahead log and [synchronous] at least [NORMAL] (1), what
    is found after a loss of power is what some number of the first commits made, no fewer than
    those that had been flushed; commits are flushed at once from [FULL] (2) on, otherwise by the
    next checkpoint, which may come at any time.  With a rollback journal the same holds, except that
    [FULL] is needed for either.  Under other settings anything may be found.  The schema
    is part of the first commit and not looked at.  After a loss of power the server is started
    again, with the same configuration and passphrase. *)

From Verif Require Import Base Crypto Types Codec Store Server System InitFile.

(** The settings of a connection: [journal_mode] and [synchronous] [store_sqlite.rs:200-204,577-579]. *)
Inductive journal := Rollback | Wal.
(** Both, of one connection [store_sqlite.rs:203,579]. *)
Record settings := Settings { s_journal : journal; s_sync : N }.

(** What sqlite starts with, before [store_sqlite.rs:316-336]. *)
Definition default_settings : settings := Settings Rollback 2.

(** [set_pragmas] [store_sqlite.rs:559-582], as far as it matters here. *)
Definition set_pragmas (s : settings) : settings := Settings (s_journal s) 1.

(** The write connection [store_sqlite.rs:170-199]. *)
Definition write_settings : settings := Settings Wal (s_sync (set_pragmas default_settings)).

(** A commit is on the disk when it returns; what is found is what the first commits made.
    What sqlite makes of the settings of [store_sqlite.rs:200-204,577-579]. *)
Definition flushes (s : settings) : bool := N.leb 2 (s_sync s).
(** As above, for the settings of [store_sqlite.rs:200-204,577-579]. *)
Definition orderly (s : settings) : bool :=
  match s_journal s with Wal => N.leb 1 (s_sync s) | Rollback => N.leb 2 (s_sync s) end.

(** A server [priv_srv.rs:141-236] on the table and how many of its rows, from the first, are known
    to be on the disk [store_sqlite.rs:141-253]. *)
Record machine := Machine { m_sys : sys sql_store; m_flushed : nat }.

(** Its table [store_sqlite.rs:141-253]. *)
Definition rows_of (s : sys sql_store) : list row := sh_store sql_store (s_sh sql_store s).

(** What can happen: something to the server; a checkpoint; a loss of power, after which the first
    [n] rows are found, or, if there is no order, [junk]. [store_sqlite.rs:141-253]. *)
Inductive pevent :=
| PEv (e : event)
| PCheckpoint
| PCut (n : nat) (junk : list row).

Section Power.
  Variable g : genv.

  (** A server started on a table [priv_srv.rs:115-136], [store_sqlite.rs:141-253]. *)
  Definition started_on (t : list row) : sys sql_store := Sys sql_store (fresh_shared sql_store t) ∅.

  (** [store_sqlite.rs:78-116,141-253] *)
  Definition pstep (m : machine) (e : pevent) : machine :=
    match e with
    | PEv e =>
        let s := step sql_store g (m_sys m) e in
        Machine s (if flushes write_settings then length (rows_of s) else m_flushed m)
    | PCheckpoint => Machine (m_sys m) (length (rows_of (m_sys m)))
    | PCut n junk =>
        if orderly write_settings then
          if Nat.leb (m_flushed m) n then
            let t := take n (rows_of (m_sys m)) in Machine (started_on t) (length t)
          else m                                          (* does not happen *)
        else Machine (started_on junk) (length junk)
    end.

  (** From the first start on [store_sqlite.rs:141-253]. *)
  Definition prun (evs : list pevent) : machine :=
    fold_left pstep evs (Machine (init sql_store) 0).
End Power.

(** ** The configuration file

    [cmd_init.rs:33-41] creates, writes and closes it; [shutdown] of a file flushes what the
    process still has, not what the system has.  The system brings it to the disk when it
    likes. *)

(** The directory of [InitFile], and whether the file in it is known to be on the disk [cmd_init.rs:33-41]. *)
Record fdisk := FDisk { f_dir : dir; f_safe : bool }.

(** A run of the command does something; the system brings the file to the disk; power is lost,
    and [found] is found [cmd_init.rs:33-41]. *)
Inductive fevent := FRun (e : ievent) | FFlush | FCut (found : option bytes).

(** What may be found in place of a file that was not on the disk: none, or a beginning.
    No counterpart in the code; for [cmd_init.rs:33-41]. *)
Definition may_find (file found : option bytes) : bool :=
  match found, file with
  | None, _ => true
  | Some l, Some f => beq l (take (length l) f)
  | Some _, None => false
  end.

(** [cmd_init.rs:33-41] *)
Definition fstep (w : fdisk) (e : fevent) : fdisk :=
  match e with
  | FRun e =>
      let d := istep (f_dir w) e in
      FDisk d (f_safe w && bool_decide (d_file d = d_file (f_dir w)))
  | FFlush => FDisk (f_dir w) true
  | FCut found =>
      if f_safe w then FDisk (idle (d_file (f_dir w))) true
      else if may_find (d_file (f_dir w)) found then FDisk (idle found) true
      else w                                              (* does not happen *)
  end.

(** In an empty directory [cmd_init.rs:4-49]. *)
Definition frun (evs : list fevent) : fdisk := fold_left fstep evs (FDisk (idle None) true).
