(** * Migrate: opening the database, encrypting it first if it is not

    [SqlPool::new_sync] [store_sqlite.rs:141-253] and [encrypt_unencrypted_database]
    [store_sqlite.rs:584-668], as steps between which the process may die.

    Assumed of sqlcipher: a file opens just with the key and salt it was made with; opening an
    absent or empty file makes an empty database; a transaction is there as a whole or not at all
    when the process dies, so that the export, the only transaction [632-652], is one step; a
    database that has the tables cannot be exported to (its first statement is
    [CREATE TABLE]).  A file that is absent and one that is empty are not told apart.
    Simplified: the schema transaction [203-216], which does nothing to a database that has its
    tables, is part of opening; write-ahead logs are part of their database. *)

From Verif Require Import Base.

Section Migrate.
  Context {A : Type} (empty : A).

  (** A database file [store_sqlite.rs:141-253]. *)
  Inductive dbfile := Plain (entries : A) | Cipher (key salt : bytes) (entries : A).

  (** The store file and the file of its name with "-encrypted" [592-607]. *)
  Record files := Files { f_store : option dbfile; f_enc : option dbfile }.

  Inductive mpc :=
  | MOpen       (* to open the database, [171-176] *)
  | MExport     (* to export it, [616-660] *)
  | MRemove     (* to remove the store file, [664] *)
  | MRename     (* to rename the export to it, [665] *)
  | MReopen     (* to open it again, [188-193] *)
  | MEnd (r : res unit).

  (** [create_configured_db_connection] [316-336] and the schema *)
  Definition opens (key salt : bytes) (f : option dbfile) : option dbfile :=
    match f with
    | None => Some (Cipher key salt empty)
    | Some (Plain _) => None
    | Some (Cipher k s a) => if beq k key && beq s salt then f else None
    end.

  (** The error of sqlcipher for a wrong key [store_sqlite.rs:141-253]. *)
  Definition not_db : res unit := Err (str "file is not a database").

  (** One step; [migrate]: [LAIR_MIGRATE_UNENCRYPTED] is set to "true" [178-182]. *)
  Definition mstep (key salt : bytes) (migrate : bool) (c : mpc) (d : files) : mpc * files :=
    match c with
    | MOpen =>
        match opens key salt (f_store d) with
        | Some f => (MEnd (Ok tt), Files (Some f) (f_enc d))
        | None => (if migrate then MExport else MEnd not_db, d)
        end
    | MExport =>
        match f_store d, f_enc d with
        | Some (Plain a), None => (MRemove, Files (f_store d) (Some (Cipher key salt a)))
        | Some (Plain a), Some _ => (MEnd (Err (str "table already exists")), d)
        | _, _ => (MEnd not_db, d)        (* VACUUM fails [620] *)
        end
    | MRemove => (MRename, Files None (f_enc d))
    | MRename => (MReopen, Files (f_enc d) None)
    | MReopen =>
        match opens key salt (f_store d) with
        | Some f => (MEnd (Ok tt), Files (Some f) (f_enc d))
        | None => (MEnd not_db, d)
        end
    | MEnd r => (MEnd r, d)
    end.

  (** An attempt that dies after [n] steps, if it has not ended before. [store_sqlite.rs:141-253]. *)
  Fixpoint msteps (key salt : bytes) (migrate : bool) (n : nat) (c : mpc) (d : files) : mpc * files :=
    match n with
    | O => (c, d)
    | S n => let '(c, d) := mstep key salt migrate c d in msteps key salt migrate n c d
    end.

  (** [store_sqlite.rs:141-253]. *)
  Definition attempt (key salt : bytes) (migrate : bool) (n : nat) (d : files) : mpc * files :=
    msteps key salt migrate n MOpen d.

  (** Nothing takes more steps. [store_sqlite.rs:141-253]. *)
  Definition enough : nat := 5.
  (** [SqlPool::new_sync] [store_sqlite.rs:141-253] to its end. *)
  Definition whole (key salt : bytes) (migrate : bool) (d : files) : mpc * files :=
    attempt key salt migrate enough d.
End Migrate.
Arguments dbfile A : clear implicits.
Arguments files A : clear implicits.
