(** * Root: the directory a command is given

    [crates/lair_keystore/src/bin/lair-keystore-bin/main.rs:138-144,207-222]: every command is given
    the directory of a keystore, by any name; [dunce::canonicalize] looks up what it is
    the name of ([realpath] of the system), before anything else.  [cmd_init.rs:8-11] would make a
    missing directory.

    Simplified: permissions are not looked at; names with a zero byte do not exist; a name that leads to something other
    than a directory is refused at once (the code refuses it when it makes the directory
    [cmd_init.rs:8-11] or reads the configuration [main.rs:146-165]); directories are not removed or
    renamed; commands are given one after another, as in [Commands]. *)

From Verif Require Import Base Crypto Types Codec Store Server System ConnUrl Startup ConfigText Commands.

(** What a directory may contain, as far as names go through it. For [main.rs:208]. *)
Inductive node := NDir | NFile | NLink (target : bytes).

(** By the path without links: its components, from the root directory on, which is there. For [main.rs:208]. *)
Definition tree := list bytes -> option node.

(** [/] and the components, or those joined by it: [PathBuf]. For [main.rs:208]. *)
Definition path_of (p : list bytes) : bytes :=
  match p with [] => [slash] | _ => concat (map (cons slash) p) end.

(** A path that begins with [/]. For [main.rs:208]. *)
Definition absolute (t : bytes) : bool := match t with b :: _ => is slash b | [] => false end.

Section Lookup.
  Variable f : tree.

  (** From the directory [here], through the components [todo], through at most [links] links
      [main.rs:208]. *)
  Fixpoint walk (links : nat) : list bytes -> list bytes -> option (list bytes) :=
    fix go (here todo : list bytes) : option (list bytes) :=
      match todo with
      | [] => Some here
      | c :: rest =>
          if beq c [] || beq c (str ".") then go here rest
          else if beq c (str "..") then go (removelast here) rest
          else match f (here ++ [c]) with
               | Some NDir => go (here ++ [c]) rest
               | Some (NLink (b :: t)) =>
                   match links with
                   | O => None
                   | S links =>
                       walk links (if absolute (b :: t) then [] else here) (split_on slash (b :: t) ++ rest)
                   end
               | _ => None
               end
      end.

  (** [dunce::canonicalize] [main.rs:208], in the directory [cwd]. *)
  Definition canonicalize (cwd : list bytes) (path : bytes) : option (list bytes) :=
    match path with
    | [] => None
    | _ => walk 40 (if absolute path then [] else cwd) (split_on slash path)
    end.
End Lookup.

(** The file system and the keystores in its directories [main.rs:194-223]. *)
Record host := Host { ho_tree : tree; ho_keys : list bytes -> keydir }.

(** A command is given in a directory, with a name; something is made at a path that was free; what is
    no directory is removed. [main.rs:194-223]. *)
Inductive hevent :=
| HCommand (cwd : list bytes) (path : bytes) (c : command)
| HMake (at_ : list bytes) (n : node)
| HUnlink (at_ : list bytes).

(** For [main.rs:194-223]. *)
Definition put {A} (m : list bytes -> A) (p : list bytes) (x : A) : list bytes -> A :=
  fun q => if decide (q = p) then x else m q.

(** What becomes of the tree [main.rs:208]. *)
Definition grow (f : tree) (e : hevent) : tree :=
  match e with
  | HCommand _ _ _ => f
  | HMake p n => match f p with None => put f p (Some n) | Some _ => f end
  | HUnlink p => match f p with Some NFile | Some (NLink _) => put f p None | _ => f end
  end.

Section Host.
  Variable C : Crypto.
  Variable Y : Yaml.
  Variable version : bytes.
  Variable rcgen : gencert -> bool.

  (** [exec] [main.rs:194-223]. *)
  Definition exec_at (h : host) (cwd : list bytes) (path : bytes) (c : command) : host * output :=
    match canonicalize (ho_tree h) cwd path with
    | None => (h, Refused (str "No such file or directory (os error 2)"))
    | Some root =>
        let (k, out) := exec C Y version rcgen (path_of root) (ho_keys h root) c in
        (Host (ho_tree h) (put (ho_keys h) root k), out)
    end.

  (** [main.rs:194-223] *)
  Definition hstep (h : host) (e : hevent) : host :=
    match e with
    | HCommand cwd path c => fst (exec_at h cwd path c)
    | _ => Host (grow (ho_tree h) e) (ho_keys h)
    end.

  (** Any number of them [main.rs:194-223]. *)
  Definition hrun (h : host) (es : list hevent) : host := fold_left hstep es h.
End Host.
