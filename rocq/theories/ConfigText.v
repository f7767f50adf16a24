(** * ConfigText: the text of a configuration

    [Display for LairServerConfigInner] and [from_bytes] [config.rs:75-132]: the configuration is
    printed as YAML, by [serde_yaml] and [libyaml], comments are put between its lines, and the
    text is read back.

    Simplified: of YAML, what these documents use: a line is a key or the dash of a list, and a
    value; a text with line breaks is printed as a literal block if [libyaml] allows it, any other
    text on one line, plain or quoted ([Yaml], not modelled further).  The reader below reads lines
    as [libyaml] does, but then expects the keys in the order they are printed. *)

From Verif Require Import Base Base64 Types ConnUrl PidFile Startup.

(** One-line forms of texts, how they are read, and which texts may be literal blocks
    ([yaml_emitter_analyze_scalar]). Crates [serde_yaml], [libyaml], called at [config.rs:75-126]. *)
Record Yaml := { y_flow : bytes -> bytes; y_unflow : bytes -> option bytes; y_block : bytes -> bool }.

(** Crates [serde_yaml], [libyaml], called at [config.rs:75-126]. *)
Definition nl : byte := x0a.
(** Crates [serde_yaml], [libyaml], called at [config.rs:75-126]. *)
Definition space : byte := x20.
(** Crates [serde_yaml], [libyaml], called at [config.rs:75-126]. *)
Definition bar : byte := x7c.

(** A one-line form is on one line, does not look like the start of a block, and is read back.
    Crates [serde_yaml], [libyaml], called at [config.rs:75-126]. *)
Record YamlOk (Y : Yaml) : Prop := {
  yo_line : forall s, nl ∉ y_flow Y s;
  yo_bar : forall s, head (y_flow Y s) <> Some bar;
  yo_back : forall s, y_unflow Y (y_flow Y s) = Some s
}.

(** ** Printing *)

(** Crates [serde_yaml], [libyaml], called at [config.rs:75-126]. *)
Inductive value :=
| Text (s : bytes)                 (* a string *)
| Raw (t : bytes).                 (* printed as it is: a number, [none], [null], nothing *)

(** An entry: its indentation, what stands before the value, and the value.
    Crates [serde_yaml], [libyaml], called at [config.rs:75-126]. *)
Record item := Item { it_ind : nat; it_key : bytes; it_val : value }.

(** Crates [serde_yaml], [libyaml], called at [config.rs:75-126]. *)
Inductive chomp := Strip | Clip | Keep.

(** [yaml_emitter_write_block_scalar_hints]. Crates [serde_yaml], [libyaml], called at [config.rs:75-126]. *)
Definition chomp_of (s : bytes) : chomp :=
  match rev s with
  | a :: r => if is nl a then match r with [] => Keep | b :: _ => if is nl b then Keep else Clip end else Strip
  | [] => Strip
  end.
(** Crates [serde_yaml], [libyaml], called at [config.rs:75-126]. *)
Definition hint_of (s : bytes) : bool :=
  match s with a :: _ => is nl a || is space a | [] => false end.
(** Crates [serde_yaml], [libyaml], called at [config.rs:75-126]. *)
Definition header_text (hint : bool) (c : chomp) : bytes :=
  bar :: (if hint then str "2" else []) ++ match c with Strip => str "-" | Clip => [] | Keep => str "+" end.

(** [yaml_emitter_write_literal_scalar]: the lines of the text, those that are not empty indented;
    a last line break adds no line. Crates [serde_yaml], [libyaml], called at [config.rs:75-126]. *)
Definition body (s : bytes) : list bytes :=
  let ls := split_on nl s in
  match last ls with Some [] => removelast ls | _ => ls end.
(** Crates [serde_yaml], [libyaml], called at [config.rs:75-126]. *)
Definition indent (n : nat) (l : bytes) : bytes := match l with [] => [] | _ => repeat space n ++ l end.

Section Print.
  Variable Y : Yaml.

  (** [serialize_str] of [serde_yaml]: strings with line breaks ask for a literal block.
      Crates [serde_yaml], [libyaml], called at [config.rs:75-126]. *)
  Definition is_block (s : bytes) : bool := existsb (is nl) s && y_block Y s.

  (** Crates [serde_yaml], [libyaml], called at [config.rs:75-126]. *)
  Definition print_item (i : item) : list bytes :=
    let start := repeat space (it_ind i) ++ it_key i in
    match it_val i with
    | Raw t => [start ++ t]
    | Text s =>
        if is_block s then (start ++ header_text (hint_of s) (chomp_of s)) :: map (indent (it_ind i + 2)) (body s)
        else [start ++ y_flow Y s]
    end.

  (** [LairServerSignatureFallback] [config.rs:11-32]. *)
  Definition fallback_items (f : fallback) : list item :=
    match f with
    | None => [Item 0 (str "signatureFallback: ") (Raw (str "none"))]
    | Some (program, args) =>
        [Item 0 (str "signatureFallback: ") (Raw (str "!command")); Item 2 (str "program: ") (Text program)]
        ++ match args with
           | None => [Item 2 (str "args: ") (Raw (str "null"))]
           | Some [] => [Item 2 (str "args: ") (Raw (str "[]"))]
           | Some l => Item 2 (str "args:") (Raw []) :: map (fun a => Item 2 (str "- ") (Text a)) l
           end
    end.

  (** [SecretDataSized] [encoding_types.rs:250-256] in [config.rs:34-73]. *)
  Definition secret_items (key : bytes) (s : secret) : list item :=
    [Item 0 key (Raw []); Item 0 (str "- ") (Text (to_b64url (s_header s)));
     Item 0 (str "- ") (Text (to_b64url (s_cipher s)))].

  (** The fields of [LairServerConfigInner], in camel case [config.rs:35-73]. *)
  Definition items (c : config) : list item :=
    [Item 0 (str "connectionUrl: ") (Text (url_text (cf_url c)));
     Item 0 (str "pidFile: ") (Text (cf_pid c)); Item 0 (str "storeFile: ") (Text (cf_store c))]
    ++ fallback_items (cf_fallback c)
    ++ [Item 0 (str "databaseSalt: ") (Text (to_b64url (cf_db_salt c)));
        Item 0 (str "runtimeSecretsSalt: ") (Text (to_b64url (cf_salt c)));
        Item 0 (str "runtimeSecretsMemLimit: ") (Raw (dec (cf_mem c)));
        Item 0 (str "runtimeSecretsOpsLimit: ") (Raw (dec (cf_ops c)))]
    ++ secret_items (str "runtimeSecretsContextKey:") (cf_context c)
    ++ secret_items (str "runtimeSecretsIdSeed:") (cf_id c).

  (** Crates [serde_yaml], [libyaml], called at [config.rs:75-126]. *)
  Fixpoint join (ls : list bytes) : bytes :=
    match ls with [] => [] | [l] => l | l :: ls => l ++ nl :: join ls end.

  (** [serde_yaml::to_string] [config.rs:77] *)
  Definition yaml_text (c : config) : bytes := join (concat (map print_item (items c)) ++ [[]]).
End Print.

(** ** Comments [config.rs:79-122] *)

(** [str::starts_with], as at [config.rs:83]. *)
Definition starts_with (p l : bytes) : bool := beq (take (length p) l) p.

(** The comments put between the lines [config.rs:75-126]. *)
Definition comments (l : bytes) : list bytes :=
  if starts_with (str "connectionUrl:") l then
    map str [""; "# The connection url for communications between server / client.";
      "# - `unix:///path/to/unix/socket?k=Yada`"; "# - `named_pipe:\\.\pipe\my_pipe_name?k=Yada`";
      "# - (not yet supported) `tcp://127.0.0.1:12345?k=Yada`"]%string
  else if starts_with (str "pidFile:") l then
    map str [""; "# The pid file for managing a running lair-keystore process"]%string
  else if starts_with (str "storeFile:") l then
    map str [""; "# The sqlcipher store file for persisting secrets"]%string
  else if starts_with (str "signatureFallback:") l then
    map str [""; "# Configuration for managing sign_by_pub_key fallback";
      "# in case the pub key does not exist in the lair store."; "# - `signatureFallback: none`"; "# - ```";
      "#   signatureFallback: !command"; "#     # 'program' will resolve to a path, specifying 'echo'";
      "#     # will try to run './echo', probably not what you want."; "#     program: ""./my-executable""";
      "#     # args are optional"; "#     args:"; "#       - test-arg1"; "#       - test-arg2"; "#   ```"]%string
  else if starts_with (str "databaseSalt:") l then
    map str [""; "# -- cryptographic secrets --";
      "# If you modify the data below, you risk losing access to your keys."]%string
  else [].

(** Each goes before the line of its key [config.rs:75-126]. *)
Definition annotate (ls : list bytes) : list bytes :=
  match ls with [] => [] | l :: ls => l :: concat (map (fun l => comments l ++ [l]) ls) end.

(** [Display for LairServerConfigInner] [config.rs:75-126]. *)
Definition display (Y : Yaml) (c : config) : bytes := join (annotate (split_on nl (yaml_text Y c))).

(** ** Reading lines *)

(** Spaces at the front of a line. Crates [serde_yaml], [libyaml], called at [config.rs:128-132]. *)
Fixpoint spaces (l : bytes) : nat :=
  match l with b :: l => if is space b then S (spaces l) else 0 | [] => 0 end.

(** Crates [serde_yaml], [libyaml], called at [config.rs:128-132]. *)
Definition blank (l : bytes) : bool := forallb (is space) l.
(** Crates [serde_yaml], [libyaml], called at [config.rs:128-132]. *)
Definition comment (l : bytes) : bool :=
  match drop (spaces l) l with b :: _ => is hash b | [] => false end.

(** What follows the first [": "]. Crates [serde_yaml], [libyaml], called at [config.rs:128-132]. *)
Fixpoint after_colon (l : bytes) : option bytes :=
  match l with
  | x3a :: x20 :: l => Some l
  | _ :: l => after_colon l
  | [] => None
  end.

(** The value of a line without indentation. Crates [serde_yaml], [libyaml], called at [config.rs:128-132]. *)
Definition value_part (l : bytes) : option bytes :=
  match l with x2d :: x20 :: l => Some l | _ => after_colon l end.

(** A block header: whether it has an indentation hint (of two), and its chomping.
    Crates [serde_yaml], [libyaml], called at [config.rs:128-132]. *)
Definition header (v : bytes) : option (bool * chomp) :=
  match v with
  | [x7c] => Some (false, Clip)
  | [x7c; x2d] => Some (false, Strip)
  | [x7c; x2b] => Some (false, Keep)
  | [x7c; x32] => Some (true, Clip)
  | [x7c; x32; x2d] => Some (true, Strip)
  | [x7c; x32; x2b] => Some (true, Keep)
  | _ => None
  end.

(** A block being read: its first line, the indentation of that line and that of the block, once
    known, and its lines so far. Crates [serde_yaml], [libyaml], called at [config.rs:128-132]. *)
Record block := Block { b_head : bytes; b_par : nat; b_ind : option nat; b_chomp : chomp; b_lines : list bytes }.

(** [yaml_parser_scan_block_scalar]: the text of a block.
    Crates [serde_yaml], [libyaml], called at [config.rs:128-132]. *)
Fixpoint drop_blank (r : list bytes) : list bytes := match r with [] :: r => drop_blank r | _ => r end.
(** Crates [serde_yaml], [libyaml], called at [config.rs:128-132]. *)
Definition content (c : chomp) (ls : list bytes) : bytes :=
  let core := rev (drop_blank (rev ls)) in
  let blanks := length ls - length core in
  let ending := match core with [] => [] | _ => [nl] end in
  join core ++ match c with Strip => [] | Clip => ending | Keep => ending ++ repeat nl blanks end.

(** A line, with the text of its block if it starts one.
    Crates [serde_yaml], [libyaml], called at [config.rs:128-132]. *)
Definition entry := (bytes * option bytes)%type.
(** Crates [serde_yaml], [libyaml], called at [config.rs:128-132]. *)
Record rstate := RState { r_out : list entry; r_block : option block }.

(** Crates [serde_yaml], [libyaml], called at [config.rs:128-132]. *)
Definition flush (s : rstate) : rstate :=
  match r_block s with
  | None => s
  | Some b => RState (r_out s ++ [(b_head b, Some (content (b_chomp b) (b_lines b)))]) None
  end.

(** Crates [serde_yaml], [libyaml], called at [config.rs:128-132]. *)
Definition outside (out : list entry) (l : bytes) : rstate :=
  if blank l || comment l then RState out None else
  match match value_part (drop (spaces l) l) with Some v => header v | None => None end with
  | Some (hint, c) => RState out (Some (Block l (spaces l) (if hint then Some (spaces l + 2) else None) c []))
  | None => RState (out ++ [(l, None)]) None
  end.

(** Crates [serde_yaml], [libyaml], called at [config.rs:128-132]. *)
Definition push_line (b : block) (ind : option nat) (l : bytes) : block :=
  Block (b_head b) (b_par b) ind (b_chomp b) (b_lines b ++ [l]).

(** Crates [serde_yaml], [libyaml], called at [config.rs:128-132]. *)
Definition rstep (s : rstate) (l : bytes) : rstate :=
  match r_block s with
  | None => outside (r_out s) l
  | Some b =>
      if blank l then
        RState (r_out s) (Some (push_line b (b_ind b) (match b_ind b with Some i => drop i l | None => [] end)))
      else match b_ind b with
           | Some i => if Nat.leb i (spaces l) then RState (r_out s) (Some (push_line b (Some i) (drop i l)))
                       else outside (r_out (flush s)) l
           | None => if Nat.ltb (b_par b) (spaces l)
                     then RState (r_out s) (Some (push_line b (Some (spaces l)) (drop (spaces l) l)))
                     else outside (r_out (flush s)) l
           end
  end.

(** Crates [serde_yaml], [libyaml], called at [config.rs:128-132]. *)
Definition read_lines (ls : list bytes) : list entry := r_out (flush (fold_left rstep ls (RState [] None))).

(** ** Reading the configuration *)

Section Read.
  Variable Y : Yaml.

  (** The string after [key]. Crates [serde_yaml], [libyaml], called at [config.rs:128-132]. *)
  Definition string_of (key : bytes) (e : entry) : option bytes :=
    let '(l, b) := e in
    if starts_with key l then match b with Some s => Some s | None => y_unflow Y (drop (length key) l) end else None.
  (** Crates [serde_yaml], [libyaml], called at [config.rs:128-132]. *)
  Definition raw_of (key : bytes) (e : entry) : option bytes :=
    let '(l, b) := e in
    if starts_with key l then match b with Some _ => None | None => Some (drop (length key) l) end else None.

  (** [BinDataSized] [encoding_types.rs:163-177]. *)
  Definition sized (n : nat) (s : bytes) : option bytes := match sized_from_str n s with Ok b => Some b | Err _ => None end.
  (** [u32] [config.rs:34-73]. *)
  Definition u32 (s : bytes) : option N := digits s ≫= fun n => if (n <? 2 ^ 32)%N then Some n else None.

  (** As many list entries as there are. Crates [serde_yaml], [libyaml], called at [config.rs:128-132]. *)
  Fixpoint list_of (key : bytes) (es : list entry) : list bytes * list entry :=
    match es with
    | e :: r => match string_of key e with
                | Some s => let '(l, r) := list_of key r in (s :: l, r)
                | None => ([], es)
                end
    | [] => ([], [])
    end.

  (** [LairServerSignatureFallback] [config.rs:11-32]. *)
  Definition read_fallback (es : list entry) : option (fallback * list entry) :=
    match es with
    | e :: es =>
        t ← raw_of (str "signatureFallback: ") e;
        if beq t (str "none") then Some (None, es) else
        if negb (beq t (str "!command")) then None else
        match es with
        | p :: a :: es =>
            program ← string_of (str "  program: ") p;
            if beq (fst a) (str "  args: null") then Some (Some (program, None), es) else
            if beq (fst a) (str "  args: []") then Some (Some (program, Some []), es) else
            if beq (fst a) (str "  args:") then
              let '(l, es) := list_of (str "  - ") es in Some (Some (program, Some l), es)
            else None
        | _ => None
        end
    | [] => None
    end.

  (** [SecretDataSized] [encoding_types.rs:250-256] in [config.rs:34-73]. *)
  Definition read_secret (key : bytes) (es : list entry) : option (secret * list entry) :=
    match es with
    | k :: h :: c :: es =>
        if negb (beq (fst k) key) then None else
        h ← string_of (str "- ") h; h ← sized 24 h;
        c ← string_of (str "- ") c; c ← sized 49 c;
        Some (Sec h c, es)
    | _ => None
    end.

  (** [from_bytes] [config.rs:128-132]. *)
  Definition read_config (es : list entry) : option config :=
    match es with
    | u :: p :: s :: es =>
        u ← string_of (str "connectionUrl: ") u; u ← parse_url u;
        p ← string_of (str "pidFile: ") p; s ← string_of (str "storeFile: ") s;
        fe ← read_fallback es; let '(f, es) := fe in
        match es with
        | d :: t :: m :: o :: es =>
            d ← string_of (str "databaseSalt: ") d; d ← sized 16 d;
            t ← string_of (str "runtimeSecretsSalt: ") t; t ← sized 16 t;
            m ← raw_of (str "runtimeSecretsMemLimit: ") m; m ← u32 m;
            o ← raw_of (str "runtimeSecretsOpsLimit: ") o; o ← u32 o;
            ke ← read_secret (str "runtimeSecretsContextKey:") es; let '(k, es) := ke in
            ie ← read_secret (str "runtimeSecretsIdSeed:") es; let '(i, es) := ie in
            match es with [] => Some (Config u p s f d t m o k i) | _ => None end
        | _ => None
        end
    | _ => None
    end.

  (** [from_bytes] [config.rs:130-132] *)
  Definition from_bytes (text : bytes) : option config := read_config (read_lines (split_on nl text)).
End Read.
