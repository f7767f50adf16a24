(** * Store: where entries are kept

    Three things: what a store must do ([spec_*], independent of any code), the
    in-memory store of [crates/lair_keystore_api/src/mem_store.rs], and the
    sqlite store of [crates/lair_keystore/src/store_sqlite.rs] over
    [crates/lair_keystore/src/sql/*.sql]. *)

From Verif Require Import Base Types Codec.

(** How an entry is looked up: [AsLairStore] [lair_store.rs:17-52]. *)
Inductive key :=
| ByTag (t : bytes)
| ByEd (pk : bytes)
| ByX (pk : bytes).

(** ** What a store must do *)

(** [e] goes under the key [k]. Specification of [AsLairStore] [lair_store.rs:17-52]. *)
Definition under (k : key) (e : entry) : bool :=
  match k with
  | ByTag t => beq (tag_of e) t
  | ByEd pk => match seed_info_of e with Some si => beq (si_ed si) pk | None => false end
  | ByX pk => match seed_info_of e with Some si => beq (si_x si) pk | None => false end
  end.

(** The keys of an entry. Specification of [AsLairStore] [lair_store.rs:17-52]. *)
Definition keys_of (e : entry) : list key :=
  ByTag (tag_of e) ::
  match seed_info_of e with
  | Some si => [ByEd (si_ed si); ByX (si_x si)]
  | None => []
  end.

(** Some key of [e] is already taken. Specification of [AsLairStore] [lair_store.rs:17-52]. *)
Definition taken (L : list entry) (e : entry) : bool :=
  existsb (fun k => existsb (under k) L) (keys_of e).

(** Specification of [AsLairStore] [lair_store.rs:17-52]. *)
Definition spec_get (L : list entry) (k : key) : option entry := find (under k) L.

(** Specification of [AsLairStore] [lair_store.rs:17-52]. *)
Definition spec_write (L : list entry) (e : entry) : option (list entry) :=
  if taken L e then None else Some (L ++ [e]).

(** ** A store implementation *)

(** [AsLairStore] and [AsLairStoreFactory] [lair_store.rs:14-62]. *)
Record store_impl := StoreImpl {
  st : Type;
  st_init : st;
  st_write : st -> entry -> res unit * st;
  st_list : st -> res (list entry_info);
  st_get : st -> key -> res entry;
  st_reopen : st -> st
}.

(** [st_reopen] is what a later process finds.  Being a correct store:
    [st_rel s L] says that [s] holds the entries [L],
    listed oldest first, and every operation does what the specification says.
    Specification of [AsLairStore] [lair_store.rs:17-52]. *)
Record StoreOk (S : store_impl) := MkStoreOk {
  st_rel : st S -> list entry -> Prop;
  st_init_ok : st_rel (st_init S) [];
  st_write_ok : forall s L e, st_rel s L -> entry_ok e ->
    match spec_write L e with
    | Some L' => fst (st_write S s e) = Ok tt /\ st_rel (snd (st_write S s e)) L'
    | None => is_ok (fst (st_write S s e)) = false /\ st_rel (snd (st_write S s e)) L
    end;
  st_list_ok : forall s L, st_rel s L ->
    exists l, st_list S s = Ok l /\ l ≡ₚ map info_of L;
  st_get_ok : forall s L k, st_rel s L ->
    match spec_get L k with
    | Some e => st_get S s k = Ok e
    | None => is_ok (st_get S s k) = false
    end;
  st_persist : bool;
  st_reopen_ok : forall s L, st_rel s L -> st_rel (st_reopen S s) (if st_persist then L else [])
}.

(** ** The in-memory store *)

(** [PrivMemStoreInner] [mem_store.rs:44-53].  The bidirectional context key
    is kept with the server state. *)
Record mem := Mem {
  m_tag : gmap bytes entry;
  m_ed : gmap bytes bytes;
  m_x : gmap bytes bytes
}.

(** [mem_store.rs:29-34] *)
Definition mem_init : mem := Mem ∅ ∅ ∅.

(** [list_entries] [mem_store.rs:62-93].  The order of a Rust [HashMap] is
    unspecified; the model uses the order of [gmap]. *)
Definition mem_list (s : mem) : res (list entry_info) :=
  Ok (map (fun kv => info_of (snd kv)) (map_to_list (m_tag s))).

(** [HashMap::contains_key] [mem_store.rs:95-150]. *)
Definition has {A} (m : gmap bytes A) (k : bytes) : bool :=
  match m !! k with Some _ => true | None => false end.

(** [write_entry] [mem_store.rs:95-150]. *)
Definition mem_write (s : mem) (e : entry) : res unit * mem :=
  let tag := tag_of e in
  if has (m_tag s) tag then (Err (str "tag already registered"), s) else
  match seed_info_of e with
  | Some si =>
      if has (m_ed s) (si_ed si) then (Err (str "ed pk already registered"), s) else
      if has (m_x s) (si_x si) then (Err (str "x pk already registered"), s) else
      (Ok tt, Mem (<[tag := e]> (m_tag s)) (<[si_ed si := tag]> (m_ed s))
                  (<[si_x si := tag]> (m_x s)))
  | None => (Ok tt, Mem (<[tag := e]> (m_tag s)) (m_ed s) (m_x s))
  end.

(** [get_entry_by_tag] [mem_store.rs:152-165],
    [get_entry_by_ed25519_pub_key] [167-186],
    [get_entry_by_x25519_pub_key] [188-207]. *)
Definition mem_get (s : mem) (k : key) : res entry :=
  let by_tag t := ok_of_opt (str "tag not found") (m_tag s !! t) in
  match k with
  | ByTag t => by_tag t
  | ByEd pk => rbind (ok_of_opt (str "pub key not found") (m_ed s !! pk)) by_tag
  | ByX pk => rbind (ok_of_opt (str "pub key not found") (m_x s !! pk)) by_tag
  end.

(** [create_mem_store_factory] [mem_store.rs:10-42]: each connection to the
    store makes a new, empty one. *)
Definition mem_reopen (_ : mem) : mem := mem_init.

(** [AsLairStore for PrivMemStore] [mem_store.rs:55-207]. *)
Definition mem_store : store_impl :=
  StoreImpl mem mem_init mem_write mem_list mem_get mem_reopen.

(** ** The sqlite store *)

(** A row of [lair_keystore] [sql/schema.sql:5-18]; the [id] column is the
    position. *)
Record row := Row {
  r_tag : bytes;
  r_ed : option bytes;
  r_x : option bytes;
  r_data : bytes
}.

(** Comparison with a nullable column [sql/schema.sql:5-18]. *)
Definition opt_is (o : option bytes) (b : bytes) : bool :=
  match o with Some a => beq a b | None => false end.
(** SQL equality of two nullable columns under [UNIQUE]: NULLs are distinct. [sql/schema.sql:5-18]. *)
Definition sql_same (a b : option bytes) : bool :=
  match b with Some b => opt_is a b | None => false end.

(** The three [UNIQUE] constraints of [sql/schema.sql:9-15]. *)
Definition violates (t : list row) (r : row) : bool :=
  existsb (fun r' => beq (r_tag r') (r_tag r) || sql_same (r_ed r') (r_ed r)
                     || sql_same (r_x r') (r_x r)) t.

(** [INSERT OR ROLLBACK] [sql/insert.sql], [sql/insert_seed.sql] in one
    transaction [store_sqlite.rs:78-116]. *)
Definition sql_insert (t : list row) (r : row) : res unit * list row :=
  if violates t r then (Err (str "UNIQUE constraint failed"), t) else (Ok tt, t ++ [r]).

(** [write_entry] [store_sqlite.rs:390-437]. *)
Definition sql_write (t : list row) (e : entry) : res unit * list row :=
  match seed_info_of e with
  | Some si =>
      sql_insert t (Row (tag_of e) (Some (si_ed si)) (Some (si_x si)) (encode_entry e))
  | None => sql_insert t (Row (tag_of e) None None (encode_entry e))
  end.

(** [LairEntryInner::decode] of every row [store_sqlite.rs:344-388]. *)
Fixpoint decode_all (l : list bytes) : res (list entry) :=
  match l with
  | [] => Ok []
  | d :: l => rbind (decode_entry d) (fun e => rmap (cons e) (decode_all l))
  end.

(** [list_entries] [store_sqlite.rs:344-388] over [sql/select_all.sql]. *)
Definition sql_list (t : list row) : res (list entry_info) :=
  rmap (map info_of) (decode_all (map r_data t)).

(** [SELECT data ... WHERE ...] of [sql/select_by_tag.sql],
    [sql/select_by_sign_pk.sql], [store_sqlite.rs:493]. *)
Definition sql_where (k : key) (r : row) : bool :=
  match k with
  | ByTag t => beq (r_tag r) t
  | ByEd pk => opt_is (r_ed r) pk
  | ByX pk => opt_is (r_x r) pk
  end.

(** [get_entry_by_*] [store_sqlite.rs:439-504]. *)
Definition sql_get (t : list row) (k : key) : res entry :=
  rbind (ok_of_opt (str "Query returned no rows") (find (sql_where k) t))
    (fun r => decode_entry (r_data r)).

(** The table outlives the process [store_sqlite.rs:141-253] (the schema is
    created only if it does not exist, [sql/schema.sql]). *)
Definition sql_reopen (t : list row) : list row := t.

(** [AsLairStore for SqlPool] [store_sqlite.rs:339-504]. *)
Definition sql_store : store_impl :=
  StoreImpl (list row) [] sql_write sql_list sql_get sql_reopen.
