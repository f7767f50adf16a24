(** * ConnUrl: connection URLs

    [url] 2.5.4 as far as [unix] URLs without a host need it (the only ones the configuration
    generator writes on Unix, [crates/lair_keystore_api/src/config.rs:240-251]), and the
    functions of [config.rs:276-319] on them.  Not modelled: other schemes, hosts, ports and
    user names (here such text is not a URL). *)

From Verif Require Import Base Utf8 Base64.

(** Text up to the first byte satisfying [p], and the rest.
    Crate [url], called at [config.rs:246-255,276-319]. *)
Fixpoint cut (p : byte -> bool) (l : bytes) : bytes * bytes :=
  match l with
  | [] => ([], [])
  | b :: r => if p b then ([], l) else let (x, y) := cut p r in (b :: x, y)
  end.

(** Crate [url], called at [config.rs:246-255,276-319]. *)
Definition is (c b : byte) : bool := Byte.eqb c b.

(** Pieces between the bytes [c] ([str::split]). Crate [url], called at [config.rs:246-255,276-319]. *)
Fixpoint split_on (c : byte) (l : bytes) : list bytes :=
  match l with
  | [] => [[]]
  | b :: r =>
      if is c b then [] :: split_on c r
      else match split_on c r with x :: xs => (b :: x) :: xs | [] => [[b]] end
  end.

(** ** Percent encoding *)

(** Crate [url], called at [config.rs:246-255,276-319]. *)
Definition hex_up (n : N) : byte := if (n <? 10)%N then bn (n + 48) else bn (n + 55).

(** [utf8_percent_encode]; [esc] is the set. Crate [url], called at [config.rs:246-255,276-319]. *)
Definition pct_encode (esc : byte -> bool) (l : bytes) : bytes :=
  concat (map (fun b => if esc b
                        then [x25; hex_up (nb b / 16); hex_up (nb b mod 16)]%N else [b]) l).

(** Crate [url], called at [config.rs:246-255,276-319]. *)
Definition hex_val (b : byte) : option N :=
  let n := nb b in
  if (48 <=? n)%N && (n <=? 57)%N then Some (n - 48)%N
  else if (65 <=? n)%N && (n <=? 70)%N then Some (n - 55)%N
  else if (97 <=? n)%N && (n <=? 102)%N then Some (n - 87)%N
  else None.

(** [percent_decode]: what is not a percent sign and two digits stays.
    Crate [url], called at [config.rs:246-255,276-319]. *)
Fixpoint pct_decode (l : bytes) : bytes :=
  match l with
  | [] => []
  | b :: r =>
      if is x25 b then
        match r with
        | h :: k :: r' =>
            match hex_val h, hex_val k with
            | Some x, Some y => bn (16 * x + y)%N :: pct_decode r'
            | _, _ => b :: pct_decode r
            end
        | _ => b :: pct_decode r
        end
      else b :: pct_decode r
  end.

(** Crate [url], called at [config.rs:246-255,276-319]. *)
Definition any_of (s : bytes) (b : byte) : bool := existsb (is b) s.

(** Controls, space and non-ASCII bytes. Crate [url], called at [config.rs:246-255,276-319]. *)
Definition esc_base (b : byte) : bool := (nb b <=? 32)%N || (127 <=? nb b)%N.
(** The fragment, query and path sets. Crate [url], called at [config.rs:246-255,276-319]. *)
Definition esc_fragment (b : byte) : bool := esc_base b || any_of (str """<>`") b.
(** Crate [url], called at [config.rs:246-255,276-319]. *)
Definition esc_query (b : byte) : bool := esc_base b || any_of (str """#<>") b.
(** Crate [url], called at [config.rs:246-255,276-319]. *)
Definition esc_path (b : byte) : bool := esc_base b || any_of (str """#<>?`{}") b.

(** ** Parsing *)

(** A [unix] URL: the path ([None] when empty, else its segments), query and fragment, all as
    they stand in the serialized text. Crate [url], called at [config.rs:246-255,276-319]. *)
Record url := Url { u_path : option (list bytes); u_query : option bytes; u_frag : option bytes }.

(** C0 controls and spaces at both ends. Crate [url], called at [config.rs:246-255,276-319]. *)
Definition edge (b : byte) : bool := (nb b <=? 32)%N.
(** Crate [url], called at [config.rs:246-255,276-319]. *)
Fixpoint skip_edge (l : bytes) : bytes :=
  match l with [] => [] | b :: r => if edge b then skip_edge r else l end.
(** Crate [url], called at [config.rs:246-255,276-319]. *)
Definition trim_edges (l : bytes) : bytes := rev (skip_edge (rev (skip_edge l))).

(** Tabs and line ends are passed over everywhere. Crate [url], called at [config.rs:246-255,276-319]. *)
Definition tab_nl (b : byte) : bool := is x09 b || is x0a b || is x0d b.

(** Crate [url], called at [config.rs:246-255,276-319]. *)
Definition single_dot (s : bytes) : bool := existsb (beq s) [str "."; str "%2e"; str "%2E"].
(** Crate [url], called at [config.rs:246-255,276-319]. *)
Definition double_dot (s : bytes) : bool :=
  existsb (beq s) [str ".."; str "%2e%2e"; str "%2e%2E"; str "%2E%2e"; str "%2E%2E";
                   str "%2e."; str "%2E."; str ".%2e"; str ".%2E"].

(** [Parser::parse_path]: the segments so far (last first), those to come.
    Crate [url], called at [config.rs:246-255,276-319]. *)
Fixpoint path_segs (acc : list bytes) (l : list bytes) : list bytes :=
  match l with
  | [] => rev acc
  | s :: l =>
      let s := pct_encode esc_path s in
      if double_dot s then
        match l with [] => rev ([] :: tail acc) | _ => path_segs (tail acc) l end
      else if single_dot s then
        match l with [] => rev ([] :: acc) | _ => path_segs acc l end
      else path_segs (s :: acc) l
  end.

(** Crate [url], called at [config.rs:246-255,276-319]. *)
Definition slash : byte := x2f.
(** Crate [url], called at [config.rs:246-255,276-319]. *)
Definition hash : byte := x23.
(** Crate [url], called at [config.rs:246-255,276-319]. *)
Definition quest : byte := x3f.

(** The text after the scheme and the two slashes. Crate [url], called at [config.rs:246-255,276-319]. *)
Definition parse_rest (rest : bytes) : option url :=
  let (auth, r) := cut (fun b => is slash b || is quest b || is hash b) rest in
  match auth with
  | _ :: _ => None
  | [] =>
      let (path, r) := cut (fun b => is quest b || is hash b) r in
      let (query, frag) := cut (is hash) r in
      Some (Url
        (match path with
         | [] => None
         | _ :: p => Some (path_segs [] (split_on slash p))
         end)
        (match query with [] => None | _ :: q => Some (pct_encode esc_query q) end)
        (match frag with [] => None | _ :: f => Some (pct_encode esc_fragment f) end))
  end.

(** Crate [url], called at [config.rs:246-255,276-319]. *)
Definition scheme : bytes := str "unix://".

(** [Url::parse]. Crate [url], called at [config.rs:246-255,276-319]. *)
Definition parse_url (text : bytes) : option url :=
  let t := List.filter (fun b => negb (tab_nl b)) (trim_edges text) in
  if beq (take 7 t) scheme then parse_rest (drop 7 t) else None.

(** [Url::as_str]. Crate [url], called at [config.rs:246-255,276-319]. *)
Definition url_text (u : url) : bytes :=
  scheme
  ++ match u_path u with None => [] | Some l => concat (map (cons slash) l) end
  ++ match u_query u with None => [] | Some q => quest :: q end
  ++ match u_frag u with None => [] | Some f => hash :: f end.

(** [Url::query_pairs] ([form_urlencoded::parse]).  Decoded bytes that are not UTF-8 are kept
    as they are: what the code replaces them with is neither ["k"] nor base64 either.
    Crate [url], called at [config.rs:246-255,276-319]. *)
Definition form_decode (s : bytes) : bytes :=
  pct_decode (map (fun b => if is x2b b then x20 else b) s).
(** Crate [url], called at [config.rs:246-255,276-319]. *)
Definition pair_of (s : bytes) : bytes * bytes :=
  let (k, r) := cut (is x3d) s in (form_decode k, form_decode (tail r)).
(** Crate [url], called at [config.rs:246-255,276-319]. *)
Definition query_pairs (u : url) : list (bytes * bytes) :=
  match u_query u with
  | None => []
  | Some q => map pair_of (List.filter (fun s => negb (beq s [])) (split_on x26 q))
  end.

(** [get_server_pub_key_from_connection_url] [config.rs:310-319]. *)
Definition server_key (u : url) : res bytes :=
  match find (fun kv => beq kv.1 (str "k")) (query_pairs u) with
  | Some (_, v) => sized_from_str 32 v
  | None => Err (str "no server_pub_key on connection_url")
  end.

(** [Url::to_file_path], and [get_connection_path] [config.rs:294-307]; [None] is the panic. *)
Definition file_path (u : url) : option bytes :=
  match u_path u with
  | None => None
  | Some l =>
      let p := concat (map (fun s => slash :: pct_decode s) l) in
      Some (match rev p with
            | a :: b :: _ :: _ =>
                if any_of (str ":|") a
                   && ((65 <=? nb b) && (nb b <=? 90) || (97 <=? nb b) && (nb b <=? 122))%N
                then p ++ [slash] else p
            | _ => p
            end)
  end.

(** [PathBuf::push] of a plain name to an absolute path. Called at [config.rs:246-255]. *)
Definition push (dir name : bytes) : bytes :=
  match rev dir with
  | b :: _ => if is slash b then dir ++ name else dir ++ slash :: name
  | [] => name
  end.

(** The connection URL of a generated configuration [config.rs:240-251]; [dir] is the
    canonical path of the directory, which must be UTF-8 ([to_str().unwrap()]), and [None] is
    the panic of either [unwrap]. *)
Definition generated_url (dir pk : bytes) : option url :=
  if utf8 dir
  then parse_url (scheme ++ push dir (str "socket") ++ str "?k=" ++ to_b64url pk)
  else None.
