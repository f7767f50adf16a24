(** * Json: the lines exchanged with the fallback signer

    [lair_server.rs:233-247]: a request is one line of JSON, printed by [serde_json] (1.0.133);
    [lair_server.rs:279-296]: an answer is a line of JSON, read by [serde_json::from_str] into
    [Res].  First the printer and the reader of the code; then what JSON texts are (RFC 8259). *)

From Verif Require Import Base Utf8 Base64 ConnUrl Fallback.

(** ** Values *)

(** A character of a string: a byte as it stands (or a two-character escape for it), or a
    [\u] escape, which names a UTF-16 code unit. Crate [serde_json], called at [lair_server.rs:279-296]. *)
Inductive unit16 := Raw (b : byte) | Esc (n : N).

(** Crate [serde_json], called at [lair_server.rs:279-296]. *)
Inductive json :=
| JNull
| JBool (b : bool)
| JNum (digits : bytes)            (* as written *)
| JStr (s : list unit16)
| JArr (l : list json)
| JObj (ms : list (list unit16 * json)).

(** The UTF-8 form of a code point. Crate [serde_json], called at [lair_server.rs:279-296]. *)
Definition utf8_of (n : N) : bytes :=
  (if n <? 128 then [bn n]
   else if n <? 2048 then [bn (192 + n / 64); bn (128 + n mod 64)]
   else if n <? 65536 then [bn (224 + n / 4096); bn (128 + n / 64 mod 64); bn (128 + n mod 64)]
   else [bn (240 + n / 262144); bn (128 + n / 4096 mod 64); bn (128 + n / 64 mod 64); bn (128 + n mod 64)])%N.

(** Crate [serde_json], called at [lair_server.rs:279-296]. *)
Definition high (n : N) : bool := ((55296 <=? n) && (n <? 56320))%N.
(** Crate [serde_json], called at [lair_server.rs:279-296]. *)
Definition low (n : N) : bool := ((56320 <=? n) && (n <? 57344))%N.

(** The text of a string; [None] for an unpaired surrogate ([parse_unicode_escape]).
    Crate [serde_json], called at [lair_server.rs:279-296]. *)
Fixpoint chars_of (s : list unit16) : option bytes :=
  match s with
  | [] => Some []
  | Raw b :: s => cons b <$> chars_of s
  | Esc n :: s =>
      if low n then None else
      if high n then
        match s with
        | Esc m :: s =>
            if low m then app (utf8_of (65536 + (n - 55296) * 1024 + (m - 56320))%N) <$> chars_of s
            else None
        | _ => None
        end
      else app (utf8_of n) <$> chars_of s
  end.

(** ** Printing *)

(** Crate [serde_json], called at [lair_server.rs:237-245]. *)
Definition quote : byte := x22.
(** Crate [serde_json], called at [lair_server.rs:237-245]. *)
Definition backslash : byte := x5c.

(** Crate [serde_json], called at [lair_server.rs:237-245]. *)
Definition hex_low (n : N) : byte := if (n <? 10)%N then bn (n + 48) else bn (n + 87).

(** [format_escaped_str_contents] and [CharEscape]. Crate [serde_json], called at [lair_server.rs:237-245]. *)
Definition escape (b : byte) : bytes :=
  if is quote b then [backslash; quote]
  else if is backslash b then [backslash; backslash]
  else if is x08 b then str "\b"
  else if is x09 b then str "\t"
  else if is x0a b then str "\n"
  else if is x0c b then str "\f"
  else if is x0d b then str "\r"
  else if (nb b <? 32)%N then str "\u00" ++ [hex_low (nb b / 16); hex_low (nb b mod 16)]%N
  else [b].

(** Crate [serde_json], called at [lair_server.rs:237-245]. *)
Definition json_string (s : bytes) : bytes := quote :: concat (map escape s) ++ [quote].

(** The line for a request [lair_server.rs:233-247].  The members stand in the order in which
    they are inserted: [one_err] turns on [preserve_order] of [serde_json] ([Cargo.lock]: it depends
    on [indexmap]). *)
Definition request_line (r : sign_req) : bytes :=
  str "{""msgId"":" ++ json_string (s_id r)
  ++ str ",""pubKey"":" ++ json_string (to_b64url (s_pk r))
  ++ str ",""dataToSign"":" ++ json_string (to_b64std (s_data r)) ++ str "}" ++ [x0a].

(** ** Reading *)

(** Crate [serde_json], called at [lair_server.rs:279-296]. *)
Definition ws (b : byte) : bool := is x20 b || is x09 b || is x0a b || is x0d b.
(** Crate [serde_json], called at [lair_server.rs:279-296]. *)
Fixpoint skip_ws (l : bytes) : bytes :=
  match l with b :: r => if ws b then skip_ws r else l | [] => [] end.

(** [parse_str]/[ignore_str] after the opening quote. Crate [serde_json], called at [lair_server.rs:279-296]. *)
Fixpoint read_str (l : bytes) : option (list unit16 * bytes) :=
  match l with
  | [] => None
  | b :: r =>
      if is quote b then Some ([], r)
      else if is backslash b then
        match r with
        | c :: r =>
            let lit x := match read_str r with Some (s, r) => Some (Raw x :: s, r) | None => None end in
            if is quote c then lit quote
            else if is backslash c then lit backslash
            else if is x2f c then lit x2f
            else if is x62 c then lit x08
            else if is x66 c then lit x0c
            else if is x6e c then lit x0a
            else if is x72 c then lit x0d
            else if is x74 c then lit x09
            else if is x75 c then
              match r with
              | p :: q :: u :: v :: r =>
                  match hex_val p, hex_val q, hex_val u, hex_val v with
                  | Some p, Some q, Some u, Some v =>
                      match read_str r with
                      | Some (s, r) => Some (Esc (4096 * p + 256 * q + 16 * u + v)%N :: s, r)
                      | None => None
                      end
                  | _, _, _, _ => None
                  end
              | _ => None
              end
            else None
        | [] => None
        end
      else if (nb b <? 32)%N then None
      else match read_str r with Some (s, r) => Some (Raw b :: s, r) | None => None end
  end.

(** Crate [serde_json], called at [lair_server.rs:279-296]. *)
Definition digit (b : byte) : bool := ((48 <=? nb b) && (nb b <=? 57))%N.
(** Crate [serde_json], called at [lair_server.rs:279-296]. *)
Definition num_char (b : byte) : bool := digit b || any_of (str "+-.eE") b.

(** [ignore_number]: the parts of a number. Crate [serde_json], called at [lair_server.rs:279-296]. *)
Definition all_digits (l : bytes) : bool := match l with [] => false | _ => forallb digit l end.
(** Crate [serde_json], called at [lair_server.rs:279-296]. *)
Definition exponent (l : bytes) : bool :=
  match l with
  | [] => true
  | e :: r =>
      any_of (str "eE") e
      && match r with
         | s :: r' => if any_of (str "+-") s then all_digits r' else all_digits r
         | [] => false
         end
  end.
(** Crate [serde_json], called at [lair_server.rs:279-296]. *)
Definition number (l : bytes) : bool :=
  let l := match l with b :: r => if is x2d b then r else l | [] => [] end in
  let (i, r) := cut (fun b => negb (digit b)) l in
  match i with
  | [] => false
  | d :: i => (negb (is x30 d) || beq i [])
      && match r with
         | b :: r' => if is x2e b
                      then let (f, e) := cut (fun b => negb (digit b)) r' in negb (beq f []) && exponent e
                      else exponent r
         | [] => true
         end
  end.

(** Crate [serde_json], called at [lair_server.rs:279-296]. *)
Definition read_lit (w : bytes) (v : json) (l : bytes) : option (json * bytes) :=
  if beq (take (length w) l) w then Some (v, drop (length w) l) else None.

(** A value, after blanks; the first argument bounds the nesting (the text is longer).
    Crate [serde_json], called at [lair_server.rs:279-296]. *)
Fixpoint read_val (n : nat) (l : bytes) : option (json * bytes) :=
  match n with
  | O => None
  | S n =>
      match skip_ws l with
      | [] => None
      | b :: r =>
          if is quote b then match read_str r with Some (s, r) => Some (JStr s, r) | None => None end
          else if is x5b b then
            match skip_ws r with
            | c :: r' => if is x5d c then Some (JArr [], r')
                         else match read_items n r with Some (vs, r) => Some (JArr vs, r) | None => None end
            | [] => None
            end
          else if is x7b b then
            match skip_ws r with
            | c :: r' => if is x7d c then Some (JObj [], r')
                         else match read_members n r with Some (ms, r) => Some (JObj ms, r) | None => None end
            | [] => None
            end
          else if is x6e b then read_lit (str "null") JNull (b :: r)
          else if is x74 b then read_lit (str "true") (JBool true) (b :: r)
          else if is x66 b then read_lit (str "false") (JBool false) (b :: r)
          else let (d, r) := cut (fun b => negb (num_char b)) (b :: r) in
               if number d then Some (JNum d, r) else None
      end
  end
with read_items (n : nat) (l : bytes) : option (list json * bytes) :=
  match n with
  | O => None
  | S n =>
      match read_val n l with
      | Some (v, r) =>
          match skip_ws r with
          | c :: r => if is x5d c then Some ([v], r)
                      else if is x2c c then
                        match read_items n r with Some (vs, r) => Some (v :: vs, r) | None => None end
                      else None
          | [] => None
          end
      | None => None
      end
  end
with read_members (n : nat) (l : bytes) : option (list (list unit16 * json) * bytes) :=
  match n with
  | O => None
  | S n =>
      match skip_ws l with
      | q :: r =>
          if is quote q then
            match read_str r with
            | Some (k, r) =>
                match skip_ws r with
                | c :: r =>
                    if is x3a c then
                      match read_val n r with
                      | Some (v, r) =>
                          match skip_ws r with
                          | c :: r => if is x7d c then Some ([(k, v)], r)
                                      else if is x2c c then
                                        match read_members n r with
                                        | Some (ms, r) => Some ((k, v) :: ms, r)
                                        | None => None
                                        end
                                      else None
                          | [] => None
                          end
                      | None => None
                      end
                    else None
                | [] => None
                end
            | None => None
            end
          else None
      | [] => None
      end
  end.

(** [serde_json::from_str], up to the type: one value and blanks.
    Crate [serde_json], called at [lair_server.rs:279-296]. *)
Definition read_json (l : bytes) : option json :=
  match read_val (S (2 * length l)) l with
  | Some (v, r) => match skip_ws r with [] => Some v | _ => None end
  | None => None
  end.

(** *** Answers *)

(** Crate [serde_json], called at [lair_server.rs:279-296]. *)
Definition text_of (v : json) : option bytes :=
  match v with JStr s => chars_of s | _ => None end.
(** Crate [serde_json], called at [lair_server.rs:279-296]. *)
Definition opt_text_of (v : json) : option (option bytes) :=
  match v with JNull => Some None | _ => Some <$> text_of v end.

(** Names of members; one that is no text is an error.
    Crate [serde_json], called at [lair_server.rs:279-296]. *)
Fixpoint named (ms : list (list unit16 * json)) : option (list (bytes * json)) :=
  match ms with
  | [] => Some []
  | (k, v) :: ms =>
      match chars_of k, named ms with
      | Some k, Some l => Some ((k, v) :: l)
      | _, _ => None
      end
  end.
(** Crate [serde_json], called at [lair_server.rs:279-296]. *)
Definition all_of (k : bytes) (l : list (bytes * json)) : list json :=
  map snd (List.filter (fun kv => beq (fst kv) k) l).

(** A member that may be missing, but not be there twice.
    Crate [serde_json], called at [lair_server.rs:279-296]. *)
Definition opt_member (k : bytes) (l : list (bytes * json)) : option (option bytes) :=
  match all_of k l with [] => Some None | [v] => opt_text_of v | _ => None end.

(** [Res] [lair_server.rs:279-285]: from an object, whose other members are ignored, or from an
    array of its three fields. *)
Definition reply_of (v : json) : line :=
  match v with
  | JObj ms =>
      match named ms with
      | Some l =>
          match all_of (str "msgId") l with
          | [i] =>
              match text_of i, opt_member (str "signature") l, opt_member (str "error") l with
              | Some i, Some s, Some e => Reply i s e
              | _, _, _ => Garbage
              end
          | _ => Garbage
          end
      | None => Garbage
      end
  | JArr [i; s; e] =>
      match text_of i, opt_text_of s, opt_text_of e with
      | Some i, Some s, Some e => Reply i s e
      | _, _, _ => Garbage
      end
  | _ => Garbage
  end.

(** [serde_json::from_str] of a line; a line that is not UTF-8 ends the loop too [278]. *)
Definition parse_line (t : bytes) : line :=
  if utf8 t then match read_json t with Some v => reply_of v | None => Garbage end else Garbage.

(** [AsyncBufReadExt::lines]: what a program printed, once it closed its output: the lines,
    without their ends (LF or CR LF); an empty last line is none. Called at [lair_server.rs:275-278]. *)
Definition chomp (l : bytes) : bytes :=
  match rev l with b :: r => if is x0d b then rev r else l | [] => [] end.
(** Called at [lair_server.rs:275-278]. *)
Definition out_lines (t : bytes) : list bytes :=
  let ls := split_on x0a t in
  match rev ls with
  | l :: r => map chomp (rev r) ++ match l with [] => [] | _ => [l] end
  | [] => []
  end.
