(** * Base64: the text form of binary data

    [base64] 0.22.1 with the engines used by lair:
    - [BASE64_URL_SAFE_NO_PAD]
      ([crates/lair_keystore_api/src/encoding_types.rs:8-17]): alphabet
      [A-Za-z0-9-_], no padding written, padding refused, non-zero trailing
      bits refused;
    - [BASE64_STANDARD] ([crates/lair_keystore_api/src/lair_server.rs:236,305]):
      alphabet [A-Za-z0-9+/], canonical padding written and required. *)

From Verif Require Import Base.

(** Crate [base64], called at [encoding_types.rs:8-17]. *)
Inductive alphabet := UrlSafe | Standard.

(** The symbol of a 6-bit value. Crate [base64], called at [encoding_types.rs:8-17]. *)
Definition sym (a : alphabet) (n : N) : byte :=
  if (n <? 26)%N then bn (n + 65)
  else if (n <? 52)%N then bn (n + 71)
  else if (n <? 62)%N then bn (n - 4)
  else if (n =? 62)%N then match a with UrlSafe => bn 45 | Standard => bn 43 end
  else match a with UrlSafe => bn 95 | Standard => bn 47 end.

(** The 6-bit value of a symbol. Crate [base64], called at [encoding_types.rs:8-17]. *)
Definition unsym (a : alphabet) (b : byte) : option N :=
  let n := nb b in
  if (65 <=? n)%N && (n <=? 90)%N then Some (n - 65)%N
  else if (97 <=? n)%N && (n <=? 122)%N then Some (n - 71)%N
  else if (48 <=? n)%N && (n <=? 57)%N then Some (n + 4)%N
  else match a with
       | UrlSafe => if (n =? 45)%N then Some 62%N
                    else if (n =? 95)%N then Some 63%N else None
       | Standard => if (n =? 43)%N then Some 62%N
                     else if (n =? 47)%N then Some 63%N else None
       end.

(** Crate [base64], called at [encoding_types.rs:8-17]. *)
Definition group3 (a b c : byte) : N := (nb a * 65536 + nb b * 256 + nb c)%N.

(** Encoding without padding. Crate [base64], called at [encoding_types.rs:8-17]. *)
Fixpoint encode_np (al : alphabet) (l : bytes) : bytes :=
  match l with
  | [] => []
  | [a] => [sym al (nb a / 4); sym al (nb a mod 4 * 16)]
  | [a; b] =>
      [sym al (nb a / 4);
       sym al (nb a mod 4 * 16 + nb b / 16);
       sym al (nb b mod 16 * 4)]
  | a :: b :: c :: r =>
      sym al (nb a / 4)
      :: sym al (nb a mod 4 * 16 + nb b / 16)
      :: sym al (nb b mod 16 * 4 + nb c / 64)
      :: sym al (nb c mod 64)
      :: encode_np al r
  end%N.

(** Decoding without padding. Crate [base64], called at [encoding_types.rs:8-17]. *)
Fixpoint decode_np (al : alphabet) (l : bytes) : option bytes :=
  match l with
  | [] => Some []
  | [_] => None
  | [p; q] =>
      match unsym al p, unsym al q with
      | Some x, Some y =>
          if (y mod 16 =? 0)%N then Some [bn (x * 4 + y / 16)%N] else None
      | _, _ => None
      end
  | [p; q; r] =>
      match unsym al p, unsym al q, unsym al r with
      | Some x, Some y, Some z =>
          if (z mod 4 =? 0)%N
          then Some [bn (x * 4 + y / 16)%N; bn (y mod 16 * 16 + z / 4)%N]
          else None
      | _, _, _ => None
      end
  | p :: q :: r :: s :: rest =>
      match unsym al p, unsym al q, unsym al r, unsym al s with
      | Some x, Some y, Some z, Some w =>
          match decode_np al rest with
          | Some out =>
              Some (bn (x * 4 + y / 16)%N :: bn (y mod 16 * 16 + z / 4)%N
                    :: bn (z mod 4 * 64 + w)%N :: out)
          | None => None
          end
      | _, _, _, _ => None
      end
  end.

(** [to_base64_url] [encoding_types.rs:8-10]. *)
Definition to_b64url (b : bytes) : bytes := encode_np UrlSafe b.

(** [from_base64_url] [encoding_types.rs:12-17]. *)
Definition from_b64url (s : bytes) : res bytes :=
  ok_of_opt (str "base64") (decode_np UrlSafe s).

(** [BinDataSized::from_str] [encoding_types.rs:111-123]; the [serde] reader
    [encoding_types.rs:163-177] makes the same checks.  [BinData::from_str] [37-43]
    is [from_b64url]; [Display] for both [30-35,104-109] is [to_b64url]. *)
Definition sized_from_str (n : nat) (s : bytes) : res bytes :=
  rbind (from_b64url s) (fun b =>
  if Nat.eqb (length b) n then Ok b else Err (str "invalid buffer length")).

(** Crate [base64], called at [lair_server.rs:236,305]. *)
Definition pad_char : byte := bn 61.

(** [BASE64_STANDARD.encode]: pad to a multiple of four. Crate [base64], called at [lair_server.rs:236,305]. *)
Definition to_b64std (b : bytes) : bytes :=
  let e := encode_np Standard b in
  match length b mod 3 with
  | 1 => e ++ [pad_char; pad_char]
  | 2 => e ++ [pad_char]
  | _ => e
  end.

(** [BASE64_STANDARD.decode]: canonical padding required.  The length must be
    a multiple of four; up to two trailing pad characters are taken off.
    Crate [base64], called at [lair_server.rs:236,305]. *)
Definition from_b64std (s : bytes) : res bytes :=
  if negb (Nat.eqb (length s mod 4) 0) then Err (str "base64") else
  match rev s with
  | p :: q :: r =>
      if bool_decide (p = pad_char) then
        if bool_decide (q = pad_char) then ok_of_opt (str "base64") (decode_np Standard (rev r))
        else ok_of_opt (str "base64") (decode_np Standard (rev (q :: r)))
      else ok_of_opt (str "base64") (decode_np Standard s)
  | _ => ok_of_opt (str "base64") (decode_np Standard s)
  end.
