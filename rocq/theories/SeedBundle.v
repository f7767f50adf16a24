(** * SeedBundle: hc_seed_bundle

    [crates/hc_seed_bundle/src].  A bundle holds one 32-byte seed, locked under any
    number of secrets, and application data in the clear. *)

From Verif Require Import Base Utf8 Msgpack Crypto Types Codec Secret.

Local Notation "x <-- e ; k" := (obind e (fun x => k)) (at level 60, right associativity).
Local Notation "x <- e ; k" := (rbind e (fun x => k)) (at level 60, right associativity).

(** ** Limits [seed_cipher/pw_hash_limits.rs] *)

(** [PwHashLimits] [pw_hash_limits.rs:15-28]. *)
Inductive limits := Minimum | Interactive | Moderate | Sensitive.

(** [as_mem_limit] [pw_hash_limits.rs:55-62], libsodium's constants. *)
Definition mem_limit (l : limits) : N :=
  match l with
  | Minimum => 8192 | Interactive => 67108864 | Moderate => 268435456 | Sensitive => 1073741824
  end%N.

(** [as_ops_limit] [pw_hash_limits.rs:65-72]. *)
Definition ops_limit (l : limits) : N :=
  match l with Minimum => 1 | Interactive => 2 | Moderate => 3 | Sensitive => 4 end%N.

(** A piece of code as far as the limits are concerned: it may ask for the current limits
    (as [add_pwhash_cipher] and [add_security_question_cipher] do, [seed_cipher.rs:53,84]),
    run code in a scope, panic, or run code catching its panics. *)
Inductive lcode :=
| LCurrent
| LWith (l : limits) (body : list lcode)
| LPanic
| LCatch (body : list lcode).

(** What [current] gave in the course of some code, whether the code panicked, and the value
    of the thread's [PWHASH_LIMITS] after it.  [with_exec] [pw_hash_limits.rs:41-52] sets
    the value, and on return (not on a panic) sets it to [Moderate]. *)
Fixpoint lrun (now : limits) (c : lcode) : list limits * bool * limits :=
  let fix seq (now : limits) (l : list lcode) : list limits * bool * limits :=
    match l with
    | [] => ([], false, now)
    | c :: l =>
        match lrun now c with
        | (o, true, now) => (o, true, now)
        | (o, false, now) => let '(o', p, now) := seq now l in (o ++ o', p, now)
        end
    end in
  match c with
  | LCurrent => ([now], false, now)
  | LWith l body =>
      match seq l body with
      | (o, false, _) => (o, false, Moderate)
      | (o, true, now) => (o, true, now)
      end
  | LPanic => ([], true, now)
  | LCatch body => let '(o, _, now) := seq now body in (o, false, now)
  end.

(** A thread starts with [Moderate] [pw_hash_limits.rs:30-32]. *)
Fixpoint lrun_all (now : limits) (l : list lcode) : list limits * bool * limits :=
  match l with
  | [] => ([], false, now)
  | c :: l =>
      match lrun now c with
      | (o, true, now) => (o, true, now)
      | (o, false, now) => let '(o', p, now) := lrun_all now l in (o ++ o', p, now)
      end
  end.

(** ** Security answers [seed_cipher/pw_utils.rs:6-61] *)

(** The characters of a text ([str::chars]), each as its bytes; [None] when the bytes are
    not UTF-8 ([std::str::from_utf8]). Called at [pw_utils.rs:26-28]. *)
Fixpoint chars (l : bytes) : option (list bytes) :=
  match l with
  | [] => Some []
  | a :: r =>
      if in_range 0 127 a then cs <-- chars r; Some ([a] :: cs)
      else if in_range 194 223 a then
        match r with
        | b :: r => if cont b then cs <-- chars r; Some ([a; b] :: cs) else None
        | _ => None
        end
      else if in_range 224 224 a then
        match r with
        | b :: c :: r =>
            if in_range 160 191 b && cont c
            then cs <-- chars r; Some ([a; b; c] :: cs) else None
        | _ => None
        end
      else if in_range 225 236 a || in_range 238 239 a then
        match r with
        | b :: c :: r =>
            if cont b && cont c then cs <-- chars r; Some ([a; b; c] :: cs) else None
        | _ => None
        end
      else if in_range 237 237 a then
        match r with
        | b :: c :: r =>
            if in_range 128 159 b && cont c
            then cs <-- chars r; Some ([a; b; c] :: cs) else None
        | _ => None
        end
      else if in_range 240 240 a then
        match r with
        | b :: c :: d :: r =>
            if in_range 144 191 b && cont c && cont d
            then cs <-- chars r; Some ([a; b; c; d] :: cs) else None
        | _ => None
        end
      else if in_range 241 243 a then
        match r with
        | b :: c :: d :: r =>
            if cont b && cont c && cont d
            then cs <-- chars r; Some ([a; b; c; d] :: cs) else None
        | _ => None
        end
      else if in_range 244 244 a then
        match r with
        | b :: c :: d :: r =>
            if in_range 128 143 b && cont c && cont d
            then cs <-- chars r; Some ([a; b; c; d] :: cs) else None
        | _ => None
        end
      else None
  end.

(** [char::is_whitespace]: U+0009 to U+000D, U+0020, U+0085, U+00A0, U+1680, U+2000 to
    U+200A, U+2028, U+2029, U+202F, U+205F, U+3000. Called at [pw_utils.rs:31-33]. *)
Definition white (c : bytes) : bool :=
  match c with
  | [a] => in_range 9 13 a || in_range 32 32 a
  | [a; b] => in_range 194 194 a && (in_range 133 133 b || in_range 160 160 b)
  | [a; b; c] =>
      (in_range 225 225 a && in_range 154 154 b && in_range 128 128 c)
      || (in_range 226 226 a && in_range 128 128 b
          && (in_range 128 138 c || in_range 168 169 c || in_range 175 175 c))
      || (in_range 226 226 a && in_range 129 129 b && in_range 159 159 c)
      || (in_range 227 227 a && in_range 128 128 b && in_range 128 128 c)
  | _ => false
  end.

(** For [trim] [pw_utils.rs:31-33]. *)
Fixpoint skip (f : bytes -> bool) (l : list bytes) : list bytes :=
  match l with [] => [] | c :: l' => if f c then skip f l' else l end.

(** [str::trim]. Called at [pw_utils.rs:31-33]. *)
Definition trim (l : list bytes) : list bytes := rev (skip white (rev (skip white l))).

(** [u8::to_ascii_lowercase]. Called at [pw_utils.rs:58]. *)
Definition lower (b : byte) : byte := if in_range 65 90 b then bn (nb b + 32) else b.

(** One answer: to text, trimmed. [pw_utils.rs:26-38]. *)
Definition trimmed (a : bytes) : res bytes :=
  rmap (fun l => concat (trim l)) (ok_of_opt (str "Utf8Error") (chars a)).

(** [process_security_answers]: all three are converted before any is trimmed. [pw_utils.rs:6-66]. *)
Definition process_answers (a1 a2 a3 : bytes) : res bytes :=
  a1 <- trimmed a1; a2 <- trimmed a2; a3 <- trimmed a3;
  Ok (map lower (a1 ++ a2 ++ a3)).

(** ** Encoding [seed_cipher/seed_bundle.rs] *)

(** [SeedCipher] [seed_bundle.rs:64-102]. *)
Inductive seed_cipher :=
| ScPw (salt : bytes) (mem ops : N) (header cipher : bytes)
| ScQa (salt : bytes) (mem ops : N) (q1 q2 q3 : bytes) (header cipher : bytes).

(** [Serialize for SeedCipher] [seed_bundle.rs:104-141]; [U8Array] is written as bytes
    [u8array.rs:71-79]. *)
Definition wcipher (c : seed_cipher) : mval :=
  match c with
  | ScPw salt mem ops h d =>
      MArr [MStr (str "pw"); MBin salt; MUInt mem; MUInt ops; MBin h; MBin d]
  | ScQa salt mem ops q1 q2 q3 h d =>
      MArr [MStr (str "qa"); MBin salt; MUInt mem; MUInt ops; MStr q1; MStr q2; MStr q3;
            MBin h; MBin d]
  end.

(** [Serialize for SeedBundle] [seed_bundle.rs:19-34]. *)
Definition encode_bundle (l : list seed_cipher) (app : bytes) : bytes :=
  enc (MArr [MStr (str "hcsb0"); MArr (map wcipher l); MBin app]).

(** [Deserialize for U8Array<n>] [u8array.rs:81-108]: bytes or an extension value. *)
Definition rfixed (n : nat) (v : mval) : option bytes :=
  match v with
  | MBin s | MExt _ s => if Nat.eqb (length s) n then Some s else None
  | _ => None
  end.

(** [serde_bytes] for the application data: bytes, text or an array of bytes
    [seed_bundle.rs:40]. *)
Definition rbytes (v : mval) : option bytes :=
  match v with
  | MBin s | MStr s => Some s
  | MArr l => rall ru8 l
  | _ => None
  end.

(** [Deserialize for SeedCipher] [seed_bundle.rs:143-236]. *)
Definition rcipher (v : mval) : option seed_cipher :=
  match v with
  | MArr (t :: l) =>
      t <-- rtext t;
      if beq t (str "pw") then
        match l with
        | [salt; mem; ops; h; d] =>
            salt <-- rfixed 16 salt; mem <-- ru32 mem; ops <-- ru32 ops;
            h <-- rfixed 24 h; d <-- rfixed 49 d; Some (ScPw salt mem ops h d)
        | _ => None
        end
      else if beq t (str "qa") then
        match l with
        | [salt; mem; ops; q1; q2; q3; h; d] =>
            salt <-- rfixed 16 salt; mem <-- ru32 mem; ops <-- ru32 ops;
            q1 <-- rtext q1; q2 <-- rtext q2; q3 <-- rtext q3;
            h <-- rfixed 24 h; d <-- rfixed 49 d; Some (ScQa salt mem ops q1 q2 q3 h d)
        | _ => None
        end
      else None (* unsupported cipher type *)
  | _ => None
  end.

(** [Deserialize for SeedBundle] [seed_bundle.rs:37-61]. *)
Definition rbundle (v : mval) : option (list seed_cipher * bytes) :=
  match v with
  | MArr [id; l; app] =>
      id <-- rtext id; l <-- rlist rcipher l; app <-- rbytes app;
      if beq id (str "hcsb0") then Some (l, app) else None
  | _ => None
  end.

(** ** Locking and unlocking *)

(** [LockedSeedCipher] [seed_cipher.rs:271-286]; each holds the application data. *)
Inductive locked :=
| LkPw (salt : bytes) (mem ops : N) (header cipher app : bytes)
| LkQa (salt : bytes) (mem ops : N) (q1 q2 q3 : bytes) (header cipher app : bytes)
| LkUnsupported (name : bytes).

(** [LockedSeedCipher::from_locked] [seed_cipher.rs:288-357]. *)
Definition from_locked (raw : bytes) : res (list locked) :=
  match (v <-- decode_first raw; rbundle v) with
  | None => Err (str "decode")
  | Some (l, app) =>
      Ok (map (fun c =>
                 match c with
                 | ScPw salt mem ops h d => LkPw salt mem ops h d app
                 | ScQa salt mem ops q1 q2 q3 h d => LkQa salt mem ops q1 q2 q3 h d app
                 end) l)
  end.

(** A cipher that was added to the builder, with the limits in force at that moment
    [seed_cipher.rs:48-116]. *)
Inductive adding :=
| AddPw (pass : bytes) (l : limits)
| AddQa (q1 q2 q3 a1 a2 a3 : bytes) (l : limits).

(** [UnlockedSeedBundle] [unlocked_seed_bundle.rs:21-27]. *)
Record unlocked := Unlocked { u_seed : bytes; u_pub : bytes; u_sec : bytes; u_app : bytes }.

Section Bundle.
  Variable C : Crypto.

  (** The key of a passphrase, in [pw_enc] and [pw_dec] [pw_utils.rs:77-99,131-147]. *)
  Definition pw_key (pass salt : bytes) (mem ops : N) : res bytes :=
    argon2id C (blake2b C 64 pass) salt ops mem.

  (** [pw_enc] [pw_utils.rs:66-118], with its random salt and header. *)
  Definition pw_enc (seed pass : bytes) (l : limits) (salt hdr : bytes) : res bytes :=
    k <- pw_key pass salt (mem_limit l) (ops_limit l);
    Ok (s_cipher (sec_encrypt C k hdr seed)).

  (** [pw_dec] [pw_utils.rs:125-153]. *)
  Definition pw_dec (pass salt : bytes) (mem ops : N) (hdr cipher : bytes) : res bytes :=
    k <- pw_key pass salt mem ops; sec_open C 32 k (Sec hdr cipher).

  (** [priv_from_seed] [unlocked_seed_bundle.rs:31-48]. *)
  Definition from_seed (seed : bytes) : unlocked :=
    Unlocked seed (sign_pk C seed) (sign_sk C seed) [].

  (** [set_app_data_bytes] [unlocked_seed_bundle.rs:119-124]. *)
  Definition set_app (u : unlocked) (app : bytes) : unlocked :=
    Unlocked (u_seed u) (u_pub u) (u_sec u) app.

  (** [derive] [unlocked_seed_bundle.rs:70-86]. *)
  Definition derive (u : unlocked) (index : N) : unlocked :=
    from_seed (kdf C index (str "SeedBndl") (u_seed u)).

  (** [sign_detached] [unlocked_seed_bundle.rs:96-112]. *)
  Definition sign (u : unlocked) (m : bytes) : bytes := sign_detached C (u_sec u) m.

  (** One cipher of [SeedCipherBuilder] [seed_cipher.rs:55-72,86-112], with its
      random salt and header. *)
  Definition lock_one (seed : bytes) (a : adding) (r : bytes * bytes) : res seed_cipher :=
    let (salt, hdr) := r in
    match a with
    | AddPw pass l =>
        c <- pw_enc seed pass l salt hdr;
        Ok (ScPw salt (mem_limit l) (ops_limit l) hdr c)
    | AddQa q1 q2 q3 a1 a2 a3 l =>
        pass <- process_answers a1 a2 a3;
        c <- pw_enc seed pass l salt hdr;
        Ok (ScQa salt (mem_limit l) (ops_limit l) q1 q2 q3 hdr c)
    end.

  (** [try_join_all] [seed_cipher.rs:127-135]: all or the first error. *)
  Fixpoint lock_all (seed : bytes) (l : list (adding * (bytes * bytes))) : res (list seed_cipher) :=
    match l with
    | [] => Ok []
    | (a, r) :: l => c <- lock_one seed a r; cs <- lock_all seed l; Ok (c :: cs)
    end.

  (** [UnlockedSeedBundle::lock] and [SeedCipherBuilder::lock]
      [unlocked_seed_bundle.rs:148-150], [seed_cipher.rs:119-152]. *)
  Definition lock (u : unlocked) (l : list (adding * (bytes * bytes))) : res bytes :=
    cs <- lock_all (u_seed u) l; Ok (encode_bundle cs (u_app u)).

  (** [LockedSeedCipherPwHash::unlock] [seed_cipher.rs:165-205]. *)
  Definition unlock_pw (c : locked) (pass : bytes) : res unlocked :=
    match c with
    | LkPw salt mem ops h d app =>
        seed <- pw_dec pass salt mem ops h d; Ok (set_app (from_seed seed) app)
    | _ => Err (str "not a PwHash cipher")
    end.

  (** [LockedSeedCipherSecurityQuestions::unlock] [seed_cipher.rs:227-269]. *)
  Definition unlock_qa (c : locked) (a1 a2 a3 : bytes) : res unlocked :=
    match c with
    | LkQa salt mem ops _ _ _ h d app =>
        pass <- process_answers a1 a2 a3;
        seed <- pw_dec pass salt mem ops h d; Ok (set_app (from_seed seed) app)
    | _ => Err (str "not a SecurityQuestions cipher")
    end.
End Bundle.
