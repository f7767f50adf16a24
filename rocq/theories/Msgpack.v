(** * Msgpack: the byte encoding used for entries, messages and bundles

    [rmp] 0.8.14 / [rmp-serde] 1.3.0 as used by
    [crates/lair_keystore_api/src/lair_store.rs:195-208],
    [crates/lair_keystore_api/src/sodium_secretstream/inner.rs:55-59,125] and
    [crates/hc_seed_bundle/src/seed_bundle.rs]: the smallest form that fits is
    written for integers and for all lengths; any form is read.

    Simplification: negative integers and floats, which no type of lair
    contains, are read as the single opaque value [MOther]. *)

From Verif Require Import Base.

(** MessagePack values, as crate [rmp-serde] writes and reads them [lair_store.rs:195-208], [inner.rs:55-59,125]. *)
Inductive mval :=
| MNil
| MBool (b : bool)
| MUInt (n : N)
| MStr (s : bytes)
| MBin (s : bytes)
| MArr (l : list mval)
| MMap (l : list (mval * mval))
| MExt (t : byte) (s : bytes)
| MOther.

(** ** Writing *)

(** [rmp::encode::write_uint].
    Crate [rmp], called at [lair_store.rs:195-201], [inner.rs:55-59], [seed_cipher.rs:138-143]. *)
Definition enc_uint (n : N) : bytes :=
  (if n <? 128 then [bn n]
   else if n <? 256 then bn 204 :: be_bytes 1 n
   else if n <? 65536 then bn 205 :: be_bytes 2 n
   else if n <? 4294967296 then bn 206 :: be_bytes 4 n
   else bn 207 :: be_bytes 8 n)%N.

(** [write_str_len].
    Crate [rmp], called at [lair_store.rs:195-201], [inner.rs:55-59], [seed_cipher.rs:138-143]. *)
Definition enc_str_len (n : N) : bytes :=
  (if n <? 32 then [bn (160 + n)]
   else if n <? 256 then bn 217 :: be_bytes 1 n
   else if n <? 65536 then bn 218 :: be_bytes 2 n
   else bn 219 :: be_bytes 4 n)%N.

(** [write_bin_len].
    Crate [rmp], called at [lair_store.rs:195-201], [inner.rs:55-59], [seed_cipher.rs:138-143]. *)
Definition enc_bin_len (n : N) : bytes :=
  (if n <? 256 then bn 196 :: be_bytes 1 n
   else if n <? 65536 then bn 197 :: be_bytes 2 n
   else bn 198 :: be_bytes 4 n)%N.

(** [write_array_len].
    Crate [rmp], called at [lair_store.rs:195-201], [inner.rs:55-59], [seed_cipher.rs:138-143]. *)
Definition enc_arr_len (n : N) : bytes :=
  (if n <? 16 then [bn (144 + n)]
   else if n <? 65536 then bn 220 :: be_bytes 2 n
   else bn 221 :: be_bytes 4 n)%N.

(** [write_map_len].
    Crate [rmp], called at [lair_store.rs:195-201], [inner.rs:55-59], [seed_cipher.rs:138-143]. *)
Definition enc_map_len (n : N) : bytes :=
  (if n <? 16 then [bn (128 + n)]
   else if n <? 65536 then bn 222 :: be_bytes 2 n
   else bn 223 :: be_bytes 4 n)%N.

(** [write_ext_meta].
    Crate [rmp], called at [lair_store.rs:195-201], [inner.rs:55-59], [seed_cipher.rs:138-143]. *)
Definition enc_ext_len (n : N) : bytes :=
  (if n =? 1 then [bn 212] else if n =? 2 then [bn 213] else if n =? 4 then [bn 214]
   else if n =? 8 then [bn 215] else if n =? 16 then [bn 216]
   else if n <? 256 then bn 199 :: be_bytes 1 n
   else if n <? 65536 then bn 200 :: be_bytes 2 n
   else bn 201 :: be_bytes 4 n)%N.

(** Crate [rmp], called at [lair_store.rs:195-201], [inner.rs:55-59], [seed_cipher.rs:138-143]. *)
Definition nlen {A} (l : list A) : N := N.of_nat (length l).

(** Crate [rmp], called at [lair_store.rs:195-201], [inner.rs:55-59], [seed_cipher.rs:138-143]. *)
Fixpoint enc (v : mval) : bytes :=
  match v with
  | MNil => [bn 192]
  | MBool false => [bn 194]
  | MBool true => [bn 195]
  | MUInt n => enc_uint n
  | MStr s => enc_str_len (nlen s) ++ s
  | MBin s => enc_bin_len (nlen s) ++ s
  | MArr l => enc_arr_len (nlen l) ++ concat (map enc l)
  | MMap l => enc_map_len (nlen l) ++ concat (map (fun '(k, v) => enc k ++ enc v) l)
  | MExt t s => enc_ext_len (nlen s) ++ t :: s
  | MOther => [bn 255]
  end.

(** ** Reading *)

(** A big-endian number of [k] bytes off the front.
    Crate [rmp-serde], called at [lair_store.rs:204-208], [inner.rs:125], [seed_cipher.rs:297]. *)
Definition rd_be (k : nat) (s : bytes) : option (N * bytes) :=
  match split_at k s with
  | Some (a, r) => Some (be_val a, r)
  | None => None
  end.

(** Crate [rmp-serde], called at [lair_store.rs:204-208], [inner.rs:125], [seed_cipher.rs:297]. *)
Definition rd_raw (n : N) (s : bytes) : option (bytes * bytes) :=
  if (n <=? nlen s)%N then split_at (N.to_nat n) s else None.

(** Crate [rmp-serde], called at [lair_store.rs:204-208], [inner.rs:125], [seed_cipher.rs:297]. *)
Fixpoint rd_seq {A} (d : bytes -> option (A * bytes)) (n : nat) (s : bytes)
  : option (list A * bytes) :=
  match n with
  | O => Some ([], s)
  | S n =>
      match d s with
      | Some (v, s) =>
          match rd_seq d n s with
          | Some (l, s) => Some (v :: l, s)
          | None => None
          end
      | None => None
      end
  end.

(** Crate [rmp-serde], called at [lair_store.rs:204-208], [inner.rs:125], [seed_cipher.rs:297]. *)
Definition rd_pair {A} (d : bytes -> option (A * bytes)) (s : bytes)
  : option ((A * A) * bytes) :=
  match d s with
  | Some (k, s) =>
      match d s with
      | Some (v, s) => Some ((k, v), s)
      | None => None
      end
  | None => None
  end.

(** Every element takes at least one byte.
    Crate [rmp-serde], called at [lair_store.rs:204-208], [inner.rs:125], [seed_cipher.rs:297]. *)
Definition rd_arr (d : bytes -> option (mval * bytes)) (n : N) (s : bytes)
  : option (mval * bytes) :=
  if (n <=? nlen s)%N then
    match rd_seq d (N.to_nat n) s with
    | Some (l, s) => Some (MArr l, s)
    | None => None
    end
  else None.

(** Crate [rmp-serde], called at [lair_store.rs:204-208], [inner.rs:125], [seed_cipher.rs:297]. *)
Definition rd_map (d : bytes -> option (mval * bytes)) (n : N) (s : bytes)
  : option (mval * bytes) :=
  if (n <=? nlen s)%N then
    match rd_seq (rd_pair d) (N.to_nat n) s with
    | Some (l, s) => Some (MMap l, s)
    | None => None
    end
  else None.

(** Crate [rmp-serde], called at [lair_store.rs:204-208], [inner.rs:125], [seed_cipher.rs:297]. *)
Definition rd_with (k : nat) (f : N -> bytes -> option (mval * bytes)) (s : bytes)
  : option (mval * bytes) :=
  match rd_be k s with Some (n, s) => f n s | None => None end.

(** Crate [rmp-serde], called at [lair_store.rs:204-208], [inner.rs:125], [seed_cipher.rs:297]. *)
Definition rd_str (n : N) (s : bytes) : option (mval * bytes) :=
  match rd_raw n s with Some (a, r) => Some (MStr a, r) | None => None end.
(** Crate [rmp-serde], called at [lair_store.rs:204-208], [inner.rs:125], [seed_cipher.rs:297]. *)
Definition rd_bin (n : N) (s : bytes) : option (mval * bytes) :=
  match rd_raw n s with Some (a, r) => Some (MBin a, r) | None => None end.
(** Crate [rmp-serde], called at [lair_store.rs:204-208], [inner.rs:125], [seed_cipher.rs:297]. *)
Definition rd_other (n : N) (s : bytes) : option (mval * bytes) :=
  match rd_raw n s with Some (_, r) => Some (MOther, r) | None => None end.
(** A type byte and [n] bytes.
    Crate [rmp-serde], called at [lair_store.rs:204-208], [inner.rs:125], [seed_cipher.rs:297]. *)
Definition rd_ext (n : N) (s : bytes) : option (mval * bytes) :=
  match s with
  | [] => None
  | t :: s => match rd_raw n s with Some (a, r) => Some (MExt t a, r) | None => None end
  end.
(** Crate [rmp-serde], called at [lair_store.rs:204-208], [inner.rs:125], [seed_cipher.rs:297]. *)
Definition rd_uint (n : N) (s : bytes) : option (mval * bytes) := Some (MUInt n, s).
(** A two's complement integer of [k] bytes.
    Crate [rmp-serde], called at [lair_store.rs:204-208], [inner.rs:125], [seed_cipher.rs:297]. *)
Definition rd_int (k : nat) (n : N) (s : bytes) : option (mval * bytes) :=
  if (n <? 2 ^ (8 * N.of_nat k - 1))%N then Some (MUInt n, s) else Some (MOther, s).

(** [rmp_serde::from_read] / [from_slice] for one value; [depth] is the
    recursion limit of [rmp-serde] (1024).
    Crate [rmp-serde], called at [lair_store.rs:204-208], [inner.rs:125], [seed_cipher.rs:297]. *)
Fixpoint dec (depth : nat) (s : bytes) {struct depth} : option (mval * bytes) :=
  match depth with
  | O => None
  | S depth =>
    match s with
    | [] => None
    | b :: s =>
      let m := nb b in
      (if m <? 128 then Some (MUInt m, s)
       else if m <? 144 then rd_map (dec depth) (m - 128) s
       else if m <? 160 then rd_arr (dec depth) (m - 144) s
       else if m <? 192 then rd_str (m - 160) s
       else if m =? 192 then Some (MNil, s)
       else if m =? 193 then None
       else if m =? 194 then Some (MBool false, s)
       else if m =? 195 then Some (MBool true, s)
       else if m =? 196 then rd_with 1 rd_bin s
       else if m =? 197 then rd_with 2 rd_bin s
       else if m =? 198 then rd_with 4 rd_bin s
       else if m =? 199 then rd_with 1 rd_ext s
       else if m =? 200 then rd_with 2 rd_ext s
       else if m =? 201 then rd_with 4 rd_ext s
       else if m =? 202 then rd_other 4 s
       else if m =? 203 then rd_other 8 s
       else if m =? 204 then rd_with 1 rd_uint s
       else if m =? 205 then rd_with 2 rd_uint s
       else if m =? 206 then rd_with 4 rd_uint s
       else if m =? 207 then rd_with 8 rd_uint s
       else if m =? 208 then rd_with 1 (rd_int 1) s
       else if m =? 209 then rd_with 2 (rd_int 2) s
       else if m =? 210 then rd_with 4 (rd_int 4) s
       else if m =? 211 then rd_with 8 (rd_int 8) s
       else if m =? 212 then rd_ext 1 s
       else if m =? 213 then rd_ext 2 s
       else if m =? 214 then rd_ext 4 s
       else if m =? 215 then rd_ext 8 s
       else if m =? 216 then rd_ext 16 s
       else if m =? 217 then rd_with 1 rd_str s
       else if m =? 218 then rd_with 2 rd_str s
       else if m =? 219 then rd_with 4 rd_str s
       else if m =? 220 then rd_with 2 (rd_arr (dec depth)) s
       else if m =? 221 then rd_with 4 (rd_arr (dec depth)) s
       else if m =? 222 then rd_with 2 (rd_map (dec depth)) s
       else if m =? 223 then rd_with 4 (rd_map (dec depth)) s
       else Some (MOther, s))%N
    end
  end.

(** Crate [rmp-serde], called at [lair_store.rs:204-208], [inner.rs:125], [seed_cipher.rs:297]. *)
Definition MAX_DEPTH : nat := 1024.

(** Read the first value of a byte string; what follows it is ignored.
    Crate [rmp-serde], called at [lair_store.rs:204-208], [inner.rs:125], [seed_cipher.rs:297]. *)
Definition decode_first (s : bytes) : option mval :=
  match dec MAX_DEPTH s with Some (v, _) => Some v | None => None end.
