(** * Utf8: which byte strings are texts

    Rust's [String]/[str] hold well-formed UTF-8 (Unicode table 3-7).  Needed
    by every decoder of [/repo] that yields a [String] or [Arc<str>], e.g.
    [crates/lair_keystore_api/src/encoding_types.rs:87] and the tags of
    [crates/lair_keystore_api/src/lair_store.rs:103]. *)

From Verif Require Import Base.

(** Rust's [str], as at [encoding_types.rs:87], [lair_store.rs:103]. *)
Definition in_range (lo hi : N) (b : byte) : bool :=
  (lo <=? nb b)%N && (nb b <=? hi)%N.

(** Rust's [str], as at [encoding_types.rs:87], [lair_store.rs:103]. *)
Definition cont : byte -> bool := in_range 128 191.

(** [core::str::from_utf8] accepts. Rust's [str], as at [encoding_types.rs:87], [lair_store.rs:103]. *)
Fixpoint utf8 (l : bytes) : bool :=
  match l with
  | [] => true
  | a :: r =>
      if in_range 0 127 a then utf8 r
      else if in_range 194 223 a then
        match r with b :: r => cont b && utf8 r | _ => false end
      else if in_range 224 224 a then
        match r with b :: c :: r => in_range 160 191 b && cont c && utf8 r | _ => false end
      else if in_range 225 236 a || in_range 238 239 a then
        match r with b :: c :: r => cont b && cont c && utf8 r | _ => false end
      else if in_range 237 237 a then
        match r with b :: c :: r => in_range 128 159 b && cont c && utf8 r | _ => false end
      else if in_range 240 240 a then
        match r with
        | b :: c :: d :: r => in_range 144 191 b && cont c && cont d && utf8 r
        | _ => false
        end
      else if in_range 241 243 a then
        match r with
        | b :: c :: d :: r => cont b && cont c && cont d && utf8 r
        | _ => false
        end
      else if in_range 244 244 a then
        match r with
        | b :: c :: d :: r => in_range 128 143 b && cont c && cont d && utf8 r
        | _ => false
        end
      else false
  end.

(** Rust's [str], as at [encoding_types.rs:87], [lair_store.rs:103]. *)
Definition ascii (l : bytes) : Prop := Forall (fun b => (nb b < 128)%N) l.

Lemma utf8_ascii l : ascii l -> utf8 l = true.
Proof.
  induction 1 as [|b l Hb Hl IH]; [done|].
  cbn [utf8]. unfold in_range at 1.
  destruct (N.leb_spec 0 (nb b)), (N.leb_spec (nb b) 127); simpl; try done; lia.
Qed.

Lemma utf8_ascii_cons b l : (nb b < 128)%N -> utf8 (b :: l) = utf8 l.
Proof.
  intros Hb. cbn [utf8]. unfold in_range at 1.
  destruct (N.leb_spec 0 (nb b)), (N.leb_spec (nb b) 127); simpl; try done; lia.
Qed.
