(** * Base: bytes, text, results, small list facts

    Shared vocabulary of the model.  No code of [/repo] is modelled here except
    where a citation says so. *)

From Coq Require Export Init.Byte Strings.Byte Strings.String.
From Coq Require Export ZArith NArith Lia.
From Coq Require Import ZifyBool ZifyNat ZifyN.
From stdpp Require Export prelude list gmap.
Open Scope list_scope.
Open Scope nat_scope.

Global Arguments N.add : simpl never.
Global Arguments N.mul : simpl never.
Global Arguments N.sub : simpl never.
Global Arguments N.div : simpl never.
Global Arguments N.modulo : simpl never.
Global Arguments N.pow : simpl never.
Global Arguments N.ltb : simpl never.
Global Arguments N.leb : simpl never.
Global Arguments N.eqb : simpl never.

(** A byte is one of 256 constructors; a byte string or a text is a list. *)
Notation bytes := (list byte).

(** Text literals.  [str "abc"] is the byte string of the (ASCII) literal.
    As the prefix at [config.rs:83]. *)
Definition str (s : string) : bytes := list_byte_of_string s.
Arguments str s%string.

#[global] Instance byte_eq_dec' : EqDecision byte := Byte.byte_eq_dec.

#[global] Program Instance byte_countable : Countable byte :=
  inj_countable Byte.to_N Byte.of_N _.
Next Obligation. intros x. apply Byte.of_to_N. Qed.

(** [Result] of Rust, [LairResult] [lib.rs:111].  An error is its message text. *)
Inductive res (A : Type) : Type :=
| Ok (a : A)
| Err (e : bytes).
Arguments Ok {A} a.
Arguments Err {A} e.

(** The [?] operator, as at [priv_api.rs:50-90]. *)
Definition rbind {A B} (r : res A) (f : A -> res B) : res B :=
  match r with Ok a => f a | Err e => Err e end.

(** [Result::map], as [rbind]; no counterpart of its own in [lib.rs:111]. *)
Definition rmap {A B} (f : A -> B) (r : res A) : res B :=
  match r with Ok a => Ok (f a) | Err e => Err e end.

(** [Result::is_ok] of [lib.rs:111]. *)
Definition is_ok {A} (r : res A) : bool :=
  match r with Ok _ => true | Err _ => false end.

(** [Option::ok_or], with results as at [lib.rs:111]. *)
Definition ok_of_opt {A} (e : bytes) (o : option A) : res A :=
  match o with Some a => Ok a | None => Err e end.

(** ** Bytes as numbers *)

(** [u8] as a number, as the [as u16] of [framed.rs:30]. *)
Definition nb (b : byte) : N := Byte.to_N b.

(** A number below 256 as [u8]; used for [framed.rs:30]. *)
Definition bn (n : N) : byte :=
  match Byte.of_N n with Some b => b | None => x00 end.

Lemma nb_lt b : (nb b < 256)%N.
Proof. unfold nb. pose proof (Byte.to_N_bounded b). lia. Qed.

Lemma bn_nb b : bn (nb b) = b.
Proof. unfold bn, nb. by rewrite Byte.of_to_N. Qed.

Lemma nb_bn n : (n < 256)%N -> nb (bn n) = n.
Proof.
  intros H. unfold nb, bn.
  destruct (Byte.of_N n) as [b|] eqn:E.
  - by apply Byte.to_of_N in E.
  - apply Byte.of_N_None_iff in E. lia.
Qed.

Lemma nb_inj a b : nb a = nb b -> a = b.
Proof. intros H. rewrite <- (bn_nb a), <- (bn_nb b). by rewrite H. Qed.

(** ** Little- and big-endian integers *)

(** [to_le_bytes] [framed.rs:30], with [k] bytes. *)
Fixpoint le_bytes (k : nat) (n : N) : bytes :=
  match k with
  | O => []
  | S k => bn (n mod 256)%N :: le_bytes k (n / 256)%N
  end.

(** [from_le_bytes] [framed.rs:60]. *)
Fixpoint le_val (l : bytes) : N :=
  match l with
  | [] => 0%N
  | b :: l => (nb b + 256 * le_val l)%N
  end.

(** The same, most significant byte first: numbers in MessagePack, written by [rmp_serde] as at
    [seed_bundle.rs:31]. *)
Definition be_bytes (k : nat) (n : N) : bytes := rev (le_bytes k n).
(** Read again, as at [seed_bundle.rs:37-61]. *)
Definition be_val (l : bytes) : N := le_val (rev l).

Lemma le_bytes_length k n : length (le_bytes k n) = k.
Proof. revert n; induction k as [|k IH]; intros n; simpl; [done|by rewrite IH]. Qed.

Lemma be_bytes_length k n : length (be_bytes k n) = k.
Proof. unfold be_bytes. by rewrite rev_length, le_bytes_length. Qed.

Lemma le_val_bytes k n : (n < 256 ^ N.of_nat k)%N -> le_val (le_bytes k n) = n.
Proof.
  revert n; induction k as [|k IH]; intros n H.
  - simpl in *. change (256 ^ 0)%N with 1%N in H. lia.
  - cbn [le_bytes le_val].
    rewrite Nat2N.inj_succ, N.pow_succ_r' in H.
    rewrite nb_bn by (apply N.mod_lt; lia).
    rewrite IH by (apply N.div_lt_upper_bound; lia).
    rewrite N.add_comm, <- N.div_mod by lia. done.
Qed.

Lemma be_val_bytes k n : (n < 256 ^ N.of_nat k)%N -> be_val (be_bytes k n) = n.
Proof. intros H. unfold be_val, be_bytes. rewrite rev_involutive. by apply le_val_bytes. Qed.

Lemma le_val_lt l : (le_val l < 256 ^ N.of_nat (length l))%N.
Proof.
  induction l as [|b l IH].
  - simpl. change (256 ^ 0)%N with 1%N. lia.
  - cbn [le_val length]. rewrite Nat2N.inj_succ, N.pow_succ_r'.
    pose proof (nb_lt b). lia.
Qed.

(** ** Taking a fixed number of bytes off the front *)

(** [read_exact], as at [framed.rs:60]. *)
Definition split_at {A} (n : nat) (l : list A) : option (list A * list A) :=
  if Nat.leb n (length l) then Some (take n l, drop n l) else None.

Lemma split_at_app {A} n (l k : list A) :
  length l = n -> split_at n (l ++ k) = Some (l, k).
Proof.
  intros <-. unfold split_at.
  rewrite app_length.
  destruct (Nat.leb_spec (length l) (length l + length k)); [|lia].
  by rewrite take_app, drop_app.
Qed.

Lemma split_at_Some {A} n (l a b : list A) :
  split_at n l = Some (a, b) -> l = a ++ b /\ length a = n.
Proof.
  unfold split_at. destruct (Nat.leb_spec n (length l)) as [H|H]; [|done].
  intros [= <- <-]. split; [by rewrite take_drop|].
  by rewrite take_length_le.
Qed.

(** [==] on byte strings and texts, as at [seed_bundle.rs:37-61]. *)
Definition beq (a b : bytes) : bool := bool_decide (a = b).

Lemma beq_true a b : beq a b = true <-> a = b.
Proof. unfold beq. apply bool_decide_eq_true. Qed.
Lemma beq_false a b : beq a b = false <-> a <> b.
Proof. unfold beq. apply bool_decide_eq_false. Qed.
Lemma beq_refl a : beq a a = true.
Proof. by apply beq_true. Qed.
