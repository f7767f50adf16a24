(** * Toy: an instance of the cryptographic laws

    Not secure in any way; it shows that [CryptoOk] is consistent and lets the
    examples beside the theorems be computed. *)

From Verif Require Import Base Crypto.

Definition pad (n : nat) (m : bytes) : bytes := take n (m ++ repeat x00 n).

Definition badd (a b : byte) : byte := bn ((nb a + nb b) mod 256)%N.

(** Symmetric in its two arguments. *)
Fixpoint mix (a b : bytes) : bytes :=
  match a, b with
  | x :: a, y :: b => badd x y :: mix a b
  | _, _ => []
  end.

Definition bump (n : N) (m : bytes) : bytes :=
  match m with
  | [] => []
  | b :: m => badd b (bn (n mod 256)%N) :: m
  end.

Record toy_ss := ToySS { ts_key : bytes; ts_hdr : bytes; ts_ctr : N }.

Definition toy_mac (s : toy_ss) : bytes :=
  pad 16 (bn (ts_ctr s mod 256)%N :: mix (ts_key s) (pad 32 (ts_hdr s))).

Definition toy_push (s : toy_ss) (t : sstag) (m : bytes) : bytes * toy_ss :=
  (m ++ (match t with TagMessage => x00 | TagFinal => x01 end) :: toy_mac s,
   ToySS (ts_key s) (ts_hdr s) (ts_ctr s + 1)).

Definition toy_pull (s : toy_ss) (c : bytes) : option (sstag * bytes * toy_ss) :=
  if Nat.ltb (length c) 17 then None else
  let n := length c - 17 in
  let m := take n c in
  let rest := drop n c in
  let s' := ToySS (ts_key s) (ts_hdr s) (ts_ctr s + 1) in
  if beq rest (x00 :: toy_mac s) then Some (TagMessage, m, s')
  else if beq rest (x01 :: toy_mac s) then Some (TagFinal, m, s')
  else None.

(** Message followed by an authenticator. *)
Definition toy_seal16 (mac m : bytes) : bytes := m ++ pad 16 mac.
Definition toy_open16 (mac c : bytes) : res bytes :=
  if Nat.ltb (length c) 16 then Err (str "short") else
  let n := length c - 16 in
  if beq (drop n c) (pad 16 mac) then Ok (take n c) else Err (str "forged").

Definition toy_sign (k m : bytes) : bytes := pad 32 (take 32 k) ++ pad 32 m.

Definition toy : Crypto := {|
  blake2b n m := pad n m;
  argon2id p s o m :=
    Ok (bn (o mod 256)%N :: bn (m mod 256)%N :: pad 30 (mix p (pad (length p) s)));
  kdf i c k := pad 32 (bump i (pad 32 k));
  sign_pk s := s;
  sign_sk s := s ++ s;
  sign_detached k m := toy_sign k m;
  sign_verify p g m := beq g (toy_sign p m);
  box_sk s := s;
  x_base k := k;
  box_easy n m p k := Ok (toy_seal16 (mix p k) m);
  box_open n c p k := toy_open16 (mix p k) c;
  sbox_easy n m k := toy_seal16 k m;
  sbox_open n c k := toy_open16 k c;
  seal r m p := Ok (m ++ pad 48 p);
  seal_open c p k :=
    if Nat.ltb (length c) 48 then Err (str "short") else
    let n := length c - 48 in
    if beq (drop n c) (pad 48 k) then Ok (take n c) else Err (str "forged");
  ed_pk_to_x p := Ok p;
  ed_sk_to_x k := Ok (take 32 k);
  kx_client p k q := Ok (pad 32 (mix q k), pad 32 (bump 1 (mix q k)));
  kx_server p k q := Ok (pad 32 (bump 1 (mix q k)), pad 32 (mix q k));
  ss_state := toy_ss;
  ss_init k h := ToySS k h 0;
  ss_push := toy_push;
  ss_pull := toy_pull;
|}.

Lemma pad_length n m : length (pad n m) = n.
Proof. unfold pad. rewrite take_length, app_length, repeat_length. lia. Qed.

Lemma badd_comm a b : badd a b = badd b a.
Proof. unfold badd. by rewrite N.add_comm. Qed.

Lemma mix_comm a b : mix a b = mix b a.
Proof.
  revert b; induction a as [|x a IH]; intros [|y b]; simpl; try done.
  by rewrite badd_comm, IH.
Qed.

Lemma toy_open_seal16 mac m : toy_open16 mac (toy_seal16 mac m) = Ok m.
Proof.
  unfold toy_open16, toy_seal16. rewrite app_length, pad_length.
  destruct (Nat.ltb_spec (length m + 16) 16) as [H|H]; [lia|].
  replace (length m + 16 - 16) with (length m) by lia.
  rewrite drop_app, take_app, beq_refl. done.
Qed.

Lemma toy_open16_len mac c m : toy_open16 mac c = Ok m -> length c = length m + 16.
Proof.
  unfold toy_open16. destruct (Nat.ltb_spec (length c) 16) as [H|H]; [done|].
  destruct (beq _ _); [|done]. intros [= <-]. rewrite take_length. lia.
Qed.

Lemma toy_mac_len s : length (toy_mac s) = 16.
Proof. apply pad_length. Qed.

Theorem toy_ok : CryptoOk toy.
Proof.
  split; simpl.
  - intros n m. apply pad_length.
  - intros p s o m k [= <-]. simpl. by rewrite pad_length.
  - intros. apply pad_length.
  - done.
  - intros s Hs. rewrite app_length. lia.
  - intros k m _. unfold toy_sign. rewrite app_length, !pad_length. done.
  - intros s m Hs. unfold toy_sign. apply beq_true.
    rewrite (take_app_alt s s 32) by done. by rewrite (take_ge s 32) by lia.
  - done.
  - done.
  - intros n m a b _ _ _. eexists; split; [done|].
    unfold toy_seal16 at 1. rewrite app_length, pad_length. split; [done|].
    rewrite (mix_comm b a). apply toy_open_seal16.
  - intros n c p k m. apply toy_open16_len.
  - intros n m k. unfold toy_seal16. by rewrite app_length, pad_length.
  - intros. apply toy_open_seal16.
  - intros n c k m. apply toy_open16_len.
  - intros r m k _. eexists; split; [done|]. rewrite app_length, pad_length.
    split; [done|].
    destruct (Nat.ltb_spec (length m + 48) 48) as [H|H]; [lia|].
    replace (length m + 48 - 48) with (length m) by lia.
    by rewrite drop_app, take_app, beq_refl.
  - intros s Hs. exists (take 32 (s ++ s)). rewrite (take_app_alt s s 32) by done.
    auto.
  - intros c s Hc Hs. eexists _, _. split; [done|]. rewrite (mix_comm s c).
    rewrite !pad_length. done.
  - intros st t m. unfold toy_push, toy_pull; cbn [fst snd].
    rewrite app_length. cbn [length]. rewrite toy_mac_len.
    destruct (Nat.ltb_spec (length m + 17) 17) as [H|H]; [lia|].
    replace (length m + 17 - 17) with (length m) by lia.
    rewrite drop_app, take_app.
    destruct t; rewrite beq_refl; [done|].
    match goal with |- context [beq ?a ?b] => destruct (beq a b) eqn:E end; [|done].
    by apply beq_true in E.
  - intros st t m. unfold toy_push; cbn [fst].
    rewrite app_length. cbn [length]. rewrite toy_mac_len. done.
  - intros st c t m st' H. unfold toy_pull in H.
    destruct (Nat.ltb_spec (length c) 17) as [Hl|Hl]; [done|].
    unfold ABYTES.
    assert (length (take (length c - 17) c) = length c - 17) by (rewrite take_length; lia).
    destruct (beq _ _); [injection H as _ <- _; lia|].
    destruct (beq _ _); [injection H as _ <- _; lia|done].
Qed.
