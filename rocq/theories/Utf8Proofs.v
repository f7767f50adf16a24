(** * Utf8Proofs: the texts are the UTF-8 forms of code points

    The check [Utf8.utf8] against the definition of UTF-8, which turns every code point but
    the surrogates into one to four bytes ([Json.utf8_of]). *)

From Verif Require Import Base Utf8 Json.
Local Open Scope N_scope.

(** The code points that are characters. *)
Definition scalar (n : N) : Prop := n < 55296 \/ 57344 <= n < 1114112.

Lemma in_range_true lo hi n : lo <= n <= hi -> n < 256 -> in_range lo hi (bn n) = true.
Proof. intros H H'. unfold in_range. rewrite nb_bn by done. apply andb_true_intro. split; apply N.leb_le; lia. Qed.
Lemma in_range_false lo hi n : n < lo \/ hi < n -> n < 256 -> in_range lo hi (bn n) = false.
Proof. intros H H'. unfold in_range. rewrite nb_bn by done. apply andb_false_iff. rewrite !N.leb_gt. lia. Qed.

Ltac ranges :=
  repeat match goal with
  | |- context [in_range ?lo ?hi (bn ?n)] =>
      first [rewrite (in_range_true lo hi n) by lia | rewrite (in_range_false lo hi n) by lia]; cbn [orb andb]
  end.

Lemma utf8_of_ok n r : scalar n -> utf8 (utf8_of n ++ r) = utf8 r.
Proof.
  intros H. unfold scalar in H. unfold utf8_of.
  destruct (N.ltb_spec n 128); [|destruct (N.ltb_spec n 2048); [|destruct (N.ltb_spec n 65536)]].
  - cbn [app utf8]. ranges. done.
  - assert (2 <= n / 64 < 32 /\ n mod 64 < 64) as [? ?] by (Z.to_euclidean_division_equations; lia).
    cbn [app utf8]. unfold cont. ranges. done.
  - assert (n / 4096 < 16 /\ n / 64 mod 64 < 64 /\ n mod 64 < 64
      /\ (n / 4096 = 0 -> 32 <= n / 64 mod 64) /\ (n / 4096 = 13 -> n / 64 mod 64 < 32))
      as (? & ? & ? & ? & ?) by (Z.to_euclidean_division_equations; lia).
    cbn [app utf8]. unfold cont.
    destruct (N.eq_dec (n / 4096) 0) as [E|E]; [rewrite E in *; ranges; done|].
    destruct (N.eq_dec (n / 4096) 13) as [E'|E']; [rewrite E' in *; ranges; done|].
    rewrite (in_range_false 224 224) by lia. ranges.
    destruct (N.ltb_spec (n / 4096) 13); ranges; done.
  - assert (n / 262144 < 5 /\ n / 4096 mod 64 < 64 /\ n / 64 mod 64 < 64 /\ n mod 64 < 64
      /\ (n / 262144 = 0 -> 16 <= n / 4096 mod 64) /\ (n / 262144 = 4 -> n / 4096 mod 64 < 16))
      as (? & ? & ? & ? & ? & ?) by (Z.to_euclidean_division_equations; lia).
    cbn [app utf8]. unfold cont.
    destruct (N.eq_dec (n / 262144) 0) as [E|E]; [rewrite E in *; ranges; done|].
    destruct (N.eq_dec (n / 262144) 4) as [E'|E']; [rewrite E' in *; ranges; done|].
    ranges. done.
Qed.

Lemma in_range_inv lo hi b : in_range lo hi b = true -> lo <= nb b <= hi.
Proof. unfold in_range. rewrite andb_true_iff, !N.leb_le. done. Qed.
Lemma in_range_inv0 lo hi b : in_range lo hi b = false -> nb b < lo \/ hi < nb b.
Proof. unfold in_range. rewrite andb_false_iff, !N.leb_gt. done. Qed.

Lemma utf8_of_1 a : nb a < 128 -> utf8_of (nb a) = [a].
Proof. intros H. unfold utf8_of. destruct (N.ltb_spec (nb a) 128); [by rewrite bn_nb|lia]. Qed.
Lemma utf8_of_2 a b : 194 <= nb a < 224 -> 128 <= nb b < 192 ->
  utf8_of ((nb a - 192) * 64 + (nb b - 128)) = [a; b].
Proof.
  intros Ha Hb. set (n := _ + _).
  assert (n / 64 = nb a - 192 /\ n mod 64 = nb b - 128) as [E1 E2]
    by (unfold n; Z.to_euclidean_division_equations; lia).
  unfold utf8_of. destruct (N.ltb_spec n 128); [lia|]. destruct (N.ltb_spec n 2048); [|lia].
  rewrite E1, E2. replace (192 + (nb a - 192)) with (nb a) by lia.
  replace (128 + (nb b - 128)) with (nb b) by lia. by rewrite !bn_nb.
Qed.
Lemma utf8_of_3 a b c : 224 <= nb a < 240 -> 128 <= nb b < 192 -> 128 <= nb c < 192 ->
  (nb a = 224 -> 160 <= nb b) ->
  utf8_of ((nb a - 224) * 4096 + (nb b - 128) * 64 + (nb c - 128)) = [a; b; c].
Proof.
  intros Ha Hb Hc H0. set (n := _ + _).
  assert (n / 4096 = nb a - 224 /\ n / 64 mod 64 = nb b - 128 /\ n mod 64 = nb c - 128) as (E1 & E2 & E3)
    by (unfold n; Z.to_euclidean_division_equations; lia).
  assert (2048 <= n < 65536) by (unfold n; lia).
  unfold utf8_of. destruct (N.ltb_spec n 128); [lia|]. destruct (N.ltb_spec n 2048); [lia|].
  destruct (N.ltb_spec n 65536); [|lia].
  rewrite E1, E2, E3. replace (224 + (nb a - 224)) with (nb a) by lia.
  replace (128 + (nb b - 128)) with (nb b) by lia. replace (128 + (nb c - 128)) with (nb c) by lia. by rewrite !bn_nb.
Qed.
Lemma utf8_of_4 a b c d : 240 <= nb a < 245 -> 128 <= nb b < 192 -> 128 <= nb c < 192 -> 128 <= nb d < 192 ->
  (nb a = 240 -> 144 <= nb b) ->
  utf8_of ((nb a - 240) * 262144 + (nb b - 128) * 4096 + (nb c - 128) * 64 + (nb d - 128)) = [a; b; c; d].
Proof.
  intros Ha Hb Hc Hd H0. set (n := _ + _).
  assert (n / 262144 = nb a - 240 /\ n / 4096 mod 64 = nb b - 128 /\ n / 64 mod 64 = nb c - 128 /\ n mod 64 = nb d - 128)
    as (E1 & E2 & E3 & E4) by (unfold n; Z.to_euclidean_division_equations; lia).
  assert (65536 <= n) by (unfold n; lia).
  unfold utf8_of. destruct (N.ltb_spec n 128); [lia|]. destruct (N.ltb_spec n 2048); [lia|].
  destruct (N.ltb_spec n 65536); [lia|].
  rewrite E1, E2, E3, E4. replace (240 + (nb a - 240)) with (nb a) by lia.
  replace (128 + (nb b - 128)) with (nb b) by lia. replace (128 + (nb c - 128)) with (nb c) by lia.
  replace (128 + (nb d - 128)) with (nb d) by lia. by rewrite !bn_nb.
Qed.

Ltac inr :=
  repeat match goal with
  | H : (_ && _)%bool = true |- _ => apply andb_true_iff in H as [? H]
  | H : in_range _ _ _ = true |- _ => apply in_range_inv in H
  | H : in_range _ _ _ = false |- _ => apply in_range_inv0 in H
  | H : cont _ = true |- _ => apply in_range_inv in H
  end.

Lemma utf8_points n : forall l, (length l <= n)%nat -> utf8 l = true ->
  exists cps, Forall scalar cps /\ l = concat (map utf8_of cps).
Proof.
  induction n as [|n IH]; intros l Hl Hu; [destruct l; [by exists []|cbn in Hl; lia]|].
  assert (more : forall k cs r, scalar k -> utf8_of k = cs -> (length r <= n)%nat -> utf8 r = true ->
    exists cps, Forall scalar cps /\ cs ++ r = concat (map utf8_of cps)).
  { intros k cs r Hk <- Hr Hu'. destruct (IH r Hr Hu') as (cps & H1 & ->). exists (k :: cps).
    split; [by constructor|done]. }
  destruct l as [|a r]; [by exists []|]. cbn [utf8] in Hu. cbn [length] in Hl.
  destruct (in_range 0 127 a) eqn:E1.
  { apply in_range_inv in E1. apply (more (nb a) [a]); [unfold scalar; lia|apply utf8_of_1; lia|lia|done]. }
  destruct (in_range 194 223 a) eqn:E2.
  { destruct r as [|b r]; [done|]. inr. cbn [length] in Hl.
    apply (more ((nb a - 192) * 64 + (nb b - 128)) [a; b]); [unfold scalar; lia|apply utf8_of_2; lia|lia|done]. }
  assert (three : forall b c r', r = b :: c :: r' -> 224 <= nb a < 240 -> 128 <= nb b < 192 -> 128 <= nb c < 192 ->
    (nb a = 224 -> 160 <= nb b) -> (nb a = 237 -> nb b < 160) -> utf8 r' = true ->
    exists cps, Forall scalar cps /\ a :: r = concat (map utf8_of cps)).
  { intros b c r' -> ????? Hu'. cbn [length] in Hl.
    apply (more ((nb a - 224) * 4096 + (nb b - 128) * 64 + (nb c - 128)) [a; b; c]);
      [unfold scalar; lia|apply utf8_of_3; lia|lia|done]. }
  assert (four : forall b c d r', r = b :: c :: d :: r' -> 240 <= nb a < 245 -> 128 <= nb b < 192 -> 128 <= nb c < 192 ->
    128 <= nb d < 192 ->
    (nb a = 240 -> 144 <= nb b) -> (nb a = 244 -> nb b < 144) -> utf8 r' = true ->
    exists cps, Forall scalar cps /\ a :: r = concat (map utf8_of cps)).
  { intros b c d r' -> ?????? Hu'. cbn [length] in Hl.
    apply (more ((nb a - 240) * 262144 + (nb b - 128) * 4096 + (nb c - 128) * 64 + (nb d - 128)) [a; b; c; d]);
      [unfold scalar; lia|apply utf8_of_4; lia|lia|done]. }
  destruct (in_range 224 224 a) eqn:E3.
  { destruct r as [|b [|c r]]; try done. inr. apply (three b c r); try done; lia. }
  destruct (in_range 225 236 a || in_range 238 239 a)%bool eqn:E4.
  { destruct r as [|b [|c r]]; try done. apply orb_true_iff in E4. inr.
    apply (three b c r); try done; try lia; destruct E4 as [E4|E4]; inr; lia. }
  destruct (in_range 237 237 a) eqn:E5.
  { destruct r as [|b [|c r]]; try done. inr. apply (three b c r); try done; lia. }
  destruct (in_range 240 240 a) eqn:E6.
  { destruct r as [|b [|c [|d r]]]; try done. inr. apply (four b c d r); try done; lia. }
  destruct (in_range 241 243 a) eqn:E7.
  { destruct r as [|b [|c [|d r]]]; try done. inr. apply (four b c d r); try done; lia. }
  destruct (in_range 244 244 a) eqn:E8; [|done].
  destruct r as [|b [|c [|d r]]]; try done. inr. apply (four b c d r); try done; lia.
Qed.

