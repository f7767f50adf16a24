(** * Base64Proofs: round-trip laws of the text form *)

From Coq Require Import ZifyBool ZifyNat ZifyN.
From Verif Require Import Base Base64.
Local Ltac Zify.zify_post_hook ::= Z.div_mod_to_equations.

(** Induction three (four) elements at a time. *)
Lemma list_ind3 {A} (P : list A -> Prop) :
  P [] -> (forall a, P [a]) -> (forall a b, P [a; b]) ->
  (forall a b c l, P l -> P (a :: b :: c :: l)) -> forall l, P l.
Proof.
  intros H0 H1 H2 H3 l.
  assert (H : P l /\ (forall a, P (a :: l)) /\ (forall a b, P (a :: b :: l))).
  { induction l as [|x l (IH0 & IH1 & IH2)]; [auto|]. repeat split; auto. }
  tauto.
Qed.

Lemma list_ind4 {A} (P : list A -> Prop) :
  P [] -> (forall a, P [a]) -> (forall a b, P [a; b]) -> (forall a b c, P [a; b; c]) ->
  (forall a b c d l, P l -> P (a :: b :: c :: d :: l)) -> forall l, P l.
Proof.
  intros H0 H1 H2 H3 H4 l.
  assert (H : P l /\ (forall a, P (a :: l)) /\ (forall a b, P (a :: b :: l))
              /\ (forall a b c, P (a :: b :: c :: l))).
  { induction l as [|x l (IH0 & IH1 & IH2 & IH3)]; [auto|]. repeat split; auto. }
  tauto.
Qed.

Lemma unsym_sym al n : (n < 64)%N -> unsym al (sym al n) = Some n.
Proof.
  intros H. unfold sym.
  destruct (N.ltb_spec n 26).
  { unfold unsym. rewrite nb_bn by lia.
    destruct (N.leb_spec 65 (n + 65)), (N.leb_spec (n + 65) 90); simpl; try lia.
    f_equal; lia. }
  destruct (N.ltb_spec n 52).
  { unfold unsym. rewrite nb_bn by lia.
    destruct (N.leb_spec 65 (n + 71)), (N.leb_spec (n + 71) 90); simpl; try lia;
    destruct (N.leb_spec 97 (n + 71)), (N.leb_spec (n + 71) 122); simpl; try lia;
    f_equal; lia. }
  destruct (N.ltb_spec n 62).
  { unfold unsym. rewrite nb_bn by lia.
    destruct (N.leb_spec 65 (n - 4)), (N.leb_spec (n - 4) 90); simpl; try lia;
    destruct (N.leb_spec 97 (n - 4)), (N.leb_spec (n - 4) 122); simpl; try lia;
    destruct (N.leb_spec 48 (n - 4)), (N.leb_spec (n - 4) 57); simpl; try lia;
    f_equal; lia. }
  destruct (N.eqb_spec n 62) as [->|]; [by destruct al|].
  replace n with 63%N by lia. by destruct al.
Qed.

Lemma unsym_Some al b n : unsym al b = Some n -> (n < 64)%N /\ sym al n = b.
Proof.
  unfold unsym. pose proof (nb_lt b) as Hb. intros H.
  destruct (N.leb_spec 65 (nb b)), (N.leb_spec (nb b) 90); cbn [andb] in H.
  { injection H as <-. split; [lia|]. unfold sym.
    destruct (N.ltb_spec (nb b - 65) 26); [|lia].
    apply nb_inj. rewrite nb_bn by lia. lia. }
  all: destruct (N.leb_spec 97 (nb b)), (N.leb_spec (nb b) 122); cbn [andb] in H; try lia.
  all: try (injection H as <-; split; [lia|]; unfold sym;
    destruct (N.ltb_spec (nb b - 71) 26), (N.ltb_spec (nb b - 71) 52); try lia;
    apply nb_inj; rewrite nb_bn by lia; lia).
  all: destruct (N.leb_spec 48 (nb b)), (N.leb_spec (nb b) 57); cbn [andb] in H; try lia.
  all: try (injection H as <-; split; [lia|]; unfold sym;
    destruct (N.ltb_spec (nb b + 4) 26), (N.ltb_spec (nb b + 4) 52),
      (N.ltb_spec (nb b + 4) 62); try lia;
    apply nb_inj; rewrite nb_bn by lia; lia).
  all: destruct al.
  all: repeat match type of H with
       | (if (?x =? ?y)%N then _ else _) = _ => destruct (N.eqb_spec x y)
       end; try discriminate H; injection H as <-; split; try lia;
       apply nb_inj; unfold sym; cbn; rewrite ?nb_bn by lia;
       match goal with E : nb ?x = _ |- _ = nb ?x => rewrite E; vm_compute; reflexivity end.
Qed.

Lemma decode_encode_np al l : decode_np al (encode_np al l) = Some l.
Proof.
  induction l as [|a|a b|a b c l IH] using list_ind3.
  - done.
  - pose proof (nb_lt a). cbn [encode_np decode_np].
    rewrite !unsym_sym by lia.
    destruct (N.eqb_spec (nb a mod 4 * 16 mod 16) 0); [|lia].
    do 2 f_equal. apply nb_inj. rewrite nb_bn by lia. lia.
  - pose proof (nb_lt a). pose proof (nb_lt b). cbn [encode_np decode_np].
    rewrite !unsym_sym by lia.
    destruct (N.eqb_spec (nb b mod 16 * 4 mod 4) 0); [|lia].
    f_equal. f_equal; [|f_equal]; apply nb_inj; rewrite nb_bn by lia; lia.
  - pose proof (nb_lt a). pose proof (nb_lt b). pose proof (nb_lt c).
    cbn [encode_np decode_np].
    rewrite !unsym_sym by lia. rewrite IH.
    f_equal. f_equal; [|f_equal; [|f_equal]]; apply nb_inj; rewrite nb_bn by lia; lia.
Qed.

(** Decoding is canonical: only the text that [encode_np] writes is accepted. *)
Lemma encode_decode_np al s l : decode_np al s = Some l -> encode_np al l = s.
Proof.
  revert l; induction s as [|p|p q|p q r|p q r t s IH] using list_ind4; intros l H.
  - by injection H as <-.
  - done.
  - cbn [decode_np] in H.
    destruct (unsym al p) as [x|] eqn:Ep; [|done].
    destruct (unsym al q) as [y|] eqn:Eq; [|done].
    destruct (N.eqb_spec (y mod 16) 0); [|done]. injection H as <-.
    apply unsym_Some in Ep as [? <-]. apply unsym_Some in Eq as [? <-].
    cbn [encode_np]. rewrite nb_bn by lia.
    f_equal; [|f_equal]; f_equal; lia.
  - cbn [decode_np] in H.
    destruct (unsym al p) as [x|] eqn:Ep; [|done].
    destruct (unsym al q) as [y|] eqn:Eq; [|done].
    destruct (unsym al r) as [z|] eqn:Er; [|done].
    destruct (N.eqb_spec (z mod 4) 0); [|done]. injection H as <-.
    apply unsym_Some in Ep as [? <-]. apply unsym_Some in Eq as [? <-].
    apply unsym_Some in Er as [? <-].
    cbn [encode_np]. rewrite !nb_bn by lia.
    f_equal; [|f_equal; [|f_equal]]; f_equal; lia.
  - cbn [decode_np] in H.
    destruct (unsym al p) as [x|] eqn:Ep; [|done].
    destruct (unsym al q) as [y|] eqn:Eq; [|done].
    destruct (unsym al r) as [z|] eqn:Er; [|done].
    destruct (unsym al t) as [w|] eqn:Et; [|done].
    destruct (decode_np al s) as [out|] eqn:Es; [|done]. injection H as <-.
    apply unsym_Some in Ep as [? <-]. apply unsym_Some in Eq as [? <-].
    apply unsym_Some in Er as [? <-]. apply unsym_Some in Et as [? <-].
    cbn [encode_np]. rewrite !nb_bn by lia. rewrite (IH out) by done.
    f_equal; [|f_equal; [|f_equal; [|f_equal]]]; f_equal; lia.
Qed.

Lemma from_to_b64url b : from_b64url (to_b64url b) = Ok b.
Proof. unfold from_b64url, to_b64url. by rewrite decode_encode_np. Qed.

Lemma to_from_b64url s b : from_b64url s = Ok b -> to_b64url b = s.
Proof.
  unfold from_b64url, to_b64url. destruct (decode_np UrlSafe s) eqn:E; [|done].
  intros [= <-]. by apply encode_decode_np.
Qed.

Lemma to_b64url_inj a b : to_b64url a = to_b64url b -> a = b.
Proof.
  intros H. assert (Ok a = Ok b) as [= ->]; [|done].
  by rewrite <- !from_to_b64url, H.
Qed.

(** ** Standard alphabet with padding *)

Lemma sym_std_not_pad n : (n < 64)%N -> sym Standard n <> pad_char.
Proof.
  intros H E. pose proof (unsym_sym Standard n H) as U. rewrite E in U.
  vm_compute in U. done.
Qed.

Lemma encode_np_length al l :
  length (encode_np al l) = length l / 3 * 4 + (match length l mod 3 with 0 => 0 | 1 => 2 | _ => 3 end).
Proof.
  induction l as [|a|a b|a b c l IH] using list_ind3; try done.
  cbn [encode_np length]. rewrite IH.
  replace (S (S (S (length l)))) with (length l + 1 * 3) by lia.
  rewrite Nat.div_add, Nat.mod_add by lia. lia.
Qed.

Lemma encode_np_no_pad l : Forall (fun b => b <> pad_char) (encode_np Standard l).
Proof.
  induction l as [|a|a b|a b c l IH] using list_ind3.
  - constructor.
  - pose proof (nb_lt a). repeat constructor; apply sym_std_not_pad; lia.
  - pose proof (nb_lt a). pose proof (nb_lt b).
    repeat constructor; apply sym_std_not_pad; lia.
  - pose proof (nb_lt a). pose proof (nb_lt b). pose proof (nb_lt c).
    cbn [encode_np]. repeat constructor; try (apply sym_std_not_pad; lia). done.
Qed.

Lemma from_to_b64std b : from_b64std (to_b64std b) = Ok b.
Proof.
  unfold to_b64std.
  pose proof (encode_np_length Standard b) as HL.
  pose proof (encode_np_no_pad b) as HP.
  pose proof (decode_encode_np Standard b) as HD.
  remember (encode_np Standard b) as e eqn:He. clear He.
  pose proof (Nat.mod_upper_bound (length b) 3 ltac:(lia)) as Hm.
  destruct (length b mod 3) as [|[|[|?]]] eqn:Em; [| | |lia].
  - unfold from_b64std.
    replace (length e mod 4) with 0; [|rewrite HL, Nat.add_0_r, Nat.mod_mul; lia].
    cbn [Nat.eqb negb].
    destruct (rev e) as [|p [|q r]] eqn:Er; [by rewrite HD..|].
    rewrite bool_decide_eq_false_2; [by rewrite HD|].
    rewrite Forall_forall in HP. apply HP. rewrite elem_of_list_In, in_rev, Er. by left.
  - unfold from_b64std. rewrite app_length. cbn [length].
    replace ((length e + 2) mod 4) with 0;
      [|rewrite HL; replace (length b / 3 * 4 + 2 + 2) with ((length b / 3 + 1) * 4) by lia;
        rewrite Nat.mod_mul; lia].
    cbn [Nat.eqb negb]. rewrite rev_app_distr. cbn [rev app].
    rewrite !bool_decide_eq_true_2 by done. rewrite rev_involutive, HD. done.
  - unfold from_b64std. rewrite app_length. cbn [length].
    replace ((length e + 1) mod 4) with 0;
      [|rewrite HL; replace (length b / 3 * 4 + 3 + 1) with ((length b / 3 + 1) * 4) by lia;
        rewrite Nat.mod_mul; lia].
    cbn [Nat.eqb negb]. rewrite rev_app_distr. cbn [rev app].
    destruct (rev e) as [|q r] eqn:Er.
    { apply (f_equal (@rev _)) in Er. rewrite rev_involutive in Er. subst e. cbn in HL. lia. }
    rewrite bool_decide_eq_true_2 by done.
    rewrite bool_decide_eq_false_2.
    2:{ rewrite Forall_forall in HP. apply HP. rewrite elem_of_list_In, in_rev, Er. by left. }
    assert (rev r ++ [q] = e) as ->; [|by rewrite HD].
    rewrite <- (rev_involutive e), Er. done.
Qed.
