(** * SeedBundleProofs: proofs about seed bundles *)

From Verif Require Import Base Utf8 Msgpack MsgpackProofs Crypto Types Codec CodecProofs CodecProofs2
  Secret SeedBundle.
From Coq Require Import ZifyBool ZifyNat ZifyN.

(** ** Characters *)

Lemma obind_some {A B} (o : option A) (f : A -> option B) b :
  obind o f = Some b -> exists a, o = Some a /\ f a = Some b.
Proof. destruct o as [a|]; [|done]. by exists a. Qed.

Lemma chars_cons s l : chars s = Some l ->
  match l with
  | [] => s = []
  | c :: l' => exists r, s = c ++ r /\ chars r = Some l' /\ c <> []
      /\ forall r, chars (c ++ r) = obind (chars r) (fun cs => Some (c :: cs))
  end.
Proof.
  destruct s as [|a s]; [by intros [= <-]|]. cbn [chars].
  assert (forall c (o : option (list bytes)) (r : bytes), obind o (fun cs => Some (c :: cs)) = Some l ->
    exists l', l = c :: l' /\ o = Some l') as HO.
  { intros c o r (cs & H & [= <-])%obind_some. by exists cs. }
  repeat match goal with
  | |- (if ?c then _ else _) = _ -> _ => let E := fresh "E" in destruct c eqn:E
  | |- match ?r with [] => _ | _ => _ end = _ -> _ => destruct r as [|? ?]
  end; try done;
  intros (l' & -> & H)%HO; try done; eexists; (split; [reflexivity|]); (split; [done|]);
  (split; [done|]); intros r; cbn [app chars];
  repeat match goal with H : _ = true |- _ => rewrite H; clear H | H : _ = false |- _ => rewrite H; clear H end;
  done.
Qed.

Lemma chars_app a l b : chars a = Some l -> chars (a ++ b) = obind (chars b) (fun m => Some (l ++ m)).
Proof.
  revert a. induction l as [|c l IH]; intros a H; apply chars_cons in H.
  - subst. cbn. by destruct (chars b).
  - destruct H as (r & -> & Hr & _ & Hc). rewrite <- app_assoc, Hc, (IH r Hr).
    by destruct (chars b).
Qed.

Lemma chars_concat a l : chars a = Some l -> concat l = a.
Proof.
  revert a. induction l as [|c l IH]; intros a H; apply chars_cons in H; [done|].
  destruct H as (r & -> & Hr & _ & _). cbn. by rewrite (IH r Hr).
Qed.

Lemma chars_single a l : chars a = Some l -> Forall (fun c => chars c = Some [c] /\ c <> []) l.
Proof.
  revert a. induction l as [|c l IH]; intros a H; apply chars_cons in H; [done|].
  destruct H as (r & -> & Hr & Hn & Hc). constructor; [|by eapply IH]. split; [|done].
  specialize (Hc []). by rewrite app_nil_r in Hc.
Qed.

Lemma chars_of l : Forall (fun c => chars c = Some [c]) l -> chars (concat l) = Some l.
Proof.
  induction 1 as [|c l Hc _ IH]; [done|]. cbn [concat]. by rewrite (chars_app _ _ _ Hc), IH.
Qed.

Lemma utf8_chars s : utf8 s = true <-> exists l, chars s = Some l.
Proof.
  remember (length s) as n eqn:En. revert s En. induction (lt_wf n) as [n _ IH]. intros s ->.
  assert (forall r (f : list bytes -> list bytes), length r < length s ->
    utf8 r = true <-> exists l, obind (chars r) (fun cs => Some (f cs)) = Some l) as H'.
  { intros r f Hr. rewrite (IH (length r) Hr r) by done. destruct (chars r) as [l|]; cbn.
    - split; intros _; by eexists.
    - by split; intros [? ?]. }
  assert ((false = true) <-> exists l : list bytes, None = Some l) as HN by (by split; [|intros [? ?]]).
  clear IH. destruct s as [|a s].
  { cbn. split; [by eexists|done]. }
  cbn [utf8 chars].
  repeat match goal with
  | |- context [if ?c then _ else _] => let E := fresh "E" in destruct c eqn:E
  | |- context [match ?r with [] => _ | _ => _ end] => is_var r; destruct r as [|? ?]
  end; try done; rewrite ?E; cbn [andb];
  repeat match goal with H : (?x = true) |- context [?x] => rewrite H; cbn [andb] end;
  try (apply H'; cbn; lia);
  repeat match goal with H : (?x = _) |- context [?x] => rewrite H; cbn [andb] end.
  all: try done.
  all: try (apply H'; cbn; lia).
Qed.

(** ** Case *)

Definition same_letter (a b : byte) : Prop := lower a = lower b.
Definition letter (a : byte) : Prop := (65 <= nb a <= 90)%N \/ (97 <= nb a <= 122)%N.

Lemma same_letter_cases a b : same_letter a b -> a = b \/ (letter a /\ letter b).
Proof.
  unfold same_letter, lower, letter, in_range. pose proof (nb_lt a). pose proof (nb_lt b).
  destruct (N.leb_spec 65 (nb a)), (N.leb_spec (nb a) 90); cbn [andb];
  destruct (N.leb_spec 65 (nb b)), (N.leb_spec (nb b) 90); cbn [andb]; intros E;
    (try (left; exact E)).
  all: try (apply (f_equal nb) in E; rewrite ?nb_bn in E by lia).
  all: first [right; lia | left; apply nb_inj; lia].
Qed.

Lemma in_range_same lo hi a b : same_letter a b ->
  ((hi < 65)%N \/ (128 <= lo)%N \/ (lo = 0 /\ hi = 127)%N) -> in_range lo hi a = in_range lo hi b.
Proof.
  intros H Hr. apply same_letter_cases in H as [->|[Ha Hb]]; [done|]. unfold letter, in_range in *.
  destruct (N.leb_spec lo (nb a)), (N.leb_spec lo (nb b)), (N.leb_spec (nb a) hi), (N.leb_spec (nb b) hi);
    cbn; try done; lia.
Qed.

Ltac same_ranges :=
  repeat match goal with
  | H : same_letter ?a ?b |- context [in_range ?lo ?hi ?b] =>
      rewrite <- (in_range_same lo hi a b H) by lia
  end.

Lemma chars_same a b : Forall2 same_letter a b ->
  match chars a, chars b with
  | Some l, Some l' => Forall2 (Forall2 same_letter) l l'
  | None, None => True
  | _, _ => False
  end.
Proof.
  remember (length a) as n eqn:En. revert a b En. induction (lt_wf n) as [n _ IH]. intros a b ->.
  intros HF. destruct HF as [|x y a b Hx HF]; [constructor|].
  assert (forall a' b' c c', length a' <= length a -> Forall2 same_letter a' b' ->
    Forall2 same_letter c c' ->
    match obind (chars a') (fun cs => Some (c :: cs)), obind (chars b') (fun cs => Some (c' :: cs)) with
    | Some l, Some l' => Forall2 (Forall2 same_letter) l l'
    | None, None => True
    | _, _ => False
    end) as IH'.
  { intros a' b' c c' Hl H1 H2. specialize (IH (length a') ltac:(cbn; lia) a' b' eq_refl H1).
    destruct (chars a'), (chars b'); cbn in *; try done. by constructor. }
  clear IH. cbn [chars]. same_ranges.
  destruct (in_range 0 127 x) eqn:E0. { apply IH'; [lia|done|by repeat constructor]. }
  destruct (in_range 194 223 x) eqn:E1.
  { destruct HF as [|x1 y1 a b H1 HF]; [done|]. unfold cont. same_ranges.
    destruct (in_range 128 191 x1); [|done]. apply IH'; [cbn; lia|done|by repeat constructor]. }
  assert (forall lo hi, (128 <= lo)%N ->
    match
      match a with
      | b0 :: c :: r => if in_range lo hi b0 && cont c
          then obind (chars r) (fun cs => Some ([x; b0; c] :: cs)) else None
      | _ => None end,
      match b with
      | b0 :: c :: r => if in_range lo hi b0 && cont c
          then obind (chars r) (fun cs => Some ([y; b0; c] :: cs)) else None
      | _ => None end
    with
    | Some l, Some l' => Forall2 (Forall2 same_letter) l l'
    | None, None => True
    | _, _ => False
    end) as H3.
  { intros lo hi Hlo. destruct HF as [|x1 y1 a b H1 HF]; [done|].
    destruct HF as [|x2 y2 a b H2 HF]; [done|]. unfold cont. same_ranges.
    destruct (_ && _); [|done]. apply IH'; [cbn; lia|done|by repeat constructor]. }
  assert (forall lo hi, (128 <= lo)%N ->
    match
      match a with
      | b0 :: c :: d :: r => if in_range lo hi b0 && cont c && cont d
          then obind (chars r) (fun cs => Some ([x; b0; c; d] :: cs)) else None
      | _ => None end,
      match b with
      | b0 :: c :: d :: r => if in_range lo hi b0 && cont c && cont d
          then obind (chars r) (fun cs => Some ([y; b0; c; d] :: cs)) else None
      | _ => None end
    with
    | Some l, Some l' => Forall2 (Forall2 same_letter) l l'
    | None, None => True
    | _, _ => False
    end) as H4.
  { intros lo hi Hlo. destruct HF as [|x1 y1 a b H1 HF]; [done|].
    destruct HF as [|x2 y2 a b H2 HF]; [done|]. destruct HF as [|x3 y3 a b H5 HF]; [done|].
    unfold cont. same_ranges.
    destruct (_ && _); [|done]. apply IH'; [cbn; lia|done|by repeat constructor]. }
  destruct (in_range 224 224 x). { apply H3. lia. }
  destruct (in_range 225 236 x || in_range 238 239 x). { apply H3. lia. }
  destruct (in_range 237 237 x). { apply H3. lia. }
  destruct (in_range 240 240 x). { apply H4. lia. }
  destruct (in_range 241 243 x). { apply H4. lia. }
  destruct (in_range 244 244 x). { apply H4. lia. }
  done.
Qed.

Lemma white_same c c' : Forall2 same_letter c c' -> white c = white c'.
Proof.
  intros HF. destruct HF as [|x1 y1 a b H1 HF]; [done|].
  destruct HF as [|x2 y2 a b H2 HF]; [cbn; by same_ranges|].
  destruct HF as [|x3 y3 a b H3 HF]; [cbn; by same_ranges|].
  destruct HF as [|x4 y4 a b H4 HF]; [cbn; by same_ranges|]. done.
Qed.

Lemma skip_same l l' : Forall2 (Forall2 same_letter) l l' ->
  Forall2 (Forall2 same_letter) (skip white l) (skip white l').
Proof.
  induction 1 as [|c c' l l' Hc HF IH]; [constructor|]. cbn. rewrite (white_same c c' Hc).
  destruct (white c'); [done|]. by constructor.
Qed.

Lemma Forall2_rev' {A B} (P : A -> B -> Prop) l l' : Forall2 P l l' -> Forall2 P (rev l) (rev l').
Proof.
  induction 1; cbn; [constructor|]. apply Forall2_app; [done|]. by repeat constructor.
Qed.

Lemma trim_same l l' : Forall2 (Forall2 same_letter) l l' ->
  Forall2 (Forall2 same_letter) (trim l) (trim l').
Proof. intros H. unfold trim. by apply Forall2_rev', skip_same, Forall2_rev', skip_same. Qed.

Lemma lower_same a b : Forall2 same_letter a b <-> map lower a = map lower b.
Proof.
  split.
  - induction 1 as [|x y a b H _ IH]; [done|]. cbn. by rewrite H, IH.
  - revert b. induction a as [|x a IH]; intros [|y b]; try done. cbn. intros [= H1 H2].
    constructor; [done|by apply IH].
Qed.

Lemma concat_same l l' : Forall2 (Forall2 same_letter) l l' -> Forall2 same_letter (concat l) (concat l').
Proof. induction 1; cbn; [constructor|]. by apply Forall2_app. Qed.

(** ** Trimming *)

Lemma skip_app f l m : skip f (l ++ m) = if forallb f l then skip f m else skip f l ++ m.
Proof.
  induction l as [|c l IH]; [done|]. cbn. destruct (f c); cbn; [by rewrite IH|done].
Qed.

Lemma skip_all f l : forallb f l = true -> skip f l = [].
Proof. intros H. pose proof (skip_app f l []) as E. rewrite H, app_nil_r in E. done. Qed.

Lemma forallb_rev {A} (f : A -> bool) l : forallb f (rev l) = forallb f l.
Proof.
  induction l as [|c l IH]; [done|]. cbn. rewrite forallb_app, IH. cbn.
  by rewrite andb_true_r, andb_comm.
Qed.

Lemma skip_split f l : exists w, l = w ++ skip f l /\ forallb f w = true.
Proof.
  induction l as [|c l (w & E & Hw)]; [by exists []|]. cbn. destruct (f c) eqn:Ec.
  - exists (c :: w). cbn. rewrite Ec. split; [by rewrite E at 1|done].
  - by exists [].
Qed.

Lemma trim_white w1 l w2 : forallb white w1 = true -> forallb white w2 = true ->
  trim (w1 ++ l ++ w2) = trim l.
Proof.
  intros H1 H2. unfold trim. rewrite skip_app, H1. f_equal. rewrite skip_app.
  destruct (forallb white l) eqn:E.
  - by rewrite (skip_all _ _ H2), (skip_all _ _ E).
  - rewrite rev_app_distr, skip_app, forallb_rev, H2. done.
Qed.

Lemma trim_split l : exists w1 w2, l = w1 ++ trim l ++ w2
  /\ forallb white w1 = true /\ forallb white w2 = true.
Proof.
  destruct (skip_split white l) as (w1 & E1 & H1).
  destruct (skip_split white (rev (skip white l))) as (w2 & E2 & H2).
  exists w1, (rev w2). unfold trim. split; [|split; [done|by rewrite forallb_rev]].
  rewrite E1 at 1. f_equal. rewrite <- rev_app_distr, <- E2. by rewrite rev_involutive.
Qed.

(** ** The encoding *)

Definition fits32 (s : bytes) : Prop := (N.of_nat (length s) < 2 ^ 32)%N.
Definition text_ok (s : bytes) : Prop := utf8 s = true /\ fits32 s.

Definition cipher_ok (c : seed_cipher) : Prop :=
  match c with
  | ScPw salt mem ops h d =>
      length salt = 16 /\ (mem < 2 ^ 32)%N /\ (ops < 2 ^ 32)%N /\ length h = 24 /\ length d = 49
  | ScQa salt mem ops q1 q2 q3 h d =>
      (length salt = 16 /\ (mem < 2 ^ 32)%N /\ (ops < 2 ^ 32)%N /\ length h = 24 /\ length d = 49)
      /\ text_ok q1 /\ text_ok q2 /\ text_ok q3
  end.

Lemma rcipher_wcipher c : cipher_ok c -> rcipher (wcipher c) = Some c.
Proof.
  destruct c as [salt mem ops h d|salt mem ops q1 q2 q3 h d]; cbn [cipher_ok wcipher].
  - intros (H1 & H2 & H3 & H4 & H5). cbn [rcipher].
    change (rtext (MStr (str "pw"))) with (Some (str "pw")). cbn [obind].
    change (beq (str "pw") (str "pw")) with true. cbn [rfixed ru32]. rewrite H1, H4, H5. cbn [Nat.eqb obind].
    destruct (N.ltb_spec mem (2 ^ 32)); [|lia]. cbn [obind].
    destruct (N.ltb_spec ops (2 ^ 32)); [|lia]. done.
  - intros ((H1 & H2 & H3 & H4 & H5) & [Q1 _] & [Q2 _] & [Q3 _]). cbn [rcipher].
    change (rtext (MStr (str "qa"))) with (Some (str "qa")). cbn [obind].
    change (beq (str "qa") (str "pw")) with false. change (beq (str "qa") (str "qa")) with true.
    cbn [rfixed ru32 rtext]. rewrite H1, H4, H5, Q1, Q2, Q3. cbn [Nat.eqb obind].
    destruct (N.ltb_spec mem (2 ^ 32)); [|lia]. cbn [obind].
    destruct (N.ltb_spec ops (2 ^ 32)); [|lia]. done.
Qed.

Lemma mwf_wcipher c : cipher_ok c -> mwf (wcipher c) /\ mdepth (wcipher c) <= 2.
Proof.
  unfold text_ok, fits32.
  destruct c as [salt mem ops h d|salt mem ops q1 q2 q3 h d]; cbn [cipher_ok wcipher].
  - intros (H1 & H2 & H3 & H4 & H5). split; [|cbn; lia].
    split; [done|]. cbn [fold_right mwf]. unfold nlen. rewrite H1, H4, H5.
    repeat split; try done; lia.
  - intros ((H1 & H2 & H3 & H4 & H5) & [_ Q1] & [_ Q2] & [_ Q3]). split; [|cbn; lia].
    split; [done|]. cbn [fold_right mwf]. unfold nlen. rewrite H1, H4, H5.
    repeat split; try done; lia.
Qed.

Lemma rall_wcipher l : Forall cipher_ok l -> rall rcipher (map wcipher l) = Some l.
Proof.
  induction 1 as [|c l Hc _ IH]; [done|]. cbn [map rall]. by rewrite rcipher_wcipher, IH.
Qed.

(** What [from_locked] makes of a cipher. *)
Definition unpack (app : bytes) (c : seed_cipher) : locked :=
  match c with
  | ScPw salt mem ops h d => LkPw salt mem ops h d app
  | ScQa salt mem ops q1 q2 q3 h d => LkQa salt mem ops q1 q2 q3 h d app
  end.

Lemma from_locked_encode l app rest :
  Forall cipher_ok l -> (N.of_nat (length l) < 2 ^ 32)%N -> fits32 app ->
  from_locked (encode_bundle l app ++ rest) = Ok (map (unpack app) l).
Proof.
  intros HF Hl Ha. unfold from_locked, encode_bundle. rewrite decode_first_enc.
  - cbn [obind rbundle]. change (rtext (MStr (str "hcsb0"))) with (Some (str "hcsb0")).
    cbn [obind rlist]. rewrite rall_wcipher by done. cbn [obind rbytes].
    change (beq (str "hcsb0") (str "hcsb0")) with true. done.
  - split; [done|]. cbn [fold_right]. split; [done|]. split; [|split; [exact Ha|done]].
    split; [by rewrite nlen_map|]. apply fold_Forall. rewrite Forall_map.
    eapply Forall_impl; [exact HF|]. intros c Hc. by apply mwf_wcipher.
  - transitivity 4; [|unfold MAX_DEPTH; lia]. apply (mdepth_arr 3).
    constructor; [cbn; lia|]. constructor; [|constructor; [cbn; lia|constructor]].
    apply (mdepth_arr 2). rewrite Forall_map. eapply Forall_impl; [exact HF|].
    intros c Hc. by apply mwf_wcipher.
Qed.

(** ** Locking *)

Lemma lock_all_rel C seed l cs : lock_all C seed l = Ok cs ->
  Forall2 (fun x c => lock_one C seed x.1 x.2 = Ok c) l cs.
Proof.
  revert cs. induction l as [|[a r] l IH]; intros cs; cbn [lock_all].
  - intros [= <-]. constructor.
  - destruct (lock_one C seed a r) as [c|] eqn:E; [|done]. cbn [rbind].
    destruct (lock_all C seed l) as [cs'|] eqn:E'; [|done]. intros [= <-].
    constructor; [done|by apply IH].
Qed.

Lemma lock_all_total C seed l :
  Forall (fun x => is_ok (lock_one C seed x.1 x.2) = true) l -> exists cs, lock_all C seed l = Ok cs.
Proof.
  induction 1 as [|[a r] l Ha _ [cs IH]]; [by exists []|]. cbn [lock_all fst snd] in *.
  destruct (lock_one C seed a r) as [c|]; [|done]. cbn [rbind]. rewrite IH. by eexists.
Qed.

Lemma limits_small l : (mem_limit l < 2 ^ 32)%N /\ (ops_limit l < 2 ^ 32)%N.
Proof. by destruct l. Qed.

Section Locking.
  Variable C : Crypto.
  Hypothesis CK : CryptoOk C.

  Lemma pw_enc_dec seed pass l salt hdr c :
    length seed = 32 -> pw_enc C seed pass l salt hdr = Ok c ->
    length c = 49 /\ pw_dec C pass salt (mem_limit l) (ops_limit l) hdr c = Ok seed.
  Proof.
    intros Hs. unfold pw_enc, pw_dec. destruct (pw_key C pass salt _ _) as [k|] eqn:E; [|done].
    cbn [rbind]. intros [= <-]. split.
    - cbn. by rewrite (ss_push_len C CK), Hs.
    - pose proof (sec_open_encrypt C CK k hdr seed) as H. rewrite Hs in H. exact H.
  Qed.
End Locking.

(** ** Answers *)

Lemma trimmed_same a b : Forall2 same_letter a b ->
  rmap (map lower) (trimmed a) = rmap (map lower) (trimmed b).
Proof.
  intros H. apply chars_same in H. unfold trimmed.
  destruct (chars a), (chars b); try done. cbn. f_equal. by apply lower_same, concat_same, trim_same.
Qed.

Lemma trimmed_white w1 a w2 l1 l2 : chars w1 = Some l1 -> chars w2 = Some l2 ->
  forallb white l1 = true -> forallb white l2 = true -> utf8 a = true ->
  trimmed (w1 ++ a ++ w2) = trimmed a.
Proof.
  intros H1 H2 W1 W2 Ha. apply utf8_chars in Ha as [la Ha]. unfold trimmed.
  rewrite (chars_app _ _ _ H1), (chars_app _ _ _ Ha), H2, Ha. cbn.
  by rewrite trim_white.
Qed.

Lemma trimmed_ok a : is_ok (trimmed a) = utf8 a.
Proof.
  unfold trimmed. destruct (utf8 a) eqn:E.
  - apply utf8_chars in E as [l ->]. done.
  - destruct (chars a) as [l|] eqn:Ec; [|done].
    assert (utf8 a = true) by (apply utf8_chars; by exists l). congruence.
Qed.

Lemma trimmed_split a c : trimmed a = Ok c ->
  exists l1 l2, a = concat l1 ++ c ++ concat l2
    /\ Forall (fun x => chars x = Some [x] /\ white x = true) l1
    /\ Forall (fun x => chars x = Some [x] /\ white x = true) l2 /\ utf8 c = true.
Proof.
  unfold trimmed. destruct (chars a) as [l|] eqn:E; [|done]. cbn. intros [= <-].
  destruct (trim_split l) as (w1 & w2 & El & H1 & H2). exists w1, w2.
  pose proof (chars_single a l E) as HF. rewrite El in HF.
  apply Forall_app in HF as [F1 HF]. apply Forall_app in HF as [F2 F3].
  split; [by rewrite <- !concat_app, <- El, (chars_concat a l E)|].
  rewrite forallb_forall in H1, H2.
  split; [|split].
  - apply Forall_forall. intros x Hx. rewrite Forall_forall in F1. split; [by apply F1|].
    apply H1. by apply elem_of_list_In.
  - apply Forall_forall. intros x Hx. rewrite Forall_forall in F3. split; [by apply F3|].
    apply H2. by apply elem_of_list_In.
  - apply utf8_chars. exists (trim l). apply chars_of. eapply Forall_impl; [exact F2|]. by intros ? [? _].
Qed.

Lemma process_ok a1 a2 a3 p : process_answers a1 a2 a3 = Ok p ->
  exists c1 c2 c3, trimmed a1 = Ok c1 /\ trimmed a2 = Ok c2 /\ trimmed a3 = Ok c3
    /\ p = map lower c1 ++ map lower c2 ++ map lower c3.
Proof.
  unfold process_answers. destruct (trimmed a1) as [c1|]; [|done]. destruct (trimmed a2) as [c2|]; [|done].
  destruct (trimmed a3) as [c3|]; [|done]. cbn. intros [= <-]. exists c1, c2, c3.
  by rewrite !map_app.
Qed.

Lemma process_same a1 a2 a3 b1 b2 b3 :
  rmap (map lower) (trimmed a1) = rmap (map lower) (trimmed b1) ->
  rmap (map lower) (trimmed a2) = rmap (map lower) (trimmed b2) ->
  rmap (map lower) (trimmed a3) = rmap (map lower) (trimmed b3) ->
  process_answers a1 a2 a3 = process_answers b1 b2 b3.
Proof.
  unfold process_answers.
  destruct (trimmed a1) as [x1|e1], (trimmed b1) as [y1|f1]; cbn; try done; try congruence.
  destruct (trimmed a2) as [x2|e2], (trimmed b2) as [y2|f2]; cbn; try done; try congruence.
  destruct (trimmed a3) as [x3|e3], (trimmed b3) as [y3|f3]; cbn; try done; try congruence.
  intros [= H1] [= H2] [= H3]. rewrite !map_app. congruence.
Qed.
