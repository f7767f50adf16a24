(** * WireProofs: lemmas about frames and encrypted messages *)

From Verif Require Import Base Crypto Types Codec CodecProofs CodecProofs2 System Wire Sender WireVocab.
From Coq Require Import ZifyBool ZifyNat ZifyN.

(** ** Prefixes *)

Lemma part_of {A} (p k f r : list A) : f ++ r = p ++ k -> length p < length f -> p `prefix_of` f.
Proof.
  intros E L. apply (f_equal (take (length f))) in E. rewrite take_app in E.
  rewrite take_app_ge in E by lia. by eexists.
Qed.

Lemma whole_of {A} (p k f r : list A) :
  f ++ r = p ++ k -> length f <= length p -> p = f ++ drop (length f) p.
Proof.
  intros E L. rewrite <- (take_drop (length f) p) at 1. f_equal.
  apply (f_equal (take (length f))) in E. by rewrite take_app, take_app_le in E.
Qed.

(** ** Reading *)

Lemma read_exact_spec n cs :
  match read_exact n cs with
  | Some (d, r) => concat cs = d ++ concat r /\ length d = n
  | None => length (concat cs) < n
  end.
Proof.
  revert n. induction cs as [|c cs IH]; intros [|n]; cbn [read_exact]; try done.
  - cbn. lia.
  - destruct (Nat.leb_spec (length c) (S n)) as [H|H].
    + specialize (IH (S n - length c)). destruct (read_exact _ cs) as [[d r]|].
      * destruct IH as [E1 E2]. cbn [concat]. rewrite E1, app_assoc, app_length. split; [done|lia].
      * cbn [concat]. rewrite app_length. lia.
    + cbn [concat]. rewrite app_assoc, take_drop, take_length. split; [done|lia].
Qed.

Lemma read_exact_app n d cs rest :
  concat cs = d ++ rest -> length d = n -> exists r, read_exact n cs = Some (d, r) /\ concat r = rest.
Proof.
  intros E L. pose proof (read_exact_spec n cs) as H. destruct (read_exact n cs) as [[d' r]|].
  - destruct H as [H1 H2]. rewrite E in H1. apply app_inj_1 in H1 as [-> ->]; [|lia]. by exists r.
  - rewrite E, app_length in H. lia.
Qed.

Lemma read_exact_short n cs : length (concat cs) < n -> read_exact n cs = None.
Proof.
  intros L. pose proof (read_exact_spec n cs) as H. destruct (read_exact n cs) as [[d' r]|]; [|done].
  destruct H as [H1 H2]. rewrite H1, app_length in L. lia.
Qed.

(** ** Frames *)

Definition frame (d : bytes) : bytes := le_bytes 2 (N.of_nat (length d)) ++ d.

Lemma frame_length d : length (frame d) = 2 + length d.
Proof. unfold frame. by rewrite app_length, le_bytes_length. Qed.

Lemma frame_send_ok d w : frame_send d = Ok w -> w = frame d /\ (N.of_nat (length d) <= MAX_FRAME)%N.
Proof.
  unfold frame_send. destruct (N.ltb_spec MAX_FRAME (N.of_nat (length d))) as [H|H]; [done|].
  intros [= <-]. done.
Qed.

Lemma frame_send_small d : (N.of_nat (length d) <= MAX_FRAME)%N -> frame_send d = Ok (frame d).
Proof.
  intros H. unfold frame_send.
  by destruct (N.ltb_spec MAX_FRAME (N.of_nat (length d))) as [H'|H']; [lia|].
Qed.

Lemma le_bytes_val l : le_bytes (length l) (le_val l) = l.
Proof.
  induction l as [|b l IH]; [done|]. cbn [length le_val le_bytes].
  pose proof (nb_lt b) as L.
  replace ((nb b + 256 * le_val l) mod 256)%N with (nb b).
  - rewrite bn_nb. f_equal.
    replace ((nb b + 256 * le_val l) / 256)%N with (le_val l); [done|].
    rewrite N.mul_comm, N.div_add by lia. rewrite N.div_small by lia. done.
  - rewrite N.mul_comm, N.mod_add by lia. by rewrite N.mod_small by lia.
Qed.

Lemma le2_val n : (n < 65536)%N -> le_val (le_bytes 2 n) = n.
Proof. intros H. apply le_val_bytes. done. Qed.

Lemma frame_recv_frame d cs rest :
  (N.of_nat (length d) <= MAX_FRAME)%N -> concat cs = frame d ++ rest ->
  exists r, frame_recv cs = Got d r /\ concat r = rest.
Proof.
  intros L E. unfold frame in E. rewrite <- app_assoc in E. unfold frame_recv.
  destruct (read_exact_app 2 _ _ _ E) as (r & -> & E1); [by rewrite le_bytes_length|].
  unfold MAX_FRAME in *. rewrite le2_val by lia.
  destruct (N.ltb_spec 8192 (N.of_nat (length d))) as [?|_]; [lia|].
  destruct (read_exact_app (N.to_nat (N.of_nat (length d))) _ _ _ E1) as (r' & -> & E2); [lia|].
  by exists r'.
Qed.

Lemma frame_recv_got cs d r :
  frame_recv cs = Got d r ->
  concat cs = frame d ++ concat r /\ (N.of_nat (length d) <= MAX_FRAME)%N.
Proof.
  unfold frame_recv. pose proof (read_exact_spec 2 cs) as H.
  destruct (read_exact 2 cs) as [[l r1]|]; [|done]. destruct H as [H1 H2].
  destruct (N.ltb_spec MAX_FRAME (le_val l)) as [?|L]; [done|].
  pose proof (read_exact_spec (N.to_nat (le_val l)) r1) as H.
  destruct (read_exact _ r1) as [[d' r2]|]; [|done]. destruct H as [H3 H4].
  intros [= <- <-]. assert (N.of_nat (length d') = le_val l) as E by lia.
  split; [|by rewrite E]. unfold frame. rewrite E, H1, H3, <- app_assoc.
  by rewrite <- H2, le_bytes_val.
Qed.

Lemma frame_recv_not_panic cs : frame_recv cs <> Panic.
Proof.
  unfold frame_recv. destruct (read_exact 2 cs) as [[l r1]|]; [|done].
  destruct (N.ltb _ _); [done|]. by destruct (read_exact _ r1) as [[? ?]|].
Qed.

(** A proper part of a frame is not delivered. *)
Lemma frame_recv_part cs d :
  (N.of_nat (length d) <= MAX_FRAME)%N -> concat cs `prefix_of` frame d ->
  length (concat cs) < length (frame d) -> frame_recv cs = Stop eof.
Proof.
  intros L [k E] Hl. unfold frame_recv. pose proof (read_exact_spec 2 cs) as H.
  destruct (read_exact 2 cs) as [[l r1]|]; [|done]. destruct H as [H1 H2].
  rewrite H1 in E. unfold frame in E. rewrite <- app_assoc in E.
  apply app_inj_1 in E as [<- E]; [|by rewrite le_bytes_length].
  unfold MAX_FRAME in *. rewrite le2_val by lia.
  destruct (N.ltb_spec 8192 (N.of_nat (length d))) as [?|_]; [lia|].
  rewrite read_exact_short; [done|].
  rewrite frame_length, H1, app_length, le_bytes_length in Hl. lia.
Qed.

Lemma frame_recv_over cs n rest :
  (MAX_FRAME < n < 65536)%N -> concat cs = le_bytes 2 n ++ rest ->
  frame_recv cs = Stop (str "FrameOverflow").
Proof.
  intros [L1 L2] E. unfold frame_recv.
  destruct (read_exact_app 2 _ _ _ E) as (r & -> & E1); [by rewrite le_bytes_length|].
  rewrite le2_val by lia. destruct (N.ltb_spec MAX_FRAME n) as [?|?]; [done|lia].
Qed.

(** ** Streams *)

Definition turn_rel {A S T} (R : S -> T -> Prop) (x : turn A S) (y : turn A T) : Prop :=
  match x, y with
  | Got a s, Got b t => a = b /\ R s t
  | Stop e, Stop e' => e = e'
  | Panic, Panic => True
  | _, _ => False
  end.

Lemma try_unfold_rel {A S T} (R : S -> T -> Prop) (f : S -> turn A S) (h : T -> turn A T) n s t :
  (forall s t, R s t -> turn_rel R (f s) (h t)) -> R s t ->
  try_unfold f n s = try_unfold h n t.
Proof.
  intros HR. revert s t. induction n as [|n IH]; intros s t Hst; [done|].
  cbn [try_unfold]. specialize (HR s t Hst).
  destruct (f s), (h t); cbn [turn_rel] in HR; try done.
  - destruct HR as [-> HR]. by rewrite (IH _ _ HR).
  - by subst.
Qed.

Lemma frame_recv_ext s t :
  concat s = concat t -> turn_rel (fun s t => concat s = concat t) (frame_recv s) (frame_recv t).
Proof.
  intros E. unfold frame_recv.
  pose proof (read_exact_spec 2 s) as Hs. pose proof (read_exact_spec 2 t) as Ht.
  destruct (read_exact 2 s) as [[l r]|], (read_exact 2 t) as [[l' r']|].
  2:{ destruct Hs as [H1 H2]. rewrite <- E, H1, app_length in Ht. lia. }
  2:{ destruct Ht as [H1 H2]. rewrite E, H1, app_length in Hs. lia. }
  2: done.
  destruct Hs as [H1 H2], Ht as [H3 H4]. rewrite H1, H3 in E.
  apply app_inj_1 in E as [-> E]; [|lia].
  destruct (N.ltb _ _); [done|].
  pose proof (read_exact_spec (N.to_nat (le_val l')) r) as Hs.
  pose proof (read_exact_spec (N.to_nat (le_val l')) r') as Ht.
  destruct (read_exact _ r) as [[d q]|], (read_exact _ r') as [[d' q']|].
  2:{ destruct Hs as [? ?]. rewrite <- E, H, app_length in Ht. lia. }
  2:{ destruct Ht as [? ?]. rewrite E, H, app_length in Hs. lia. }
  2: done.
  destruct Hs as [H5 H6], Ht as [H7 H8]. rewrite H5, H7 in E.
  apply app_inj_1 in E as [-> E]; [|lia]. done.
Qed.

Lemma frames_ext s t : concat s = concat t -> frames s = frames t.
Proof.
  intros E. unfold frames, budget. rewrite E.
  by apply (try_unfold_rel (fun s t => concat s = concat t)); [apply frame_recv_ext|].
Qed.

(** A budget larger than the number of bytes is enough. *)
Lemma frames_unfold n cs :
  length (concat cs) < n -> try_unfold frame_recv n cs = frames cs.
Proof.
  enough (forall n m cs, length (concat cs) < n -> length (concat cs) < m ->
    try_unfold frame_recv n cs = try_unfold frame_recv m cs) as H.
  { intros L. apply H; [done|]. unfold budget. lia. }
  clear. induction n as [|n IH]; intros m cs L1 L2; [lia|]. destruct m as [|m]; [lia|].
  cbn [try_unfold]. destruct (frame_recv cs) as [d r| |] eqn:E; [|done..].
  apply frame_recv_got in E as [E _].
  rewrite (IH m); [done| |];
    rewrite E, app_length, frame_length in L1, L2; lia.
Qed.

Lemma frames_got cs d r :
  frame_recv cs = Got d r -> frames cs = (d :: (frames r).1, (frames r).2).
Proof.
  intros E. unfold frames at 1, budget. cbn [try_unfold]. rewrite E.
  apply frame_recv_got in E as [E _].
  rewrite frames_unfold by (rewrite E, app_length, frame_length; lia).
  by destruct (frames r).
Qed.

Lemma frames_stop cs e : frame_recv cs = Stop e -> frames cs = ([], Ended e).
Proof. intros E. unfold frames, budget. cbn [try_unfold]. by rewrite E. Qed.

Lemma frames_nil cs : concat cs = [] -> frames cs = ([], Ended eof).
Proof.
  intros E. apply frames_stop. unfold frame_recv. rewrite read_exact_short; [done|].
  rewrite E. cbn. lia.
Qed.

Lemma frames_app ds ws cs rest :
  Forall2 (fun d w => frame_send d = Ok w) ds ws -> concat cs = concat ws ++ rest ->
  exists r, concat r = rest /\ frames cs = (ds ++ (frames r).1, (frames r).2).
Proof.
  intros H. revert cs. induction H as [|d w ds ws H _ IH]; intros cs E.
  - exists cs. split; [done|]. by destruct (frames cs).
  - cbn [concat] in E. rewrite <- app_assoc in E. apply frame_send_ok in H as [-> L].
    destruct (frame_recv_frame d cs _ L E) as (r & H & Er).
    destruct (IH r Er) as (r' & E1 & E2). exists r'. split; [done|].
    rewrite (frames_got _ _ _ H), E2. done.
Qed.

Lemma frames_prefix ds ws cs :
  Forall2 (fun d w => frame_send d = Ok w) ds ws -> concat cs `prefix_of` concat ws ->
  exists k, frames cs = (take k ds, Ended eof)
    /\ length (concat (take k ws)) <= length (concat cs)
    /\ (k < length ds -> length (concat cs) < length (concat (take (S k) ws))).
Proof.
  intros H. revert cs. induction H as [|d w ds ws H _ IH]; intros cs [k E].
  - exists 0. cbn in E. symmetry in E. apply app_eq_nil in E as [E _].
    rewrite frames_nil by done. rewrite E. cbn. split; [done|]. split; lia.
  - cbn [concat] in E. apply frame_send_ok in H as [-> L].
    destruct (le_lt_dec (length (frame d)) (length (concat cs))) as [Hl|Hl].
    + assert (concat cs = frame d ++ drop (length (frame d)) (concat cs)) as Ed.
      { by apply (whole_of _ _ _ _ E). }
      destruct (frame_recv_frame d cs _ L Ed) as (r & H & Er).
      destruct (IH r) as (j & E1 & E2 & E3).
      { exists k. rewrite Er. rewrite Ed, <- app_assoc in E. by apply app_inv_head in E. }
      exists (S j). rewrite (frames_got _ _ _ H), E1. cbn [take concat].
      split; [done|]. rewrite Ed, !app_length, <- Er. split; [lia|].
      intros Hj. cbn [length] in Hj. pose proof (E3 ltac:(lia)). cbn [take concat] in *. lia.
    + exists 0. cbn [take concat]. split; [|rewrite app_length; cbn [length]; split; [lia|]; intros _; lia].
      apply frames_stop, (frame_recv_part _ d); [done| |done].
      by apply (part_of _ _ _ _ E).
Qed.

(** Any bytes: the frames delivered are what stands on the wire. *)
Lemma frames_sound cs ds e :
  frames cs = (ds, e) ->
  exists ws rest, Forall2 (fun d w => frame_send d = Ok w) ds ws /\ concat cs = concat ws ++ rest
    /\ exists er, e = Ended er.
Proof.
  remember (length (concat cs)) as n eqn:En. revert cs ds e En.
  induction (lt_wf n) as [n _ IH]. intros cs ds e -> H.
  destruct (frame_recv cs) as [d r|er|] eqn:E.
  - rewrite (frames_got _ _ _ E) in H. injection H as <- <-.
    apply frame_recv_got in E as [E L].
    destruct (IH (length (concat r))) with (cs := r) (ds := (frames r).1) (e := (frames r).2)
      as (ws & rest & F & Er & X); [|done|by destruct (frames r)|].
    { rewrite E, app_length, frame_length. lia. }
    exists (frame d :: ws), rest. split; [|split; [|done]].
    + constructor; [by apply frame_send_small|done].
    + rewrite E, Er. cbn [concat]. by rewrite app_assoc.
  - rewrite (frames_stop _ _ E) in H. injection H as <- <-.
    exists [], (concat cs). eauto.
  - by apply frame_recv_not_panic in E.
Qed.

(** ** Encrypted messages *)

Section Wire.
  Variable C : Crypto.
  Hypothesis CK : CryptoOk C.

  Notation after := (after C).
  Notation misplaced := (misplaced C).

  Definition same_rest (s t : ss_state C * list bytes) : Prop :=
    s.1 = t.1 /\ concat s.2 = concat t.2.

  Lemma crypt_recv_ext s t : same_rest s t -> turn_rel same_rest (crypt_recv C s) (crypt_recv C t).
  Proof.
    destruct s as [d1 s], t as [d2 t]. intros [E1 E2]. cbn [fst snd] in *. subst d2.
    unfold crypt_recv. pose proof (frame_recv_ext s t E2) as H.
    destruct (frame_recv s), (frame_recv t); cbn [turn_rel] in H; try done.
    destruct H as [-> H]. destruct (Nat.ltb _ _); [done|].
    by destruct (ss_pull C d1 a0) as [[[? ?] ?]|].
  Qed.

  Lemma api_recv_ext s t : same_rest s t -> turn_rel same_rest (api_recv C s) (api_recv C t).
  Proof.
    intros H. apply crypt_recv_ext in H. unfold api_recv.
    destruct (crypt_recv C s), (crypt_recv C t); cbn [turn_rel] in H; try done.
    destruct H as [-> H]. by destruct (decode_api a0).
  Qed.

  Lemma messages_ext dec s t : concat s = concat t -> messages C dec s = messages C dec t.
  Proof.
    intros E. unfold messages, budget. rewrite E.
    by apply (try_unfold_rel same_rest); [apply api_recv_ext|].
  Qed.

  Lemma api_recv_got dec cs a s :
    api_recv C (dec, cs) = Got a s -> exists c r m t, frame_recv cs = Got c r /\ s.2 = r
      /\ ss_pull C dec c = Some (t, m, s.1) /\ decode_api m = Ok a.
  Proof.
    unfold api_recv, crypt_recv. destruct (frame_recv cs) as [c r| |] eqn:E; [|done..].
    destruct (Nat.ltb _ _); [done|]. destruct (ss_pull C dec c) as [[[t m] d]|] eqn:Ep; [|done].
    destruct (decode_api m) as [a'|] eqn:Ed; [|done]. intros [= <- <-]. cbn.
    by exists c, r, m, t.
  Qed.

  Lemma messages_unfold n dec cs :
    length (concat cs) < n -> try_unfold (api_recv C) n (dec, cs) = messages C dec cs.
  Proof.
    enough (forall n m dec cs, length (concat cs) < n -> length (concat cs) < m ->
      try_unfold (api_recv C) n (dec, cs) = try_unfold (api_recv C) m (dec, cs)) as H.
    { intros L. apply H; [done|]. unfold budget. lia. }
    clear. induction n as [|n IH]; intros m dec cs L1 L2; [lia|]. destruct m as [|m]; [lia|].
    cbn [try_unfold]. destruct (api_recv C (dec, cs)) as [a [d r]| |] eqn:E; [|done..].
    apply api_recv_got in E as (c & r' & m' & t & E & Er & _ & _). cbn in Er. subst r'.
    apply frame_recv_got in E as [E _].
    rewrite (IH m); [done| |]; rewrite E, app_length, frame_length in L1, L2; lia.
  Qed.

  Lemma messages_got dec cs a dec' r :
    api_recv C (dec, cs) = Got a (dec', r) ->
    messages C dec cs = (a :: (messages C dec' r).1, (messages C dec' r).2).
  Proof.
    intros E. unfold messages at 1, budget. cbn [try_unfold]. rewrite E.
    apply api_recv_got in E as (c & r' & m' & t & E & Er & _ & _). cbn in Er. subst r'.
    apply frame_recv_got in E as [E _].
    rewrite messages_unfold by (rewrite E, app_length, frame_length; lia).
    by destruct (messages C dec' r).
  Qed.

  Lemma messages_stop dec cs e :
    api_recv C (dec, cs) = Stop e -> messages C dec cs = ([], Ended e).
  Proof. intros E. unfold messages, budget. cbn [try_unfold]. by rewrite E. Qed.

  Lemma messages_eof dec cs : frame_recv cs = Stop eof -> messages C dec cs = ([], Ended eof).
  Proof. intros E. apply messages_stop. unfold api_recv, crypt_recv. by rewrite E. Qed.

  Lemma messages_nil dec cs : concat cs = [] -> messages C dec cs = ([], Ended eof).
  Proof.
    intros E. apply messages_eof. unfold frame_recv. rewrite read_exact_short; [done|].
    rewrite E. cbn. lia.
  Qed.

  (** ** Sending *)

  (** Equal but for what is already on the wire. *)
  Lemma api_send_wire enc w d a o :
    (api_send C (Tx enc w d) a o).1 = (api_send C (Tx enc [] d) a o).1 /\
    t_enc (api_send C (Tx enc w d) a o).2 = t_enc (api_send C (Tx enc [] d) a o).2 /\
    t_dead (api_send C (Tx enc w d) a o).2 = t_dead (api_send C (Tx enc [] d) a o).2 /\
    t_wire (api_send C (Tx enc w d) a o).2 = w ++ t_wire (api_send C (Tx enc [] d) a o).2.
  Proof.
    unfold api_send, crypt_send, write_all. cbn [t_enc t_wire t_dead].
    destruct (ss_push C enc TagMessage (encode_api a)) as [c enc'].
    destruct (frame_send c); cbn; [|by rewrite app_nil_r].
    destruct d; cbn; [by rewrite app_nil_r|].
    by destruct o; cbn.
  Qed.

  Lemma send_all_wire l enc w d :
    (send_all C (Tx enc w d) l).1 = (send_all C (Tx enc [] d) l).1 /\
    t_wire (send_all C (Tx enc w d) l).2 = w ++ t_wire (send_all C (Tx enc [] d) l).2.
  Proof.
    revert enc w d. induction l as [|[a o] l IH]; intros enc w d.
    - cbn. by rewrite app_nil_r.
    - cbn [send_all]. pose proof (api_send_wire enc w d a o) as (E1 & E2 & E3 & E4).
      destruct (api_send C (Tx enc w d) a o) as [r1 [e1 w1 d1]].
      destruct (api_send C (Tx enc [] d) a o) as [r2 [e2 w2 d2]].
      cbn [fst snd t_enc t_wire t_dead] in *. subst.
      pose proof (IH e2 (w ++ w2) d2) as [F1 F2]. pose proof (IH e2 w2 d2) as [G1 G2].
      destruct (send_all C (Tx e2 (w ++ w2) d2) l) as [rs1 t1].
      destruct (send_all C (Tx e2 w2 d2) l) as [rs2 t2]. cbn [fst snd] in *.
      subst. split; [done|]. by rewrite F2, G2, app_assoc.
  Qed.

  (** A dead transport takes nothing. *)
  Lemma send_all_dead l enc w :
    t_wire (send_all C (Tx enc w true) l).2 = w /\
    succeeded l (send_all C (Tx enc w true) l).1 = [].
  Proof.
    revert enc w. induction l as [|[a o] l IH]; intros enc w; [done|].
    cbn [send_all]. unfold api_send, crypt_send, write_all. cbn [t_enc t_wire t_dead].
    destruct (ss_push C enc TagMessage (encode_api a)) as [c enc'].
    destruct (frame_send c);
      specialize (IH enc' w); destruct (send_all C (Tx enc' w true) l); cbn in *; done.
  Qed.

  Inductive sent (enc : ss_state C) (a : api) (o : transport) : res unit * tx C -> Prop :=
  | sent_ok c enc' :
      ss_push C enc TagMessage (encode_api a) = (c, enc') ->
      (N.of_nat (length c) <= MAX_FRAME)%N ->
      sent enc a o (Ok tt, Tx enc' (frame c) false)
  | sent_over c enc' e :
      ss_push C enc TagMessage (encode_api a) = (c, enc') ->
      (MAX_FRAME < N.of_nat (length c))%N ->
      sent enc a o (Err e, Tx enc' [] false)
  | sent_part c enc' e w :
      ss_push C enc TagMessage (encode_api a) = (c, enc') ->
      (N.of_nat (length c) <= MAX_FRAME)%N ->
      w `prefix_of` frame c -> length w < length (frame c) ->
      sent enc a o (Err e, Tx enc' w true).

  Lemma api_send_cases enc a o : sent enc a o (api_send C (Tx enc [] false) a o).
  Proof.
    unfold api_send, crypt_send. cbn [t_enc t_wire t_dead].
    destruct (ss_push C enc TagMessage (encode_api a)) as [c enc'] eqn:E.
    destruct (N.ltb_spec MAX_FRAME (N.of_nat (length c))) as [L|L].
    - unfold frame_send. destruct (N.ltb_spec MAX_FRAME (N.of_nat (length c))) as [_|?]; [|lia].
      by apply sent_over with c.
    - rewrite frame_send_small by done. unfold write_all. cbn [t_dead t_enc t_wire app].
      destruct o as [k|]; [|by apply sent_ok].
      apply sent_part with c; [done|done| |].
      + exists (drop (Nat.min k (length (frame c) - 1)) (frame c)). by rewrite take_drop.
      + rewrite take_length, frame_length. lia.
  Qed.

  Lemma push_len st a : length (fst (ss_push C st TagMessage (encode_api a))) < ABYTES -> False.
  Proof. rewrite (ss_push_len C CK). unfold ABYTES. lia. Qed.

  (** The receiver at its place gets the message. *)
  Lemma api_recv_own st a c st' cs rest :
    api_ok a -> ss_push C st TagMessage (encode_api a) = (c, st') ->
    (N.of_nat (length c) <= MAX_FRAME)%N -> concat cs = frame c ++ rest ->
    exists r, api_recv C (st, cs) = Got a (st', r) /\ concat r = rest.
  Proof.
    intros Ha E L Ec. destruct (frame_recv_frame c cs rest L Ec) as (r & Er & Ew).
    exists r. split; [|done]. unfold api_recv, crypt_recv. rewrite Er.
    pose proof (push_len st a) as P. rewrite E in P. cbn [fst] in P.
    destruct (Nat.ltb_spec (length c) ABYTES) as [?|_]; [by destruct P|].
    pose proof (ss_ok C CK st TagMessage (encode_api a)) as K. rewrite E in K. cbn [fst snd] in K.
    rewrite K. rewrite <- (app_nil_r (encode_api a)), decode_encode_api by done. done.
  Qed.

  (** The receiver at its place reads the message, or cannot. *)
  Definition read_as (a b : api) : Prop := decode_api (encode_api a) = Ok b.

  Lemma read_as_ok a b : api_ok a -> read_as a b -> b = a.
  Proof.
    intros H. unfold read_as. rewrite <- (app_nil_r (encode_api a)), decode_encode_api by done.
    by intros [= ->].
  Qed.

  Lemma read_as_list l1 l2 : Forall api_ok l1 -> Forall2 read_as l1 l2 -> l2 = l1.
  Proof.
    intros HF H. induction H as [|a b l1 l2 H _ IH]; [done|]. inversion HF; subst.
    rewrite IH by done. f_equal. by apply read_as_ok.
  Qed.

  Lemma api_recv_any st a c st' cs rest :
    ss_push C st TagMessage (encode_api a) = (c, st') ->
    (N.of_nat (length c) <= MAX_FRAME)%N -> concat cs = frame c ++ rest ->
    (exists b r, api_recv C (st, cs) = Got b (st', r) /\ concat r = rest /\ read_as a b)
    \/ exists e, api_recv C (st, cs) = Stop e.
  Proof.
    intros E L Ec. destruct (frame_recv_frame c cs rest L Ec) as (r & Er & Ew).
    unfold api_recv, crypt_recv, read_as. rewrite Er.
    pose proof (push_len st a) as P. rewrite E in P. cbn [fst] in P.
    destruct (Nat.ltb_spec (length c) ABYTES) as [?|_]; [by destruct P|].
    pose proof (ss_ok C CK st TagMessage (encode_api a)) as K. rewrite E in K. cbn [fst snd] in K.
    rewrite K. destruct (decode_api (encode_api a)) as [b|e]; [left; by exists b, r|right; by exists e].
  Qed.

  Lemma misplaced_cons st m c st' ms :
    ss_push C st TagMessage m = (c, st') -> misplaced st' ms -> misplaced st (m :: ms).
  Proof.
    intros Ep (x & y & n & z & -> & Hy & Hp). exists (m :: x), y, n, z. split; [done|]. split; [done|].
    unfold WireVocab.after in *. cbn [app fold_left]. by rewrite Ep.
  Qed.

  (** A receiver that is behind gets nothing, or something out of place. *)
  Lemma behind st ms l cs :
    ms <> [] -> concat cs `prefix_of` t_wire (send_all C (Tx (after st ms) [] false) l).2 ->
    misplaced st (ms ++ texts l) \/ exists e, messages C st cs = ([], Ended e).
  Proof.
    revert ms cs. induction l as [|[a o] l IH]; intros ms cs Hms [k E].
    - cbn in E. symmetry in E. apply app_eq_nil in E as [E _].
      right. exists eof. by apply messages_nil.
    - cbn [send_all] in E. pose proof (api_send_cases (after st ms) a o) as H.
      assert (forall m c enc', ss_push C (after st ms) TagMessage m = (c, enc') ->
        enc' = after st (ms ++ [m])) as Hafter.
      { intros m c enc' Ep. unfold WireVocab.after. rewrite fold_left_app. cbn.
        unfold WireVocab.after in Ep. by rewrite Ep. }
      destruct (api_send C (Tx (after st ms) [] false) a o) as [r t].
      inversion H as [c enc' Ep L X|c enc' e Ep L X|c enc' e w Ep L Hw Hl X]; subst.
      + pose proof (send_all_wire l enc' (frame c) false) as [_ Ew].
        destruct (send_all C (Tx enc' (frame c) false) l) as [rs t']. cbn [fst snd] in *.
        rewrite Ew in E. clear Ew.
        destruct (le_lt_dec (length (frame c)) (length (concat cs))) as [Hl|Hl].
        * assert (concat cs = frame c ++ drop (length (frame c)) (concat cs)) as Ed.
          { by apply (whole_of _ _ _ _ E). }
          destruct (frame_recv_frame c cs _ L Ed) as (r & Er & _).
          destruct (ss_pull C st c) as [[[? ?] ?]|] eqn:Epull.
          { left. exists [], ms, (encode_api a), (texts l). split; [done|]. split; [done|].
            by rewrite app_nil_l, Ep; cbn; rewrite Epull. }
          right. exists (str "InternalSodium"). apply messages_stop. unfold api_recv, crypt_recv.
          rewrite Er. pose proof (push_len (after st ms) a) as P. rewrite Ep in P. cbn [fst] in P.
          destruct (Nat.ltb_spec (length c) ABYTES) as [?|_]; [by destruct P|]. by rewrite Epull.
        * right. exists eof. apply messages_eof, (frame_recv_part _ c); [done| |done].
          by apply (part_of _ _ _ _ E).
      + rewrite (Hafter _ _ _ Ep) in E. unfold texts. cbn [map fst]. fold (texts l).
        rewrite cons_middle, app_assoc. apply (IH (ms ++ [encode_api a]) cs).
        { by destruct ms. }
        destruct (send_all C (Tx (after st (ms ++ [encode_api a])) [] false) l) as [rs t].
        cbn [fst snd] in *. by exists k.
      + pose proof (send_all_dead l enc' w) as [Ew _].
        destruct (send_all C (Tx enc' w true) l) as [rs t']. cbn [fst snd] in *.
        rewrite Ew in E. right. exists eof. apply messages_eof, (frame_recv_part _ c); [done| |].
        * etransitivity; [|exact Hw]. by exists k.
        * apply (f_equal length) in E. rewrite app_length in E. lia.
  Qed.

  Lemma delivered_as l st cs :
    concat cs `prefix_of` t_wire (send_all C (Tx st [] false) l).2 ->
    misplaced st (texts l) \/
    exists k got e, messages C st cs = (got, Ended e) /\
      Forall2 read_as (take k (succeeded l (send_all C (Tx st [] false) l).1)) got.
  Proof.
    revert st cs. induction l as [|[a o] l IH]; intros st cs [k E].
    - cbn in E. symmetry in E. apply app_eq_nil in E as [E _].
      right. exists 0, [], eof. split; [by apply messages_nil|constructor].
    - cbn [send_all] in *. pose proof (api_send_cases st a o) as H.
      destruct (api_send C (Tx st [] false) a o) as [r t].
      inversion H as [c enc' Ep L X|c enc' e Ep L X|c enc' e w Ep L Hw Hl X]; subst.
      + pose proof (send_all_wire l enc' (frame c) false) as [Er Ew].
        destruct (send_all C (Tx enc' (frame c) false) l) as [rs t']. cbn [fst snd] in *.
        rewrite Ew in E. clear Ew. cbn [succeeded].
        destruct (le_lt_dec (length (frame c)) (length (concat cs))) as [Hl|Hl].
        * assert (concat cs = frame c ++ drop (length (frame c)) (concat cs)) as Ed.
          { by apply (whole_of _ _ _ _ E). }
          destruct (api_recv_any st a c enc' cs _ Ep L Ed) as [(b & r & Hr & Ew & Hb)|[e He]].
          2:{ right. exists 0, [], e. split; [by apply messages_stop|constructor]. }
          destruct (IH enc' r) as [Hms|(j & got & e & Hj & HF)].
          { exists k. rewrite Ew. rewrite Ed, <- app_assoc in E. by apply app_inv_head in E. }
          -- left. by apply (misplaced_cons st _ _ _ _ Ep).
          -- right. exists (S j), (b :: got), e. rewrite (messages_got _ _ _ _ _ Hr), Hj.
             split; [done|]. cbn [take]. constructor; [done|]. by rewrite Er.
        * right. exists 0, [], eof. split; [|constructor]. apply messages_eof, (frame_recv_part _ c); [done| |done].
          by apply (part_of _ _ _ _ E).
      + assert (enc' = after st [encode_api a]) as -> by (unfold WireVocab.after; cbn; by rewrite Ep).
        destruct (behind st [encode_api a] l cs) as [Hm|[er Hm]]; [done| |by left|].
        { destruct (send_all C (Tx (after st [encode_api a]) [] false) l). by exists k. }
        right. exists 0, [], er. split; [done|constructor].
      + pose proof (send_all_dead l enc' w) as [Ew _].
        destruct (send_all C (Tx enc' w true) l) as [rs t']. cbn [fst snd] in *.
        rewrite Ew in E. right. exists 0, [], eof. split; [|constructor]. apply messages_eof, (frame_recv_part _ c); [done| |].
        * etransitivity; [|exact Hw]. by exists k.
        * apply (f_equal length) in E. rewrite app_length in E. lia.
  Qed.

  Lemma succeeded_ok l rs : Forall (fun x => api_ok x.1) l -> Forall api_ok (succeeded l rs).
  Proof.
    intros HF. revert rs. induction HF as [|[a o] l Ha HF IH]; intros [|[u|e] rs]; cbn; try constructor; auto.
  Qed.

  Lemma delivered_prefix l st cs :
    Forall (fun x => api_ok x.1) l ->
    concat cs `prefix_of` t_wire (send_all C (Tx st [] false) l).2 ->
    misplaced st (texts l) \/
    exists k e, messages C st cs = (take k (succeeded l (send_all C (Tx st [] false) l).1), Ended e).
  Proof.
    intros HF Hp. destruct (delivered_as l st cs Hp) as [H|(k & got & e & H1 & H2)]; [by left|].
    right. exists k, e. rewrite H1. apply read_as_list in H2; [by subst|].
    by apply Forall_take, succeeded_ok.
  Qed.

  Lemma all_delivered l st cs :
    Forall (fun x => api_ok x.1) l ->
    Forall (fun r => r = Ok tt) (send_all C (Tx st [] false) l).1 ->
    concat cs = t_wire (send_all C (Tx st [] false) l).2 ->
    messages C st cs = (map fst l, Ended eof).
  Proof.
    intros HF. revert st cs. induction HF as [|[a o] l Ha HF IH]; intros st cs HR E.
    - by apply messages_nil.
    - cbn [send_all] in *. pose proof (api_send_cases st a o) as H.
      destruct (api_send C (Tx st [] false) a o) as [r t].
      inversion H as [c enc' Ep L X|c enc' e Ep L X|c enc' e w Ep L Hw Hl X]; subst.
      2,3: by destruct (send_all C _ l); cbn [fst] in HR; inversion HR.
      pose proof (send_all_wire l enc' (frame c) false) as [Er Ew].
      destruct (send_all C (Tx enc' (frame c) false) l) as [rs t']. cbn [fst snd] in *.
      rewrite Ew in E.
      destruct (api_recv_own st a c enc' cs _ Ha Ep L E) as (r & Hr & Ec).
      rewrite (messages_got _ _ _ _ _ Hr). rewrite IH with (st := enc'); [done| |done].
      rewrite <- Er. by inversion HR.
  Qed.

  (** After a refused message, nothing that is sent later arrives. *)
  Lemma send_all_app l1 l2 t :
    (send_all C t (l1 ++ l2)).1 = (send_all C t l1).1 ++ (send_all C (send_all C t l1).2 l2).1 /\
    (send_all C t (l1 ++ l2)).2 = (send_all C (send_all C t l1).2 l2).2.
  Proof.
    revert t. induction l1 as [|[a o] l1 IH]; intros t; cbn [app send_all]; [done|].
    destruct (api_send C t a o) as [r t']. destruct (IH t') as [E1 E2].
    destruct (send_all C t' (l1 ++ l2)). destruct (send_all C t' l1). cbn in *. by subst.
  Qed.

  Lemma refused_as l1 a o l2 st cs :
    (MAX_FRAME < N.of_nat (length (encode_api a) + ABYTES))%N ->
    concat cs `prefix_of` t_wire (send_all C (Tx st [] false) (l1 ++ (a, o) :: l2)).2 ->
    misplaced st (texts (l1 ++ (a, o) :: l2)) \/
    exists k got e, messages C st cs = (got, Ended e) /\
      Forall2 read_as (take k (succeeded l1 (send_all C (Tx st [] false) l1).1)) got.
  Proof.
    intros Hbig. revert st cs. induction l1 as [|[a1 o1] l IH]; intros st cs [k E].
    - cbn [app send_all] in *. pose proof (api_send_cases st a o) as H.
      destruct (api_send C (Tx st [] false) a o) as [r t].
      inversion H as [c enc' Ep L X|c enc' e Ep L X|c enc' e w Ep L Hw Hl X]; subst.
      1,3: pose proof (ss_push_len C CK st TagMessage (encode_api a)) as P;
        rewrite Ep in P; cbn [fst] in P; lia.
      assert (enc' = after st [encode_api a]) as -> by (unfold WireVocab.after; cbn; by rewrite Ep).
      destruct (behind st [encode_api a] l2 cs) as [Hm|[er Hm]]; [done| |by left|].
      { destruct (send_all C (Tx (after st [encode_api a]) [] false) l2). by exists k. }
      right. exists 0, [], er. split; [done|constructor].
    - cbn [app send_all] in *. pose proof (api_send_cases st a1 o1) as H.
      destruct (api_send C (Tx st [] false) a1 o1) as [r t].
      inversion H as [c enc' Ep L X|c enc' e Ep L X|c enc' e w Ep L Hw Hl X]; subst.
      + pose proof (send_all_wire (l ++ (a, o) :: l2) enc' (frame c) false) as [_ Ew].
        pose proof (send_all_wire l enc' (frame c) false) as [Er _].
        specialize (IH enc').
        destruct (send_all C (Tx enc' (frame c) false) l) as [rs t']. cbn [fst snd] in *.
        destruct (send_all C (Tx enc' (frame c) false) (l ++ (a, o) :: l2)) as [rs2 t2].
        cbn [fst snd] in *. rewrite Ew in E. clear Ew. cbn [succeeded].
        destruct (le_lt_dec (length (frame c)) (length (concat cs))) as [Hl|Hl].
        * pose proof (whole_of _ _ _ _ E Hl) as Ed.
          destruct (api_recv_any st a1 c enc' cs _ Ep L Ed) as [(b & r & Hr & Ew & Hb)|[e He]].
          2:{ right. exists 0, [], e. split; [by apply messages_stop|constructor]. }
          destruct (IH r) as [Hms|(j & got & e & Hj & HF)].
          { exists k. rewrite Ew. rewrite Ed, <- app_assoc in E. by apply app_inv_head in E. }
          -- left. by apply (misplaced_cons st _ _ _ _ Ep).
          -- right. exists (S j), (b :: got), e. rewrite (messages_got _ _ _ _ _ Hr), Hj.
             split; [done|]. cbn [take]. constructor; [done|]. by rewrite Er.
        * right. exists 0, [], eof. split; [|constructor].
          apply messages_eof, (frame_recv_part _ c); [done| |done]. by apply (part_of _ _ _ _ E).
      + assert (enc' = after st [encode_api a1]) as -> by (unfold WireVocab.after; cbn; by rewrite Ep).
        destruct (behind st [encode_api a1] (l ++ (a, o) :: l2) cs) as [Hm|[er Hm]];
          [done| |by left|].
        { destruct (send_all C (Tx (after st [encode_api a1]) [] false) (l ++ (a, o) :: l2)).
          by exists k. }
        right. exists 0, [], er. split; [done|constructor].
      + pose proof (send_all_dead (l ++ (a, o) :: l2) enc' w) as [Ew _].
        destruct (send_all C (Tx enc' w true) (l ++ (a, o) :: l2)) as [rs t']. cbn [fst snd] in *.
        rewrite Ew in E. right. exists 0, [], eof. split; [|constructor].
        apply messages_eof, (frame_recv_part _ c); [done| |].
        * etransitivity; [|exact Hw]. by exists k.
        * apply (f_equal length) in E. rewrite app_length in E. lia.
  Qed.

  (** ** Any bytes *)

  Lemma messages_total dec cs : (messages C dec cs).2 <> Pending.
  Proof.
    remember (length (concat cs)) as n eqn:En. revert dec cs En.
    induction (lt_wf n) as [n _ IH]. intros dec cs ->.
    destruct (api_recv C (dec, cs)) as [a [d r]|er|] eqn:E.
    - rewrite (messages_got _ _ _ _ _ E). cbn [snd].
      apply api_recv_got in E as (c & r' & m' & t & E & Er & _ & _). cbn in Er. subst r'.
      apply frame_recv_got in E as [E _].
      apply (IH (length (concat r))); [|done]. rewrite E, app_length, frame_length. lia.
    - by rewrite (messages_stop _ _ _ E).
    - unfold messages, budget. cbn [try_unfold]. by rewrite E.
  Qed.

  (** The only way to a panic is a frame of fewer than 17 bytes. *)
  Lemma messages_panic dec cs :
    (messages C dec cs).2 = Panicked -> exists d, d ∈ (frames cs).1 /\ length d < ABYTES.
  Proof.
    remember (length (concat cs)) as n eqn:En. revert dec cs En.
    induction (lt_wf n) as [n _ IH]. intros dec cs -> H.
    destruct (api_recv C (dec, cs)) as [a [d r]|er|] eqn:E.
    - rewrite (messages_got _ _ _ _ _ E) in H. cbn [snd] in H.
      apply api_recv_got in E as (c & r' & m' & t & E & Er & _ & _). cbn in Er. subst r'.
      rewrite (frames_got _ _ _ E). cbn [fst].
      apply frame_recv_got in E as [E _].
      destruct (IH (length (concat r))) with (dec := d) (cs := r) as (d' & Hin & Hl); [|done|done|].
      { rewrite E, app_length, frame_length. lia. }
      exists d'. split; [by apply elem_of_cons; right|done].
    - by rewrite (messages_stop _ _ _ E) in H.
    - unfold api_recv, crypt_recv in E. destruct (frame_recv cs) as [c r| |] eqn:Ef; [|done|].
      2: by apply frame_recv_not_panic in Ef.
      destruct (Nat.ltb_spec (length c) ABYTES) as [Hl|_].
      + exists c. split; [|done]. rewrite (frames_got _ _ _ Ef). apply elem_of_cons. by left.
      + destruct (ss_pull C dec c) as [[[? ?] ?]|]; [|done]. by destruct (decode_api _).
  Qed.

  Lemma messages_short dec d cs rest :
    length d < ABYTES -> concat cs = frame d ++ rest -> messages C dec cs = ([], Panicked).
  Proof.
    intros L E. destruct (frame_recv_frame d cs rest) as (r & Er & _); [unfold ABYTES, MAX_FRAME in *; lia|done|].
    unfold messages, budget. cbn [try_unfold]. unfold api_recv, crypt_recv. rewrite Er.
    by destruct (Nat.ltb_spec (length d) ABYTES) as [_|?]; [|lia].
  Qed.
End Wire.
