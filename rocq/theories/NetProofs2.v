(** * NetProofs2: what a faithful line carries *)

From Verif Require Import Base Crypto Types Codec Secret Store StoreProofs Lru Server System ServerSpec ServerVocab ServerProofs
  ServerProofs2 SystemProofs AnswerProofs ServerTheorems Wire Sender WireVocab WireProofs Handshake WireProofs2
  Client Asks World WorldVocab WorldProofs Net NetVocab NetProofs.

Section Bytes.
  Variable g : genv.
  Hypothesis HC : CryptoOk (g_crypto g).
  Notation C := (g_crypto g).

  Notation framed := (fun x : bytes * bytes * bool => frame x.1.2).
  Definition small (h : chan g) : Prop :=
    Forall (fun x => N.of_nat (length x.1.2) <= MAX_FRAME)%N (ch_out h).

  Record wires (h : chan g) (k : nat) (part : bytes) : Prop := Wires {
    wr_le : k <= length (ch_out h);
    wr_ok : forall i x, ch_out h !! i = Some x -> (x.2 = true <-> i < k);
    wr_wire : t_wire (ch_snd h) = concat (map framed (take k (ch_out h))) ++ part;
    wr_alive : t_dead (ch_snd h) = false -> k = length (ch_out h) /\ part = [];
    wr_dead : t_dead (ch_snd h) = true -> exists x, ch_out h !! k = Some x
      /\ part `prefix_of` frame x.1.2 /\ length part < length (frame x.1.2)
  }.

  Record binv (h : chan g) : Prop := BInv {
    bi_fed : ch_fed h = concat (map frame (ch_got h)) ++ concat (ch_in h);
    bi_wire : small h -> exists k part, wires h k part
  }.

  Lemma binv_new a b : binv (new_chan g a b).
  Proof.
    split; [done|]. intros _. exists 0, []. by split.
  Qed.
  Lemma binv_deliver h b : binv h -> binv (chan_deliver h b).
  Proof.
    intros [H1 H2]. unfold chan_deliver. destruct (ch_eof h); [by split|]. split; cbn.
    - rewrite H1, concat_app. cbn. by rewrite app_nil_r, app_assoc.
    - intros Hs. destruct (H2 Hs) as (k & part & [? ? ? ? ?]). exists k, part. by split.
  Qed.
  Lemma binv_eof h : binv h -> binv (chan_eof h).
  Proof.
    intros [H1 H2]. split; cbn; [done|].
    intros Hs. destruct (H2 Hs) as (k & part & [? ? ? ? ?]). exists k, part. by split.
  Qed.
  Lemma binv_read h m h' : binv h -> chan_read h = RdGot m h' -> binv h'.
  Proof.
    intros [H1 H2] Hr. unfold chan_read, crypt_recv in Hr.
    destruct (frame_recv (ch_in h)) as [c cs|e|] eqn:Ef; [|destruct (_ && _); discriminate Hr|discriminate Hr].
    destruct (Nat.ltb (length c) ABYTES); [discriminate Hr|].
    destruct (ss_pull C (ch_dec h) c) as [[[t m'] dec]|] eqn:Ep; [|destruct (_ && _); discriminate Hr].
    injection Hr as -> <-. unfold frame_of. rewrite Ef. apply frame_recv_got in Ef as [Ef _]. split; cbn.
    - rewrite H1, Ef, map_app, concat_app. cbn. by rewrite app_nil_r, <- app_assoc.
    - intros Hs. destruct (H2 Hs) as (k & part & [? ? ? ? ?]). exists k, part. by split.
  Qed.

  Lemma proper_prefix (l : bytes) n : l <> [] -> take (Nat.min n (length l - 1)) l `prefix_of` l
    /\ length (take (Nat.min n (length l - 1)) l) < length l.
  Proof.
    intros Hl. split; [eexists; symmetry; apply take_drop|]. rewrite take_length. destruct l; [done|]. cbn. lia.
  Qed.

  Lemma binv_send h m o : binv h -> binv (chan_send h m o).2.
  Proof.
    intros [H1 H2]. unfold chan_send, api_send, crypt_send.
    destruct (ss_push C (t_enc (ch_snd h)) TagMessage (encode_api m)) as [c enc] eqn:Ec. cbn [fst].
    destruct (frame_send c) as [b|er] eqn:Ef.
    2: { split; [done|]. cbn. intros Hs. exfalso. apply Forall_app in Hs as [_ Hs]. apply Forall_inv in Hs. cbn in Hs.
         unfold frame_send in Ef. destruct (N.ltb_spec MAX_FRAME (N.of_nat (length c))); [lia|done]. }
    apply frame_send_ok in Ef as [-> Hlen]. unfold write_all. cbn [t_dead t_enc t_wire].
    assert (Hd : forall r t, t_dead t = true -> is_ok r = false ->
       (t_dead (ch_snd h) = true -> t_wire t = t_wire (ch_snd h)) ->
       (t_dead (ch_snd h) = false -> exists part, t_wire t = t_wire (ch_snd h) ++ part /\ part `prefix_of` frame c /\ length part < length (frame c)) ->
       binv (Chan t (ch_dec h) (ch_in h) (ch_eof h) (ch_out h ++ [(encode_api m, c, @is_ok unit r)]) (ch_got h) (ch_fed h))).
    { intros r t Et Er E1 E2. rewrite Er. split; [done|]. cbn [ch_out]. intros Hs. apply Forall_app in Hs as [Hs _].
      destruct (H2 Hs) as (k & part & [W1 W2 W3 W4 W5]).
      destruct (t_dead (ch_snd h)) eqn:Edead.
      - exists k, part. split; cbn [ch_out ch_snd].
        + rewrite app_length. cbn. lia.
        + intros i x Hx. apply lookup_app_Some in Hx as [Hx|[Hi Hx]]; [by apply W2|].
          destruct (i - length (ch_out h)) eqn:Ei; [|done]. injection Hx as <-. split; [done|lia].
        + rewrite E1 by done. by rewrite take_app_le by lia.
        + by rewrite Et.
        + intros _. destruct (W5 eq_refl) as (x & Hx & Hp). exists x. split; [by apply lookup_app_l_Some|done].
      - destruct (W4 eq_refl) as [-> ->]. destruct (E2 eq_refl) as (part & E3 & E4).
        exists (length (ch_out h)), part. split; cbn [ch_out ch_snd].
        + rewrite app_length. lia.
        + intros i x Hx. apply lookup_app_Some in Hx as [Hx|[Hi Hx]]; [by apply W2|].
          destruct (i - length (ch_out h)) eqn:Ei; [|done]. injection Hx as <-. split; [done|lia].
        + rewrite E3, W3, app_nil_r. by rewrite take_app, firstn_all.
        + by rewrite Et.
        + intros _. eexists. split; [by rewrite lookup_app_r, Nat.sub_diag|]. done. }
    destruct (t_dead (ch_snd h)) eqn:Edead; [cbn [snd]; apply Hd; [done|done|done|congruence]|].
    destruct o as [n|]; cbn [snd].
    - apply Hd; [done|done|done|]. intros _. cbn [t_wire]. eexists. split; [done|]. apply proper_prefix. done.
    - split; [done|]. cbn [ch_out]. intros Hs. apply Forall_app in Hs as [Hs _].
      destruct (H2 Hs) as (k & part & [W1 W2 W3 W4 W5]). destruct (W4 Edead) as [-> ->].
      exists (length (ch_out h ++ [(encode_api m, c, true)])), []. split; cbn [ch_out ch_snd is_ok t_wire t_dead].
      + done.
      + intros i x Hx. split; [intros _; by eapply lookup_lt_Some|intros _].
        apply lookup_app_Some in Hx as [Hx|[Hi Hx]]; [apply (W2 _ _ Hx); by eapply lookup_lt_Some|].
        destruct (i - length (ch_out h)) eqn:Ei; [|done]. by injection Hx as <-.
      + rewrite firstn_all, map_app, concat_app, W3, firstn_all. cbn. by rewrite !app_nil_r.
      + done.
      + done.
  Qed.

  Lemma got_frames h k : genuine g h -> (forall i x, ch_out h !! i = Some x -> (x.2 = true <-> i < k)) ->
    length (ch_got h) <= k /\ map frame (ch_got h) = map framed (take (length (ch_got h)) (ch_out h)).
  Proof.
    intros Hg Hk. pose proof (got_le g h Hg) as Hle. split.
    - destruct (ch_got h) as [|c l _] eqn:E using rev_ind; [cbn; lia|].
      destruct (Hg (length l) c) as [p Hp]; [by rewrite E, lookup_app_r, Nat.sub_diag|].
      rewrite app_length. cbn. apply Hk in Hp. cbn in Hp. destruct Hp as [Hp _]. specialize (Hp eq_refl). lia.
    - apply list_eq. intros i. rewrite !list_lookup_fmap.
      destruct (decide (i < length (ch_got h))) as [Hi|Hi].
      + rewrite lookup_take by done. destruct (lookup_lt_is_Some_2 _ _ Hi) as [c Hc]. rewrite Hc.
        destruct (Hg _ _ Hc) as [p ->]. done.
      + rewrite !(proj2 (lookup_ge_None _ _)); [done|rewrite take_length; lia|lia].
  Qed.

  Lemma chan_read_eof (h : chan g) : frame_recv (ch_in h) = Stop eof -> chan_read h = if ch_eof h then RdStop else RdMore.
  Proof. intros E. unfold chan_read, crypt_recv. rewrite E. rewrite beq_refl. by destruct (ch_eof h). Qed.

  Lemma omap_none {A B} (f : A -> option B) l : (forall x, x ∈ l -> f x = None) -> omap f l = [].
  Proof.
    induction l as [|x l IH]; intros H; [done|]. cbn. rewrite (H x) by (by left). apply IH. intros y Hy. apply H. by right.
  Qed.

  Lemma prefix_short (a b c : bytes) : a `prefix_of` b ++ c -> length a <= length b -> a `prefix_of` b.
  Proof.
    intros [z Hz] Hl. exists (take (length b - length a) z).
    apply (f_equal (take (length b))) in Hz. rewrite take_app in Hz. rewrite take_app_ge in Hz by lia. exact Hz.
  Qed.
  Lemma prefix_long (a b c : bytes) : a `prefix_of` b ++ c -> length b <= length a -> exists z, a = b ++ z.
  Proof.
    intros [z Hz] Hl. exists (drop (length b) a).
    apply (f_equal (take (length b))) in Hz. rewrite take_app in Hz. rewrite take_app_le in Hz by lia.
    rewrite Hz at 1. by rewrite take_drop.
  Qed.

  (** Over a faithful line a reader gets what was sent, waits, or is at the end. *)
  Lemma honest_read (h : chan g) q : crel g h q -> binv h -> small h -> ch_fed h `prefix_of` t_wire (ch_snd h) ->
    (exists m h', chan_read h = RdGot m h' /\ genuine g h')
    \/ (chan_read h = (if ch_eof h then RdStop else RdMore) /\ (ch_fed h = t_wire (ch_snd h) -> q = [])).
  Proof.
    intros [st Hcip Henc Hdec Hgen Hq] [Hf Hw] Hs Hp. destruct (Hw Hs) as (k & part & [W1 W2 W3 W4 W5]). clear Hw.
    destruct (got_frames h k Hgen W2) as [Hj Hfr]. set (j := length (ch_got h)) in *.
    assert (Etk : take k (ch_out h) = take j (ch_out h) ++ drop j (take k (ch_out h))).
    { rewrite <- (take_drop j (take k (ch_out h))) at 1. f_equal. rewrite take_take. f_equal. lia. }
    rewrite Hf, W3, Hfr, Etk, map_app, concat_app, <- app_assoc in Hp. apply prefix_app_inv in Hp.
    destruct (decide (j = k)) as [Ejk|Hne].
    - right. rewrite drop_ge in Hp by (rewrite take_length; lia). cbn in Hp.
      assert (Eq : q = []).
      { rewrite Hq. apply omap_none. intros x Hx. apply elem_of_list_lookup in Hx as [i Hi]. rewrite lookup_drop in Hi.
        unfold written. destruct (x.2) eqn:Ex; [|done]. apply (W2 _ _ Hi) in Ex. lia. }
      split; [|by auto]. apply chan_read_eof. destruct (t_dead (ch_snd h)) eqn:Ed.
      + destruct (W5 eq_refl) as (x & Hx & Hp1 & Hp2). eapply (frame_recv_part _ x.1.2).
        * unfold small in Hs. rewrite Forall_lookup in Hs. by apply (Hs _ _ Hx).
        * by etransitivity.
        * apply prefix_length in Hp. lia.
      + destruct (W4 eq_refl) as [_ ->]. apply prefix_nil_inv in Hp. unfold frame_recv. rewrite read_exact_short; [done|].
        rewrite Hp. cbn. lia.
    - destruct (lookup_lt_is_Some_2 (ch_out h) j ltac:(lia)) as [x Hx].
      assert (Hx' : take k (ch_out h) !! j = Some x) by (rewrite lookup_take; [done|lia]).
      rewrite (drop_S _ _ _ Hx') in Hp. cbn [map concat] in Hp. rewrite <- app_assoc in Hp.
      assert (Hsm : (N.of_nat (length x.1.2) <= MAX_FRAME)%N).
      { unfold small in Hs. rewrite Forall_lookup in Hs. by apply (Hs _ _ Hx). }
      destruct (decide (length (concat (ch_in h)) < length (frame x.1.2))) as [Hl|Hl].
      + right. split.
        * apply chan_read_eof. eapply (frame_recv_part _ x.1.2); [done| |done].
          eapply prefix_short; [exact Hp|lia].
        * intros E. exfalso. rewrite Hf, W3, Hfr, Etk, map_app, concat_app, <- app_assoc in E. apply app_inv_head in E.
          rewrite E, (drop_S _ _ _ Hx') in Hl. cbn [map concat] in Hl. rewrite !app_length in Hl. lia.
      + left. assert (Hin : exists rest, concat (ch_in h) = frame x.1.2 ++ rest) by (eapply prefix_long; [exact Hp|lia]).
        destruct Hin as [rest Hin]. destruct (frame_recv_frame _ _ _ Hsm Hin) as (r & Er & _).
        destruct x as [[p c] b]. cbn [fst snd] in *. pose proof (Hcip _ _ _ _ Hx) as Ec.
        assert (b = true) as -> by (apply (W2 _ _ Hx); lia).
        unfold chan_read, crypt_recv. rewrite Er. fold j in Hdec.
        assert (Hc : length c = length p + ABYTES) by (rewrite Ec; apply (ss_push_len C HC)).
        destruct (Nat.ltb_spec (length c) ABYTES); [lia|].
        assert (Ep : ss_pull C (ch_dec h) c = Some (TagMessage, p, snd (ss_push C (ch_dec h) TagMessage p))).
        { rewrite Ec, <- Hdec. apply (ss_ok C HC). }
        rewrite Ep. eexists p, _. split; [done|].
        unfold frame_of. rewrite Er. intros i c' Hc'. cbn [ch_got ch_out] in *.
        apply lookup_app_Some in Hc' as [Hc'|[Hi Hc']]; [by apply Hgen|].
        fold j in Hi, Hc'. destruct (i - j) eqn:Ei; [|done]. injection Hc' as <-. assert (i = j) as -> by lia. by exists p.
  Qed.

  (** What one event may do to one direction of a connection. *)
  Inductive chop : chan g -> chan g -> Prop :=
  | ChSend h l o : chop h (send_news h l o)
  | ChDeliver h b : chop h (chan_deliver h b)
  | ChEof h : chop h (chan_eof h)
  | ChRead h m h' : chan_read h = RdGot m h' -> chop h h'.

  Lemma chop_id h : chop h h.
  Proof. apply (ChSend h [] None). Qed.
  Lemma chop_one h m o : chop h (chan_send h m o).2.
  Proof. apply (ChSend h [(0, m, true)] o). Qed.

  Lemma news_binv h l o : binv h -> binv (send_news h l o).
  Proof. revert h. induction l as [|[[? m] ?] l IH]; intros h H; [done|]. cbn. by apply IH, binv_send. Qed.
  Lemma chop_binv h h' : chop h h' -> binv h -> binv h'.
  Proof. destruct 1; auto using binv_deliver, binv_eof, news_binv. intros Hb. by eapply binv_read. Qed.

  Lemma genuine_out (h h' : chan g) : ch_got h' = ch_got h -> ch_out h `prefix_of` ch_out h' -> genuine g h -> genuine g h'.
  Proof.
    intros E [z Hz] H i c Hc. rewrite E in Hc. destruct (H i c Hc) as [p Hp]. exists p. rewrite Hz. by apply lookup_app_l_Some.
  Qed.
  Lemma genuine_news h l o : genuine g h -> genuine g (send_news h l o).
  Proof.
    revert h. induction l as [|[[? m] ?] l IH]; intros h H; [done|]. cbn. apply IH. clear IH.
    eapply genuine_out; [| |exact H]; unfold chan_send; destruct (api_send _ _ _ _); cbn; [done|by eexists].
  Qed.

  Lemma chop_genuine h h' : chop h h' -> genuine g h ->
    (forall m h', chan_read h = RdGot m h' -> genuine g h') -> genuine g h'.
  Proof.
    destruct 1 as [h l o|h b|h|h m h' Hc]; intros Hg Hr.
    - by apply genuine_news.
    - unfold chan_deliver. destruct (ch_eof h); [done|]. by eapply genuine_out; [| |exact Hg].
    - by eapply genuine_out; [| |exact Hg].
    - by eapply Hr.
  Qed.
End Bytes.

Section Faithful.
  Variable S : store_impl.
  Hypothesis SO : StoreOk S.
  Variable g : genv.
  Hypothesis HC : CryptoOk (g_crypto g).
  Notation C := (g_crypto g).

  Definition fresh (x : nlink g) : Prop :=
    (exists a b, x_up x = new_chan g a b) /\ (exists a b, x_down x = new_chan g a b).

  Definition steps (n n' : net S g) : Prop := forall cid x', n_links n' !! cid = Some x' ->
    fresh x' \/ exists x, n_links n !! cid = Some x /\ chop g (x_up x) (x_up x') /\ chop g (x_down x) (x_down x').

  Lemma steps_same (n n' : net S g) : n_links n' = n_links n -> steps n n'.
  Proof. intros E cid x' Hx. right. exists x'. rewrite <- E. split; [done|]. split; apply chop_id. Qed.

  Lemma steps_set (n n' : net S g) cid x x' : n_links n' = n_links n -> n_links n !! cid = Some x ->
    chop g (x_up x) (x_up x') -> chop g (x_down x) (x_down x') -> steps n (set_nlink n' cid x').
  Proof.
    intros E Hx H1 H2 cid' y Hy. cbn in Hy. destruct (decide (cid = cid')) as [<-|Hne].
    - rewrite lookup_insert in Hy. injection Hy as <-. right. by exists x.
    - rewrite lookup_insert_ne in Hy by done. right. exists y. rewrite <- E. split; [done|]. split; apply chop_id.
  Qed.

  Lemma nstep_steps n e : steps n (nstep S g n e).
  Proof.
    assert (H0 : forall h, chop g h h) by apply chop_id.
    destruct e as [cid id h|cid d a|cid e|cid k o|ev j|cid up b|cid up|cid|cid]; cbn [nstep].
    - destruct (n_links n !! cid) as [x|] eqn:Ex; [by apply steps_same|].
      destruct (_ && _); [|by apply steps_same]. destruct (shake g id h) as [[c s]|]; [|by apply steps_same].
      intros cid' y Hy. cbn in Hy. destruct (decide (cid = cid')) as [<-|Hne].
      + rewrite lookup_insert in Hy. injection Hy as <-. left. split; cbn; by eexists _, _.
      + rewrite lookup_insert_ne in Hy by done. right. exists y. by auto.
    - destruct (n_links n !! cid) as [x|] eqn:Ex; [|by apply steps_same]. eapply steps_set; try done; apply H0.
    - destruct (n_links n !! cid) as [x|] eqn:Ex; [|by apply steps_same].
      destruct (n_own x e); [|by apply steps_same]. eapply steps_set; try done; apply H0.
    - destruct (n_links n !! cid) as [x|] eqn:Ex; [|by apply steps_same].
      destruct (k_calls (x_cli x) !! k) as [[req st ml]|] eqn:Ek; [|by apply steps_same].
      destruct st; try (by apply steps_same). destruct (x_res x !! k) eqn:Er; [by apply steps_same|].
      pose proof (chop_one g (x_up x) req o) as Hc.
      destruct (chan_send (x_up x) req o) as [ok h]. cbn [snd] in Hc. by eapply steps_set.
    - destruct ev as [cid2 rx tx|cid2 raw|cid2 tid2 o|cid2 tid2 e|cid2|d os|]; try (by apply steps_same).
      destruct (n_links n !! cid2) as [x|] eqn:Ex; [|by apply steps_same].
      destruct (x_task x) eqn:Et; [|by apply steps_same].
      destruct (s_conns S (n_srv n) !! cid2) as [c|] eqn:Ec; [|by apply steps_same].
      destruct (s_conns S (n_srv (srv_does _ _)) !! cid2) as [c'|] eqn:Ec'; [|by apply steps_same].
      eapply steps_set; try done. cbn [with_down x_down]. apply ChSend.
    - destruct (n_links n !! cid) as [x|] eqn:Ex; [|by apply steps_same].
      destruct up; eapply steps_set; try done; apply ChDeliver.
    - destruct (n_links n !! cid) as [x|] eqn:Ex; [|by apply steps_same].
      destruct up; eapply steps_set; try done; apply ChEof.
    - destruct (n_links n !! cid) as [x|] eqn:Ex; [|by apply steps_same].
      destruct (s_conns S (n_srv n) !! cid) as [c|] eqn:Ec; [|by apply steps_same].
      destruct (takes_more S c) eqn:Etk; [|by apply steps_same].
      destruct (chan_read (x_up x)) as [|m h| |] eqn:Erd; try (by apply steps_same).
      + eapply steps_set; try done. by eapply ChRead.
      + eapply steps_set; try done; apply H0.
    - destruct (n_links n !! cid) as [x|] eqn:Ex; [|by apply steps_same].
      destruct (k_recv (x_cli x)) eqn:Ek; try (by apply steps_same).
      destruct (chan_read (x_down x)) as [|m h| |] eqn:Erd; try (by apply steps_same).
      + eapply steps_set; try done. by eapply ChRead.
      + eapply steps_set; try done; apply H0.
      + eapply steps_set; try done; apply H0.
  Qed.

  Lemma binv_run evs cid x : nlink_at S g evs cid x -> binv g (x_up x) /\ binv g (x_down x).
  Proof.
    revert cid x. induction evs as [|e evs IH] using rev_ind; intros cid x Hx.
    - unfold nlink_at in Hx. cbn in Hx. by rewrite lookup_empty in Hx.
    - unfold nlink_at in Hx. rewrite nrun_snoc in Hx.
      destruct (nstep_steps _ _ _ _ Hx) as [[(a & b & ->) (c & d & ->)]|(y & Hy & H1 & H2)].
      + split; apply binv_new.
      + destruct (IH cid y Hy). split; by eapply chop_binv.
  Qed.

  Lemma faithful_app evs more : faithful S g (evs ++ more) -> faithful S g evs.
  Proof. intros H p cid l Hp. apply H. etransitivity; [exact Hp|]. by eexists. Qed.

  Lemma honest_small h : honest g h -> small g h.
  Proof. intros [_ H]. apply Forall_forall. intros x Hx. by apply H. Qed.

  Lemma honest_next h q : crel g h q -> binv g h -> honest g h ->
    forall m h', chan_read h = RdGot m h' -> genuine g h'.
  Proof.
    intros Hc Hb Hh m h' E. destruct (honest_read g HC h q Hc Hb (honest_small _ Hh) (proj1 Hh)) as [(m' & h'' & E' & Hg)|[E' _]].
    - rewrite E in E'. by injection E' as -> ->.
    - rewrite E in E'. by destruct (ch_eof h).
  Qed.

  Lemma genuine_not h : genuine g h -> ~ misread g h.
  Proof. intros Hg (i & c & Hc & Hn). destruct (Hg i c Hc) as [p Hp]. by apply (Hn p). Qed.

  Lemma clean_not (evs : list nevent) : (forall p, p `prefix_of` evs -> clean S g (nrun S g p)) -> ~ forged S g evs.
  Proof.
    intros H (p & cid & l & Hp & Hl & Hm). destruct (H p Hp cid l Hl) as [H1 H2].
    destruct Hm as [Hm|Hm]; by eapply genuine_not; [|exact Hm].
  Qed.

  Lemma faithful_clean evs : Forall ntyped evs -> faithful S g evs -> ~ forged S g evs.
  Proof.
    induction evs as [|e evs IH] using rev_ind; intros Ht Hf.
    - apply clean_not. intros p Hp. apply prefix_nil_inv in Hp as ->. intros cid x Hx. cbn in Hx. by rewrite lookup_empty in Hx.
    - apply Forall_app in Ht as [Ht _]. pose proof (faithful_app _ _ Hf) as Hf'. specialize (IH Ht Hf').
      destruct (sim_run S g HC evs Ht IH) as (w & _ & R & _).
      apply clean_not. intros p [z Hz]. destruct z as [|z0 z _] using rev_ind.
      + rewrite app_nil_r in Hz. subst p. rewrite nrun_snoc. intros cid x Hx.
        destruct (nstep_steps _ _ _ _ Hx) as [[(a & b & ->) (c & d & ->)]|(y & Hy & H1 & H2)].
        * split; intros i c' Hc'; cbn in Hc'; by rewrite lookup_nil in Hc'.
        * destruct (nrel_link _ _ _ _ _ _ R Hy) as (l & Hl & L).
          destruct (binv_run _ _ _ Hy) as [B1 B2]. destruct (Hf' evs cid y ltac:(done) Hy) as [F1 F2].
          destruct (clean_run S g evs IH cid y Hy) as [G1 G2].
          split; (eapply chop_genuine; [eassumption|eassumption|]); eapply honest_next; try eassumption.
          -- apply (lr_up _ _ _ L).
          -- apply (lr_down _ _ _ L).
      + rewrite app_assoc in Hz. apply app_inj_tail in Hz as [Hz _]. apply clean_run.
        intros Hx. apply IH. rewrite Hz. by apply forged_app.
  Qed.
End Faithful.

(** ** What is said of one system is said of the other *)
Section Transfer.
  Variable S : store_impl.
  Variable g : genv.
  Notation C := (g_crypto g).
  Variable evs : list nevent.
  Variable wevs : list wevent.
  Hypothesis R : nrel S g (nrun S g evs) (wrun S g wevs).

  Lemma tr_evs : server_evs S g wevs = nserver_evs S g evs.
  Proof. apply (nr_evs _ _ _ _ R). Qed.
  Lemma tr_link cid x : nlink_at S g evs cid x -> exists l, link_at S g wevs cid l /\ lrel g x l.
  Proof. intros H. by apply (nrel_link _ _ _ _ _ _ R). Qed.
  Lemma tr_link' cid l : link_at S g wevs cid l -> exists x, nlink_at S g evs cid x /\ lrel g x l.
  Proof.
    unfold link_at, nlink_at. intros H. pose proof (nr_links _ _ _ _ R cid) as E. rewrite H in E.
    destruct (n_links (nrun S g evs) !! cid) as [x|]; [|done]. by exists x.
  Qed.
  Lemma tr_call cid k x c : ncall_at S g evs cid k x c -> exists l, call_at S g wevs cid k l c /\ lrel g x l.
  Proof. intros [H1 H2]. destruct (tr_link _ _ H1) as (l & Hl & L). exists l. split; [|done]. split; [done|]. by rewrite (lr_cli _ _ _ L). Qed.
  Lemma tr_call' cid k l c : call_at S g wevs cid k l c -> exists x, ncall_at S g evs cid k x c /\ lrel g x l.
  Proof. intros [H1 H2]. destruct (tr_link' _ _ H1) as (x & Hx & L). exists x. split; [|done]. split; [done|]. by rewrite <- (lr_cli _ _ _ L). Qed.
  Lemma tr_ids : nids_differ S g evs -> ids_differ S g wevs.
  Proof. intros H cid l Hl. destruct (tr_link' _ _ Hl) as (x & Hx & L). rewrite (lr_cli _ _ _ L). by eapply H. Qed.
  Lemma tr_gives cid k a v : ngives S g evs cid k a v -> gives S g wevs cid k a v.
  Proof.
    intros (x & c & d & o & Hc & Hd & Hq & Hst & Hv). destruct (tr_call _ _ _ _ Hc) as (l & Hl & L).
    exists l, c, d, o. rewrite (lr_enc _ _ _ L), (lr_dec _ _ _ L). done.
  Qed.
  Lemma tr_handled cid c tid rq : handled S g wevs cid c tid rq -> nhandled S g evs cid c tid rq.
  Proof. unfold handled, nhandled. by rewrite tr_evs. Qed.
  Lemma tr_handled' cid c tid rq : nhandled S g evs cid c tid rq -> handled S g wevs cid c tid rq.
  Proof. unfold handled, nhandled. by rewrite tr_evs. Qed.
  Lemma tr_well cid k a v : nwell S g evs cid k a v -> well S g wevs cid k a v.
  Proof.
    intros (Hg & (x & c & n & m & Hc & Hst) & Hs). split; [by apply tr_gives|]. split.
    - destruct (tr_call _ _ _ _ Hc) as (l & Hl & L). by exists l, c, n, m.
    - intros l cl c' tid rq Hcl Hh. destruct (tr_call' _ _ _ _ Hcl) as (y & Hy & _). apply tr_handled in Hh. by eapply Hs.
  Qed.
  Lemma tr_unlocked cid : nunlocked S g evs cid -> unlocked S g wevs cid.
  Proof. intros (k & p & H). exists k, p. by apply tr_gives. Qed.
  Lemma tr_not_made cid k : nnot_made S g evs cid k -> not_made S g wevs cid k.
  Proof. intros H l c Hc. destruct (tr_call' _ _ _ _ Hc) as (x & Hx & _). by apply (H x c). Qed.
  Lemma tr_keeps SO : (WServer EvRestart ∈ wevs -> exists j, NServer EvRestart j ∈ evs) -> nkeeps S SO evs -> keeps S SO wevs.
  Proof. intros Hr [H|H]; [by left|]. right. intros Hin. destruct (Hr Hin) as [j Hj]. by apply (H j). Qed.
End Transfer.

Section Two.
  Variable S : store_impl.
  Variable g : genv.
  Hypothesis HC : CryptoOk (g_crypto g).

  (** Both parts of a history. *)
  Lemma sim_both evs more : Forall ntyped (evs ++ more) -> ~ forged S g (evs ++ more) ->
    exists wevs wmore, Forall typed (wevs ++ wmore) /\ nrel S g (nrun S g evs) (wrun S g wevs)
      /\ nrel S g (nrun S g (evs ++ more)) (wrun S g (wevs ++ wmore))
      /\ (WServer EvRestart ∈ wevs ++ wmore -> exists j, NServer EvRestart j ∈ evs ++ more).
  Proof.
    intros Ht Hf. apply Forall_app in Ht as [Ht1 Ht2].
    destruct (sim_run S g HC evs Ht1) as (wevs & W1 & R1 & K1); [intros H; by apply Hf, forged_app|].
    destruct (sim_more S g HC evs more wevs R1 Ht2 Hf) as (wmore & W2 & R2 & K2).
    exists wevs, wmore. split; [by apply Forall_app|]. split; [done|]. split; [done|].
    intros H. apply elem_of_app in H as [H|H]; [apply K1 in H as [j H]|apply K2 in H as [j H]]; exists j; apply elem_of_app; auto.
  Qed.
End Two.
