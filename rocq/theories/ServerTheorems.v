(** * ServerTheorems: from the invariant to what users observe *)

From Verif Require Import Base Utf8 Crypto Types Codec CodecProofs CodecProofs2 Secret Store StoreProofs
  Lru Server System ServerSpec ServerVocab ServerProofs ServerProofs2 SystemProofs AnswerProofs.

Section Theorems.
  Variable S : store_impl.
  Variable SO : StoreOk S.
  Variable g : genv.
  Hypothesis HC : CryptoOk (g_crypto g).
  Notation C := (g_crypto g).

  Notation run := (run S g).
  Notation stored := (stored S g).
  Notation conn_at := (conn_at S g).
  Notation received := (received S).
  Notation sent := (sent S).

  Lemma rel_holds s L e : st_rel S SO s L -> distinct L -> (e ∈ L <-> holds S s e).
  Proof.
    intros Hr Hd. unfold holds. pose proof (st_get_ok S SO s L (ByTag (tag_of e)) Hr) as H. split.
    - intros He. by rewrite (distinct_get _ _ _ Hd He (keys_tag e)) in H.
    - intros Hg. rewrite Hg in H. destruct (spec_get L (ByTag (tag_of e))) as [e'|] eqn:E; [|done].
      injection H as <-. by apply spec_get_Some in E as [? _].
  Qed.

  Lemma run_app evs evs' : run (evs ++ evs') = fold_left (step S g) evs' (run evs).
  Proof. unfold System.run. by rewrite fold_left_app. Qed.

  Lemma run_snoc evs ev : run (evs ++ [ev]) = step S g (run evs) ev.
  Proof. by rewrite run_app. Qed.

  Lemma reach evs : exists L, inv_at S SO g L (run evs) /\ ans_inv S (run evs)
    /\ forall e, e ∈ L <-> stored evs e.
  Proof.
    destruct (run_both S SO g HC evs) as (L & HL & HA). exists L. split; [done|]. split; [done|].
    destruct HL as ((Hr & Hd & _) & _). intros e. by apply rel_holds.
  Qed.

  Lemma lists_all L evs : inv_at S SO g L (run evs) -> forall e, e ∈ L <-> stored evs e.
  Proof. intros ((Hr & Hd & _) & _). intros e. by apply rel_holds. Qed.

  (** ** What a message sent means *)

  Record meaning (evs : list event) (c : conn S) (rq : request S) (m : api)
      (L0 : list entry) (w : world) : Prop := {
    me_before : forall e, e ∈ L0 <-> held_before S rq e;
    me_later : forall e, e ∈ L0 -> e ∈ w_L w;
    me_now : forall e, e ∈ w_L w -> stored evs e;
    me_fine : Forall (stored_ok g) (w_L w);
    me_distinct : distinct (w_L w);
    me_unl : w_unl w = true -> c_unl S c = true;
    me_fail : w_fail w = true -> rq_fail S rq = true;
    me_fb : forall fc, fc ∈ w_fb w -> fc ∈ sh_fb S (s_sh S (run evs));
    me_api : api_ok (rq_msg S rq);
    me_good : good g (c_enc S c) (c_dec S c) L0 (rq_unl S rq) (rq_msg S rq) w m
  }.

  Lemma prefix_in {A} (l l' : list A) x : l `prefix_of` l' -> x ∈ l -> x ∈ l'.
  Proof. intros [k ->] H. apply elem_of_app. by left. Qed.

  Lemma answer_meaning evs cid c tid rq m :
    conn_at evs cid c -> received c tid rq -> sent c tid m ->
    exists L0 w, meaning evs c rq m L0 w.
  Proof.
    intros Hc Hq [b Hm]. destruct (reach evs) as (L & (HS & HCs & HF) & _ & HL).
    destruct (HCs _ _ Hc) as (H1 & _). destruct (H1 _ _ Hq) as (L0 & A1 & A2 & A3 & A4 & A5 & A6 & A7).
    destruct (A7 _ _ Hm) as (w & (W1 & W2 & W3 & W4) & (V1 & V2 & V3 & V4) & Hg).
    exists L0, w. split; try done.
    - intros e. by apply rel_holds.
    - intros e He. by eapply prefix_in.
    - intros e He. apply HL. by eapply prefix_in.
    - intros fc Hfc. by eapply prefix_in.
  Qed.

  (** A message that has been logged belongs to a request. *)
  Lemma sent_received evs cid c tid m : conn_at evs cid c -> sent c tid m ->
    exists rq, received c tid rq.
  Proof.
    intros Hc [b Hm]. destruct (reach evs) as (L & (_ & HCs & _) & _).
    destruct (HCs _ _ Hc) as (_ & _ & H3 & _). apply H3 in Hm.
    by apply lookup_lt_is_Some in Hm as [rq ?]; exists rq.
  Qed.

  (** What was there when a request arrived is still there. *)
  Lemma before_now evs cid c tid rq e :
    conn_at evs cid c -> received c tid rq -> held_before S rq e -> stored evs e.
  Proof.
    intros Hc Hq He. destruct (reach evs) as (L & (HS & HCs & HF) & _ & HL).
    destruct (HCs _ _ Hc) as (H1 & _). destruct (H1 _ _ Hq) as (L0 & A1 & A2 & A3 & _).
    apply HL. eapply prefix_in; [exact A3|]. by apply (rel_holds _ _ _ A1 A2).
  Qed.

  Lemma unlock_pk_right c p :
    unlock_pk g (c_dec S c) p = Ok (g_id_pk g) <-> right_passphrase S g c p.
  Proof.
    unfold unlock_pk, open_pass, right_passphrase.
    destruct (sec_open C 64 (c_dec S c) p) as [pass|] eqn:E1; cbn [rbind].
    2:{ split; [done|]. by intros (? & ? & ? & ? & _). }
    destruct (argon2id C pass (g_salt g) (g_ops g) (g_mem g)) as [pre|] eqn:E2; cbn [rbind].
    2:{ split; [done|]. intros (? & ? & ? & [= <-] & ? & _). congruence. }
    destruct (sec_open C 32 (kdf C 142 (str "IdnSecKy") pre) (g_id_seed g)) as [seed|] eqn:E3;
      cbn [rmap].
    2:{ split; [done|]. intros (? & ? & ? & [= <-] & ? & ? & _). congruence. }
    split.
    - intros [= E]. eauto 10.
    - intros (? & ? & ? & [= <-] & F2 & F3 & F4).
      rewrite E2 in F2. injection F2 as <-. rewrite E3 in F3. injection F3 as <-. by rewrite F4.
  Qed.

  (** A right answer is of the right kind. *)
  Lemma right_kind enc dec L0 rq w m : right_answer g enc dec L0 rq w m ->
    msg_id m = msg_id rq /\ answer_kind rq m = true /\ is_error m = false.
  Proof. intros [Hid H]. split; [done|]. destruct rq, m; done. Qed.

  (** Unlocked when it matters. *)
  Lemma right_unlocked enc dec L0 rq w m : right_answer g enc dec L0 rq w m ->
    w_unl w = true \/ exists id, rq = ReqHello id
      /\ m = ResHello id (g_name g) (g_version g) (g_id_pk g).
  Proof.
    intros [Hid H]. destruct rq, m; try done; try (left; by apply H).
    right. cbn in Hid. subst. destruct H as (-> & -> & ->). eauto.
  Qed.

  (** ** What one event does *)

  Record changed (evs : list event) (ev : event) (L L' : list entry) : Prop := {
    ch_before : forall e, e ∈ L <-> stored evs e;
    ch_after : forall e, e ∈ L' <-> stored (evs ++ [ev]) e;
    ch_fine : Forall (stored_ok g) L';
    ch_distinct : distinct L';
    ch_change : change S SO g (run evs) ev L L'
  }.

  Lemma step_change evs ev : exists L L', changed evs ev L L'.
  Proof.
    destruct (reach evs) as (L & HL & _ & HLs).
    destruct (step_inv S SO g HC L (run evs) ev HL) as (L' & HL' & Hch).
    exists L, L'. rewrite <- run_snoc in HL'. split; try done.
    - by apply lists_all.
    - apply HL'.
    - apply HL'.
  Qed.

  (** Where an entry comes from: the request of a client, or a direct call. *)
  Definition origin (evs : list event) (ev : event) (e : entry) : Prop :=
    (exists cid tid o c rq L, ev = EvStep cid tid o /\ conn_at evs cid c /\ c_unl S c = true
       /\ received c tid rq /\ (forall e', e' ∈ L <-> stored evs e')
       /\ asked g (c_dec S c) (rq_msg S rq) L e)
    \/ (exists d os, ev = EvDirect d os /\ direct_asked g d e).

  Lemma step_stored evs ev :
    (forall e, stored evs e -> lasting S SO [ev] -> stored (evs ++ [ev]) e)
    /\ (forall e, stored (evs ++ [ev]) e -> stored evs e \/ origin evs ev e)
    /\ ((forall e, stored (evs ++ [ev]) e <-> stored evs e)
        \/ (exists e, ~ stored evs e /\ origin evs ev e
             /\ forall e', stored (evs ++ [ev]) e' <-> stored evs e' \/ e' = e)
        \/ ev = EvRestart).
  Proof.
    destruct (step_change evs ev) as (L & L' & [H1 H2 H3 H4 H5]).
    assert (Hsame : L' = L -> forall e, stored (evs ++ [ev]) e <-> stored evs e).
    { intros -> e. by rewrite <- H1, <- H2. }
    assert (Hadd : forall e, L' = L ++ [e] -> origin evs ev e ->
      (forall e, stored evs e -> lasting S SO [ev] -> stored (evs ++ [ev]) e)
      /\ (forall e, stored (evs ++ [ev]) e -> stored evs e \/ origin evs ev e)
      /\ exists e, ~ stored evs e /\ origin evs ev e
             /\ forall e', stored (evs ++ [ev]) e' <-> stored evs e' \/ e' = e).
    { intros e -> Ho.
      assert (Hiff : forall e', stored (evs ++ [ev]) e' <-> stored evs e' \/ e' = e).
      { intros e'. rewrite <- H1, <- H2, elem_of_app, elem_of_list_singleton. done. }
      split; [intros e' He' _; apply Hiff; by left|].
      split; [intros e' He'; apply Hiff in He' as [?| ->]; auto|].
      exists e. split; [|done]. rewrite <- H1. intros Hin.
      apply distinct_NoDup in H4. apply NoDup_app in H4 as (_ & H4 & _).
      eapply H4; [exact Hin|by left]. }
    assert (Hsame' : L' = L ->
      (forall e, stored evs e -> lasting S SO [ev] -> stored (evs ++ [ev]) e)
      /\ (forall e, stored (evs ++ [ev]) e -> stored evs e \/ origin evs ev e)
      /\ (forall e, stored (evs ++ [ev]) e <-> stored evs e)).
    { intros E. split; [intros e He _; by apply Hsame|]. split; [|by apply Hsame].
      intros e He. left. by apply (Hsame E). }
    destruct ev as [cid rx tx|cid raw|cid tid o|cid tid er|cid|d os|]; cbn [change] in H5;
      try (destruct (Hsame' H5) as (? & ? & ?); by auto).
    - destruct H5 as [H5|(e & c & rq & HL & Hc & Hu & Hq & Ha)].
      + destruct (Hsame' H5) as (? & ? & ?); by auto.
      + assert (Ho : origin evs (EvStep cid tid o) e).
        { left. exists cid, tid, o, c, rq, L. done. }
        destruct (Hadd e HL Ho) as (? & ? & ?); by auto.
    - destruct H5 as [H5|(e & HL & Ha)].
      + destruct (Hsame' H5) as (? & ? & ?); by auto.
      + assert (Ho : origin evs (EvDirect d os) e) by (right; eauto).
        destruct (Hadd e HL Ho) as (? & ? & ?); by auto.
    - split.
      + intros e He Hl. destruct Hl as [Hl|Hl]; [|done]. rewrite Hl in H5. by apply Hsame.
      + split; [|by right; right]. intros e He. left. apply H2 in He. subst L'.
        destruct (st_persist S SO); [by apply H1|by apply elem_of_nil in He].
  Qed.

  Lemma lasting_cons ev evs : lasting S SO (ev :: evs) ->
    lasting S SO [ev] /\ lasting S SO evs.
  Proof.
    intros [H|H]; [split; by left|]. unfold no_restart in *. cbn in H.
    apply orb_false_elim in H as [H1 H2].
    split; right; unfold no_restart; cbn; by rewrite ?H1.
  Qed.

  Lemma stored_lasts evs' : forall evs e, stored evs e -> lasting S SO evs' -> stored (evs ++ evs') e.
  Proof.
    induction evs' as [|ev evs' IH]; intros evs e He Hl.
    - by rewrite app_nil_r.
    - apply lasting_cons in Hl as [H1 H2]. rewrite (cons_middle ev evs evs'), app_assoc.
      apply IH; [|done]. by apply step_stored.
  Qed.

  (** Every entry has an origin. *)
  Lemma provenance evs e : stored evs e ->
    exists pre ev post, evs = pre ++ ev :: post /\ origin pre ev e.
  Proof.
    revert e. induction evs as [|ev evs IH] using rev_ind; intros e He.
    - exfalso. destruct (reach []) as (L & _). unfold ServerVocab.stored, holds, store_at in He.
      cbn in He. pose proof (st_get_ok S SO _ _ (ByTag (tag_of e)) (st_init_ok S SO)) as H.
      cbn in H. by rewrite He in H.
    - destruct (step_stored evs ev) as (_ & H & _). destruct (H e He) as [H'|H'].
      + destruct (IH e H') as (pre & ev' & post & -> & Ho).
        exists pre, ev', (post ++ [ev]). split; [|done]. by rewrite <- app_assoc.
      + by exists evs, ev, [].
  Qed.

  (** Every stored entry can be used. *)
  Lemma stored_fine evs e : stored evs e -> stored_ok g e.
  Proof.
    intros He. destruct (reach evs) as (L & ((_ & _ & HF & _) & _) & _ & HL).
    rewrite Forall_forall in HF. apply HF. by apply HL.
  Qed.

  Lemma lookup_stored evs k e : st_get S (store_at S g evs) k = Ok e <-> stored evs e /\ k ∈ keys_of e.
  Proof.
    destruct (reach evs) as (L & ((Hr & Hd & _) & _) & _ & HL).
    pose proof (st_get_ok S SO _ _ k Hr) as H. split.
    - intros He. unfold store_at in He. destruct (spec_get L k) as [e'|] eqn:E; rewrite He in H; [|done].
      injection H as <-. apply spec_get_Some in E as [E1 E2]. split; [by apply HL|done].
    - intros [He Hk]. apply HL in He. by rewrite (distinct_get _ _ _ Hd He Hk) in H.
  Qed.

  Lemma stored_unique evs e1 e2 k : stored evs e1 -> stored evs e2 ->
    k ∈ keys_of e1 -> k ∈ keys_of e2 -> e1 = e2.
  Proof.
    intros H1 H2 K1 K2.
    pose proof (proj2 (lookup_stored evs k e1) (conj H1 K1)) as E1.
    pose proof (proj2 (lookup_stored evs k e2) (conj H2 K2)) as E2. congruence.
  Qed.

  (** ** The unlock flag *)

  Lemma step_thread_unl evs cid c tid o :
    conn_at evs cid c ->
    let c' := snd (step_thread S g (s_sh S (run evs)) c tid o) in
    c_dec S c' = c_dec S c /\ c_enc S c' = c_enc S c
    /\ (c_unl S c' = c_unl S c
        \/ (c_unl S c' = true /\ exists rq id p, received c tid rq
              /\ rq_msg S rq = ReqUnlock id p /\ right_passphrase S g c p)).
  Proof.
    intros Hc. destruct (reach evs) as (L & (HS & HCs & HF) & _ & HL).
    pose proof (HCs _ _ Hc) as (H1 & H2 & H3 & H4). unfold step_thread.
    destruct (c_thr S c !! tid) as [[p|e]|] eqn:Et; [| |by auto].
    - assert (Htid : tid < length (c_reqs S c)) by (apply H2; by eexists).
      apply lookup_lt_is_Some in Htid as [rq Hrq].
      destruct (H1 tid rq Hrq) as (L0 & A1 & A2 & A3 & A4 & A5 & A6 & A7).
      rewrite Et in A6. cbn [thread_ok] in A6.
      destruct (step1_ok S SO g (c_enc S c) (c_dec S c) L0 (rq_unl S rq) (rq_msg S rq)
        (s_sh S (run evs)) L (c_unl S c) (rq_fail S rq) p o _ HS A3 A4 A6)
        as (L' & p' & _ & _ & _ & _ & B5 & B6 & _).
      rewrite B6. cbn. split; [done|]. split; [done|].
      destruct B5 as [B5|[B5 (id & s & Hs & Hu)]]; [by left|right]. split; [done|].
      exists rq, id, s. split; [done|]. split; [done|]. by apply unlock_pk_right.
    - destruct (c_reqs S c !! tid) as [rq|]; cbn; by auto.
  Qed.

  (** What an event does to a connection. *)
  Lemma step_conn evs ev cid c :
    conn_at evs cid c -> is_restart ev = false ->
    exists c', conn_at (evs ++ [ev]) cid c'
      /\ c_dec S c' = c_dec S c /\ c_enc S c' = c_enc S c
      /\ (conn_of ev <> Some cid -> c' = c)
      /\ (c_unl S c' = c_unl S c
          \/ (c_unl S c' = true /\ exists tid o rq id p, ev = EvStep cid tid o /\ received c tid rq
                /\ rq_msg S rq = ReqUnlock id p /\ right_passphrase S g c p)).
  Proof.
    intros Hc Hnr. unfold ServerVocab.conn_at in *. rewrite run_snoc.
    assert (Hsame : s_conns S (run evs) !! cid = Some c ->
      exists c', s_conns S (run evs) !! cid = Some c'
      /\ c_dec S c' = c_dec S c /\ c_enc S c' = c_enc S c
      /\ (conn_of ev <> Some cid -> c' = c)
      /\ (c_unl S c' = c_unl S c
          \/ (c_unl S c' = true /\ exists tid o rq id p, ev = EvStep cid tid o /\ received c tid rq
                /\ rq_msg S rq = ReqUnlock id p /\ right_passphrase S g c p))).
    { intros H. exists c. split; [done|]. split; [done|]. split; [done|]. split; [done|by left]. }
    destruct ev as [cid' rx tx|cid' raw|cid' tid' o|cid' tid' e|cid'|d os|]; cbn [step].
    - destruct (s_conns S (run evs) !! cid') eqn:Ec'; [by auto|]. destruct (_ && _); [|by auto].
      cbn. assert (cid <> cid') by congruence. rewrite lookup_insert_ne by done. by auto.
    - destruct (s_conns S (run evs) !! cid') as [c1|] eqn:Ec; [|by auto]. cbn.
      destruct (decide (cid = cid')) as [<-|Hne]; [|rewrite lookup_insert_ne by done; by auto].
      rewrite lookup_insert. assert (c1 = c) as -> by congruence. eexists. split; [done|].
      unfold receive. destruct (c_open S c && _); [|split; [done|split; [done|split; [done|by left]]]].
      destruct (decode_api raw) as [a|]; cbn; (split; [done|split; [done|split; [by intros []|by left]]]).
    - destruct (s_conns S (run evs) !! cid') as [c1|] eqn:Ec; [|by auto].
      destruct (decide (cid = cid')) as [<-|Hne].
      + assert (c1 = c) as -> by congruence.
        pose proof (step_thread_unl evs cid c tid' o Hc) as H. cbn in H.
        destruct (step_thread S g (s_sh S (run evs)) c tid' o) as [sh' c']. cbn in *.
        rewrite lookup_insert. destruct H as (H1 & H2 & H3). exists c'. split; [done|].
        split; [done|]. split; [done|]. split; [done|].
        destruct H3 as [H3|(H3 & rq & id & p & H4)]; [by left|right]. split; [done|].
        by exists tid', o, rq, id, p.
      + destruct (step_thread S g (s_sh S (run evs)) c1 tid' o) as [sh' c']. cbn.
        rewrite lookup_insert_ne by done. by auto.
    - destruct (s_conns S (run evs) !! cid') as [c1|] eqn:Ec; [|by auto]. cbn.
      destruct (decide (cid = cid')) as [<-|Hne]; [|rewrite lookup_insert_ne by done; by auto].
      rewrite lookup_insert. assert (c1 = c) as -> by congruence. eexists. split; [done|].
      unfold abort_thread. destruct (c_thr S c !! tid') as [[p|e']|] eqn:Et; cbn; (split; [done|split; [done|split; [by intros []|by left]]]).
    - destruct (s_conns S (run evs) !! cid') as [c1|] eqn:Ec; [|by auto]. cbn.
      destruct (decide (cid = cid')) as [<-|Hne]; [|rewrite lookup_insert_ne by done; by auto].
      rewrite lookup_insert. assert (c1 = c) as -> by congruence. eexists. split; [done|]. cbn. split; [done|split; [done|split; [by intros []|by left]]].
    - destruct (direct_okb d); cbn; by auto.
    - done.
  Qed.

  Lemma unlocked_by evs cid c : conn_at evs cid c -> c_unl S c = true ->
    exists tid rq id p, received c tid rq /\ rq_msg S rq = ReqUnlock id p /\ right_passphrase S g c p.
  Proof.
    intros Hc Hu. destruct (reach evs) as (L & (HS & HCs & HF) & _ & HL).
    destruct (HCs _ _ Hc) as (_ & _ & _ & H4). destruct (H4 Hu) as (tid & rq & Hq & id & p & Hm & Hp).
    exists tid, rq, id, p. split; [done|]. split; [done|]. by apply unlock_pk_right.
  Qed.

  (** ** Requests and what they found *)

  (** With nothing failing and the connection unlocked, an error has its reason in the
      request. *)
  Lemma fine_answer evs cid c tid rq m :
    conn_at evs cid c -> received c tid rq -> sent c tid m ->
    undisturbed S rq -> came_unlocked S rq ->
    exists L0 w, meaning evs c rq m L0 w
      /\ (right_answer g (c_enc S c) (c_dec S c) L0 (rq_msg S rq) w m
          \/ exists er, m = ResError (msg_id (rq_msg S rq)) er
               /\ own_excuse g (c_dec S c) L0 (rq_msg S rq) w).
  Proof.
    intros Hc Hq Hm Hd Hu. destruct (answer_meaning evs cid c tid rq m Hc Hq Hm) as (L0 & w & M).
    exists L0, w. split; [done|].
    destruct (me_good _ _ _ _ _ _ M) as [H|(er & -> & [H|[[_ H]|H]])].
    - by left.
    - apply (me_fail _ _ _ _ _ _ M) in H. unfold undisturbed in Hd. congruence.
    - unfold came_unlocked in Hu. congruence.
    - right. by exists er.
  Qed.

  (** The answer to a request of a given kind, when it is not an error. *)
  Lemma right_meaning evs cid c tid rq m :
    conn_at evs cid c -> received c tid rq -> sent c tid m -> is_error m = false ->
    exists L0 w, meaning evs c rq m L0 w
      /\ right_answer g (c_enc S c) (c_dec S c) L0 (rq_msg S rq) w m.
  Proof.
    intros Hc Hq Hm He. destruct (answer_meaning evs cid c tid rq m Hc Hq Hm) as (L0 & w & M).
    exists L0, w. split; [done|].
    by destruct (me_good _ _ _ _ _ _ M) as [H|(er & -> & _)].
  Qed.

  Lemma plain_seed_det e s1 s2 : plain_seed g e s1 -> plain_seed g e s2 -> s1 = s2.
  Proof. destruct e; try done. intros [H1 _] [H2 _]. congruence. Qed.

  Lemma plain_seed_len e seed : plain_seed g e seed -> length seed = 32.
  Proof. destruct e; try done. by intros [_ [H _]]. Qed.

  Lemma plain_seed_ed e seed : plain_seed g e seed -> ByEd (sign_pk C seed) ∈ keys_of e.
  Proof. destruct e as [t si sec| |]; try done. intros [_ (_ & <- & _)]. by right; left. Qed.

  Lemma plain_seed_x e seed : plain_seed g e seed -> ByX (box_pk C seed) ∈ keys_of e.
  Proof. destruct e as [t si sec| |]; try done. intros [_ (_ & _ & <-)]. by right; right; left. Qed.

  Lemma ed_key e pk : ByEd pk ∈ keys_of e <-> ed_of e = Some pk.
  Proof.
    unfold ed_of. split.
    - intros H. apply keys_cases in H as [H|(si & E & [H|H])]; [done| |done].
      rewrite E. injection H as ->. done.
    - destruct (seed_info_of e) as [si|] eqn:E; [|done]. intros [= <-]. by apply keys_ed.
  Qed.

  Lemma x_key e pk : ByX pk ∈ keys_of e <-> x_of e = Some pk.
  Proof.
    unfold x_of. split.
    - intros H. apply keys_cases in H as [H|(si & E & [H|H])]; [done|done|].
      rewrite E. injection H as ->. done.
    - destruct (seed_info_of e) as [si|] eqn:E; [|done]. intros [= <-]. by apply keys_x.
  Qed.

  Lemma plain_ed_of e seed : plain_seed g e seed -> ed_of e = Some (sign_pk C seed).
  Proof. intros H. by apply ed_key, plain_seed_ed. Qed.
  Lemma plain_x_of e seed : plain_seed g e seed -> x_of e = Some (box_pk C seed).
  Proof. intros H. by apply x_key, plain_seed_x. Qed.

  (** The entry under a tag or key is one. *)
  Lemma same_tag evs e1 e2 : stored evs e1 -> stored evs e2 -> tag_of e1 = tag_of e2 -> e1 = e2.
  Proof.
    intros H1 H2 E. apply (stored_unique evs e1 e2 (ByTag (tag_of e1)) H1 H2); [apply keys_tag|].
    rewrite E. apply keys_tag.
  Qed.
  Lemma same_ed evs e1 e2 pk : stored evs e1 -> stored evs e2 ->
    ed_of e1 = Some pk -> ed_of e2 = Some pk -> e1 = e2.
  Proof. intros H1 H2 E1 E2. apply (stored_unique evs e1 e2 (ByEd pk) H1 H2); by apply ed_key. Qed.
  Lemma same_x evs e1 e2 pk : stored evs e1 -> stored evs e2 ->
    x_of e1 = Some pk -> x_of e2 = Some pk -> e1 = e2.
  Proof. intros H1 H2 E1 E2. apply (stored_unique evs e1 e2 (ByX pk) H1 H2); by apply x_key. Qed.

  (** A plain seed that is stored can be read. *)
  Lemma stored_plain evs e si : stored evs e -> is_deep e = false -> seed_info_of e = Some si ->
    exists seed, plain_seed g e seed.
  Proof. intros He Hd Hs. destruct (stored_fine evs e He) as [_ H]. by destruct e. Qed.

  (** A request keeps what it found on arrival. *)
  Lemma step_requests evs ev cid c' tid rq' :
    conn_at (evs ++ [ev]) cid c' -> received c' tid rq' ->
    (ev <> EvRestart /\ exists c rq, conn_at evs cid c /\ received c tid rq
       /\ rq_msg S rq' = rq_msg S rq /\ rq_store S rq' = rq_store S rq)
    \/ rq_store S rq' = store_at S g evs.
  Proof.
    unfold ServerVocab.conn_at, ServerVocab.received. rewrite run_snoc. intros Hc Hq.
    assert (Hsame : s_conns S (run evs) !! cid = Some c' -> ev <> EvRestart ->
      (ev <> EvRestart /\ exists c rq, s_conns S (run evs) !! cid = Some c /\ c_reqs S c !! tid = Some rq
       /\ rq_msg S rq' = rq_msg S rq /\ rq_store S rq' = rq_store S rq)).
    { intros H Hn. split; [done|]. by exists c', rq'. }
    assert (Hmark : forall c b, c_reqs S c' = mark_fail S (c_reqs S c) b.1 b.2 ->
      s_conns S (run evs) !! cid = Some c -> ev <> EvRestart ->
      (ev <> EvRestart /\ exists c rq, s_conns S (run evs) !! cid = Some c /\ c_reqs S c !! tid = Some rq
       /\ rq_msg S rq' = rq_msg S rq /\ rq_store S rq' = rq_store S rq)).
    { intros c [t b] Hm Hc' Hn. split; [done|]. change (c_reqs S c' = mark_fail S (c_reqs S c) t b) in Hm. rewrite Hm in Hq.
      destruct (c_reqs S c !! tid) as [rq|] eqn:E.
      - exists c, rq. split; [done|]. split; [done|].
        unfold mark_fail in Hq. destruct (decide (t = tid)) as [->|Hne].
        + rewrite list_lookup_alter, E in Hq. injection Hq as <-. done.
        + rewrite list_lookup_alter_ne, E in Hq by done. by injection Hq as <-.
      - apply lookup_ge_None in E. apply lookup_lt_Some in Hq. rewrite mark_fail_length in Hq. lia. }
    destruct ev as [cid2 rx tx|cid2 raw|cid2 tid2 o|cid2 tid2 e|cid2|d os|]; cbn [step] in Hc.
    - destruct (s_conns S (run evs) !! cid2) eqn:E2; [left; by apply Hsame|].
      destruct (_ && _); [|left; by apply Hsame]. cbn in Hc.
      destruct (decide (cid2 = cid)) as [->|Hne].
      + rewrite lookup_insert in Hc. injection Hc as <-. done.
      + rewrite lookup_insert_ne in Hc by done. left; by apply Hsame.
    - destruct (s_conns S (run evs) !! cid2) as [c|] eqn:E2; [|left; by apply Hsame]. cbn in Hc.
      destruct (decide (cid2 = cid)) as [->|Hne];
        [|rewrite lookup_insert_ne in Hc by done; left; by apply Hsame].
      rewrite lookup_insert in Hc. injection Hc as <-. unfold receive in Hq.
      assert (Hold : c_reqs S c !! tid = Some rq' ->
        EvReceive cid raw <> EvRestart /\ exists c rq, s_conns S (run evs) !! cid = Some c
          /\ c_reqs S c !! tid = Some rq
          /\ rq_msg S rq' = rq_msg S rq /\ rq_store S rq' = rq_store S rq).
      { intros H. split; [done|]. by exists c, rq'. }
      destruct (c_open S c && _); [|left; by apply Hold].
      destruct (decode_api raw) as [a|]; cbn in Hq; [|left; by apply Hold].
      apply lookup_app_Some in Hq as [Hq|[_ Hq]]; [left; by apply Hold|].
      right. apply list_lookup_singleton_Some in Hq as [_ <-]. done.
    - destruct (s_conns S (run evs) !! cid2) as [c|] eqn:E2; [|left; by apply Hsame].
      destruct (step_thread S g (s_sh S (run evs)) c tid2 o) as [sh' c2] eqn:Es. cbn in Hc.
      destruct (decide (cid2 = cid)) as [->|Hne];
        [|rewrite lookup_insert_ne in Hc by done; left; by apply Hsame].
      rewrite lookup_insert in Hc. injection Hc as ->. left.
      unfold step_thread in Es. destruct (c_thr S c !! tid2) as [[p|er]|].
      + destruct (r_prog S _) as [p'|]; injection Es as _ <-.
        * by eapply (Hmark c (tid2, _)).
        * split; [done|]. by exists c, rq'.
      + destruct (c_reqs S c !! tid2); apply (f_equal snd) in Es; cbn [snd] in Es; cbv zeta in Es; subst c'.
        * by eapply (Hmark c (tid2, _)).
        * split; [done|]. by exists c, rq'.
      + injection Es as _ <-. split; [done|]. by exists c, rq'.
    - destruct (s_conns S (run evs) !! cid2) as [c|] eqn:E2; [|left; by apply Hsame]. cbn in Hc.
      destruct (decide (cid2 = cid)) as [->|Hne];
        [|rewrite lookup_insert_ne in Hc by done; left; by apply Hsame].
      rewrite lookup_insert in Hc. injection Hc as <-. left.
      unfold abort_thread in Hq, Hmark. destruct (c_thr S c !! tid2) as [[p|er]|].
      + by eapply (Hmark c (tid2, true)).
      + split; [done|]. by exists c, rq'.
      + split; [done|]. by exists c, rq'.
    - destruct (s_conns S (run evs) !! cid2) as [c|] eqn:E2; [|left; by apply Hsame]. cbn in Hc.
      destruct (decide (cid2 = cid)) as [->|Hne];
        [|rewrite lookup_insert_ne in Hc by done; left; by apply Hsame].
      rewrite lookup_insert in Hc. injection Hc as <-. left. split; [done|]. by exists c, rq'.
    - destruct (direct_okb d); left; by apply Hsame.
    - done.
  Qed.

  Lemma fresh_request evs' : forall evs cid c tid rq e,
    stored evs e -> lasting S SO evs' -> fresh S g evs evs' cid tid ->
    conn_at (evs ++ evs') cid c -> received c tid rq -> held_before S rq e.
  Proof.
    induction evs' as [|ev evs' IH] using rev_ind; intros evs cid c tid rq e He Hl Hf Hc Hq.
    - rewrite app_nil_r in Hc. destruct Hf as [Hf|Hf]; [done|]. by apply (Hf c rq) in Hc.
    - rewrite app_assoc in Hc.
      assert (Hl' : lasting S SO evs').
      { destruct Hl as [Hl|Hl]; [by left|right]. unfold no_restart in *. rewrite existsb_app in Hl.
        by apply orb_false_elim in Hl as [? _]. }
      destruct (step_requests (evs ++ evs') ev cid c tid rq Hc Hq) as [(Hn & c0 & rq0 & Hc0 & Hq0 & _ & Es)|Es].
      + unfold held_before. rewrite Es. apply (IH evs cid c0 tid rq0 e He Hl'); [|done|done].
        destruct Hf as [Hf|Hf]; [|by right]. rewrite existsb_app in Hf.
        apply orb_prop in Hf as [Hf|Hf]; [by left|]. exfalso. by destruct ev.
      + unfold held_before. rewrite Es. by apply stored_lasts.
  Qed.
End Theorems.
