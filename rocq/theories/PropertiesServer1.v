(** * PropertiesServer1: access, answers, storage (C01 to C09, C11, C12)

    Every statement ranges over every correct store [S] (both of the keystore's
    are, see [PropertiesStore]), every server environment [g] whose primitives obey
    the laws of [CryptoOk], and every list of events [evs], that is over every
    history of connections, requests, interleavings, failures and restarts. *)

From Verif Require Import Base Utf8 Crypto Toy Types Codec CodecProofs CodecProofs2 Secret Store
  StoreProofs Lru Server System ServerSpec ServerVocab ServerProofs ServerProofs2 SystemProofs
  AnswerProofs ServerTheorems Demo.

(** ** C01: nothing but Hello and Unlock works on a locked connection *)

(** Whatever was sent on a connection that is not unlocked is an error or the
    answer to a Hello. *)
Theorem C01_locked_answers :
  forall S (SO : StoreOk S) g, CryptoOk (g_crypto g) ->
  forall evs cid c tid rq m,
    conn_at S g evs cid c -> c_unl S c = false ->
    received S c tid rq -> sent S c tid m ->
    (exists text, m = ResError (msg_id (rq_msg S rq)) text)
    \/ (exists id, rq_msg S rq = ReqHello id /\ m = ResHello id (g_name g) (g_version g) (g_id_pk g)).
Proof.
  intros S SO g HC evs cid c tid rq m Hc Hu Hq Hm.
  destruct (answer_meaning S SO g HC evs cid c tid rq m Hc Hq Hm) as (L0 & w & M).
  destruct (me_good _ _ _ _ _ _ _ _ M) as [Hr|(e & -> & _)]; [|left; by eexists].
  destruct (right_unlocked g _ _ _ _ _ _ Hr) as [H|H]; [|by right].
  apply (me_unl _ _ _ _ _ _ _ _ M) in H. congruence.
Qed.
Print Assumptions C01_locked_answers.

(** A connection on which no Unlock with the right passphrase was received is
    not unlocked. *)
Theorem C01_locked_without_passphrase :
  forall S (SO : StoreOk S) g, CryptoOk (g_crypto g) ->
  forall evs cid c,
    conn_at S g evs cid c ->
    (forall tid rq id p, received S c tid rq -> rq_msg S rq = ReqUnlock id p ->
       ~ right_passphrase S g c p) ->
    c_unl S c = false.
Proof.
  intros S SO g HC evs cid c Hc Hno. destruct (c_unl S c) eqn:E; [|done]. exfalso.
  destruct (unlocked_by S SO g HC evs cid c Hc E) as (tid & rq & id & p & H1 & H2 & H3).
  by eapply Hno.
Qed.
Print Assumptions C01_locked_without_passphrase.

(** Nothing that happens on a locked connection stores anything or reaches the
    fallback signer. *)
Theorem C01_locked_no_effect :
  forall S (SO : StoreOk S) g, CryptoOk (g_crypto g) ->
  forall evs cid c ev,
    conn_at S g evs cid c -> c_unl S c = false -> conn_of ev = Some cid ->
    (forall e, stored S g (evs ++ [ev]) e <-> stored S g evs e)
    /\ sh_fb S (s_sh S (run S g (evs ++ [ev]))) = sh_fb S (s_sh S (run S g evs)).
Proof.
  intros S SO g HC evs cid c ev Hc Hu Hev. split.
  - destruct (step_stored S SO g HC evs ev) as (_ & _ & [H|[(e & _ & Ho & _)| ->]]); [done| |done].
    exfalso. destruct Ho as [(cid' & tid & o & c' & rq & L & -> & Hc' & Hu' & _)|(d & os & -> & _)].
    + cbn in Hev. injection Hev as ->. unfold conn_at in *. congruence.
    + done.
  - unfold conn_at in Hc. rewrite run_snoc.
    destruct ev as [cid' rx tx|cid' raw|cid' tid' o|cid' tid' e|cid'|d os|]; cbn [conn_of step] in *;
      try done; injection Hev as ->; rewrite Hc; cbn; try done.
    destruct (reach S SO g HC evs) as (L & (HS & HCs & HF) & _ & HL).
    destruct (HCs _ _ Hc) as (H1 & H2 & _). unfold step_thread.
    destruct (c_thr S c !! tid') as [[p|e]|] eqn:Et; [| |done].
    + assert (Htid : tid' < length (c_reqs S c)) by (apply H2; by eexists).
      apply lookup_lt_is_Some in Htid as [rq Hrq].
      destruct (H1 tid' rq Hrq) as (L0 & A1 & A2 & A3 & A4 & A5 & A6 & A7).
      rewrite Et in A6. cbn [thread_ok] in A6.
      destruct (step1_ok S SO g (c_enc S c) (c_dec S c) L0 (rq_unl S rq) (rq_msg S rq)
        (s_sh S (run S g evs)) L (c_unl S c) (rq_fail S rq) p o _ HS A3 A4 A6)
        as (L' & p' & _ & _ & _ & _ & _ & B6 & _ & _ & B9).
      rewrite B6. cbn. destruct B9 as [B9|(fc & _ & (_ & Hu' & _) & _)]; [done|].
      cbn in Hu'. congruence.
    + destruct (c_reqs S c !! tid') as [rq|]; done.
Qed.
Print Assumptions C01_locked_no_effect.

(** A locked connection asks for a list and for a new seed: two errors, nothing stored. *)
Definition ex_locked : list event :=
  EvConnect 1 demo_rx demo_tx :: ask 1 0 (ReqListEntries (str "a")) x00
    ++ ask 1 1 (ReqNewSeed (str "b") (str "t") None true) x0a.
Example C01_ex :
  replies sql_store (demo_env true) ex_locked 1
    = [(0, ResError (str "a") (str "KeystoreLocked"), true);
       (1, ResError (str "b") (str "KeystoreLocked"), true)]
  /\ store_at sql_store (demo_env true) ex_locked = []
  /\ exists c, conn_at sql_store (demo_env true) ex_locked 1 c /\ c_unl _ c = false.
Proof.
  split; [by vm_compute|]. split; [by vm_compute|].
  destruct (checked sql_store (demo_env true) ex_locked 1 (fun c => negb (c_unl _ c))) as (c & H1 & H2);
    [by vm_compute|]. exists c. split; [exact H1|by apply negb_true_iff in H2].
Qed.

(** ** C02: a connection is unlocked exactly by the passphrase of the keystore *)

Theorem C02_unlocked_only_by_passphrase :
  forall S (SO : StoreOk S) g, CryptoOk (g_crypto g) ->
  forall evs cid c,
    conn_at S g evs cid c -> c_unl S c = true ->
    exists tid rq id p, received S c tid rq /\ rq_msg S rq = ReqUnlock id p
      /\ right_passphrase S g c p.
Proof. intros S SO g HC. by apply unlocked_by. Qed.
Print Assumptions C02_unlocked_only_by_passphrase.

(** The answer to an Unlock request tells whether the passphrase was right. *)
Theorem C02_unlock_answer :
  forall S (SO : StoreOk S) g, CryptoOk (g_crypto g) ->
  forall evs cid c tid rq m id p,
    conn_at S g evs cid c -> received S c tid rq -> sent S c tid m ->
    rq_msg S rq = ReqUnlock id p ->
    (right_passphrase S g c p -> undisturbed S rq -> m = ResUnlock id /\ c_unl S c = true)
    /\ (~ right_passphrase S g c p -> is_error m = true)
    /\ (m = ResUnlock id -> right_passphrase S g c p /\ c_unl S c = true).
Proof.
  intros S SO g HC evs cid c tid rq m id p Hc Hq Hm Hrq.
  destruct (answer_meaning S SO g HC evs cid c tid rq m Hc Hq Hm) as (L0 & w & M).
  pose proof (me_good _ _ _ _ _ _ _ _ M) as HG. rewrite Hrq in HG.
  assert (Hright : right_answer g (c_enc S c) (c_dec S c) L0 (ReqUnlock id p) w m ->
    m = ResUnlock id /\ right_passphrase S g c p /\ c_unl S c = true).
  { intros [Hid H]. destruct m; try done. cbn in Hid. subst id0. destruct H as [H1 H2].
    split; [done|]. split; [by apply unlock_pk_right|]. by apply (me_unl _ _ _ _ _ _ _ _ M). }
  split; [|split].
  - intros Hp Hd. destruct HG as [Hr|(e & -> & [Hf|[[Hf _]|Hf]])].
    + by destruct (Hright Hr) as (-> & _ & ?).
    + apply (me_fail _ _ _ _ _ _ _ _ M) in Hf. unfold undisturbed in Hd. congruence.
    + done.
    + exfalso. apply Hf. by apply unlock_pk_right.
  - intros Hp. destruct HG as [Hr|(e & -> & _)]; [|done]. by destruct (Hright Hr) as (_ & ? & _).
  - intros ->. destruct HG as [Hr|(e & ? & _)]; [|done]. by destruct (Hright Hr) as (_ & ? & ?).
Qed.
Print Assumptions C02_unlock_answer.

(** Handling an Unlock request with a wrong passphrase changes nothing: neither any
    lock state nor what is stored. *)
Theorem C02_wrong_unlock_changes_nothing :
  forall S (SO : StoreOk S) g, CryptoOk (g_crypto g) ->
  forall evs cid c tid rq id p o,
    conn_at S g evs cid c -> received S c tid rq -> rq_msg S rq = ReqUnlock id p ->
    ~ right_passphrase S g c p ->
    (exists c', conn_at S g (evs ++ [EvStep cid tid o]) cid c' /\ c_unl S c' = c_unl S c)
    /\ forall e, stored S g (evs ++ [EvStep cid tid o]) e <-> stored S g evs e.
Proof.
  intros S SO g HC evs cid c tid rq id p o Hc Hq Hrq Hp. split.
  - destruct (step_conn S SO g HC evs (EvStep cid tid o) cid c Hc eq_refl)
      as (c' & Hc' & _ & _ & _ & H). exists c'. split; [done|].
    destruct H as [H|(_ & tid' & o' & rq' & id' & p' & [= <- <-] & Hq' & Hm' & Hp')]; [done|].
    unfold received in *. assert (rq' = rq) as -> by congruence.
    assert (p' = p) as -> by congruence. done.
  - destruct (step_stored S SO g HC evs (EvStep cid tid o)) as (_ & _ & [H|[(e & _ & Ho & _)|H]]);
      [done| |done].
    exfalso. destruct Ho as [(cid' & tid' & o' & c' & rq' & L & [= <- <- <-] & Hc' & _ & Hq' & _ & Ha)
      |(d & os & ? & _)]; [|done].
    unfold conn_at, received in *. assert (c' = c) as -> by congruence.
    assert (rq' = rq) as -> by congruence. by rewrite Hrq in Ha.
Qed.
Print Assumptions C02_wrong_unlock_changes_nothing.

(** A wrong passphrase, then the right one. *)
Definition ex_unlock : list event :=
  EvConnect 1 demo_rx demo_tx :: ask 1 0 (ReqUnlock (str "a") (demo_sec (fill 64 x71))) x00
    ++ ask 1 1 (ReqUnlock (str "b") (demo_sec demo_pass)) x00.
Example C02_ex :
  replies mem_store (demo_env false) ex_unlock 1
    = [(0, ResError (str "a") (str "InternalSodium"), true); (1, ResUnlock (str "b"), true)]
  /\ exists c, conn_at mem_store (demo_env false) ex_unlock 1 c /\ c_unl _ c = true
       /\ right_passphrase mem_store (demo_env false) c (demo_sec demo_pass).
Proof.
  split; [by vm_compute|].
  destruct (checked mem_store (demo_env false) ex_unlock 1
    (fun c => c_unl _ c && beq (c_dec _ c) demo_dec)) as (c & H1 & H2); [by vm_compute|].
  exists c. apply andb_prop in H2 as [H2 H3]. apply beq_true in H3. split; [exact H1|].
  split; [exact H2|].
  exists demo_pass, demo_pre, demo_seed. rewrite H3. repeat split; by vm_compute.
Qed.

(** ** C03: unlocking is per connection and permanent *)

(** An event of another connection, or a direct call, leaves a connection exactly as
    it was. *)
Theorem C03_connections_apart :
  forall S (SO : StoreOk S) g, CryptoOk (g_crypto g) ->
  forall evs evs' cid c,
    conn_at S g evs cid c -> no_restart evs' ->
    Forall (fun ev => conn_of ev <> Some cid) evs' ->
    conn_at S g (evs ++ evs') cid c.
Proof.
  intros S SO g HC evs evs' cid c. revert evs. induction evs' as [|ev evs' IH]; intros evs Hc Hn Hf.
  - by rewrite app_nil_r.
  - unfold no_restart in Hn. cbn in Hn. apply orb_false_elim in Hn as [Hn1 Hn2].
    apply Forall_cons in Hf as [Hf1 Hf2]. rewrite (cons_middle ev evs evs'), app_assoc.
    apply IH; [|done|done].
    destruct (step_conn S SO g HC evs ev cid c Hc Hn1) as (c' & Hc' & _ & _ & He & _).
    by rewrite (He Hf1) in Hc'.
Qed.
Print Assumptions C03_connections_apart.

(** A connection changes from locked to unlocked only by a step of handling an
    Unlock request of its own with the right passphrase. *)
Theorem C03_unlocked_by_itself :
  forall S (SO : StoreOk S) g, CryptoOk (g_crypto g) ->
  forall evs ev cid c c',
    conn_at S g evs cid c -> c_unl S c = false ->
    conn_at S g (evs ++ [ev]) cid c' -> c_unl S c' = true ->
    exists tid o rq id p, ev = EvStep cid tid o /\ received S c tid rq
      /\ rq_msg S rq = ReqUnlock id p /\ right_passphrase S g c p.
Proof.
  intros S SO g HC evs ev cid c c' Hc Hu Hc' Hu'.
  destruct (is_restart ev) eqn:Er.
  - exfalso. destruct ev; try done. unfold conn_at in Hc'. rewrite run_snoc in Hc'. cbn in Hc'.
    by rewrite lookup_empty in Hc'.
  - destruct (step_conn S SO g HC evs ev cid c Hc Er) as (c2 & Hc2 & _ & _ & _ & H).
    unfold conn_at in *. assert (c2 = c') as -> by congruence.
    destruct H as [H|[_ H]]; [congruence|done].
Qed.
Print Assumptions C03_unlocked_by_itself.

(** New connections start locked. *)
Theorem C03_new_locked :
  forall S (SO : StoreOk S) g, CryptoOk (g_crypto g) ->
  forall evs ev cid c,
    s_conns S (run S g evs) !! cid = None -> conn_at S g (evs ++ [ev]) cid c -> c_unl S c = false.
Proof.
  intros S SO g HC evs ev cid c Hn Hc. unfold conn_at in Hc. rewrite run_snoc in Hc.
  destruct ev as [cid' rx tx|cid' raw|cid' tid' o|cid' tid' e|cid'|d os|]; cbn [step] in Hc.
  - destruct (s_conns S (run S g evs) !! cid') eqn:Ec'; [congruence|].
    destruct (_ && _); [|congruence]. cbn in Hc.
    destruct (decide (cid' = cid)) as [->|Hne].
    + rewrite lookup_insert in Hc. by injection Hc as <-.
    + rewrite lookup_insert_ne in Hc by done. congruence.
  - destruct (s_conns S (run S g evs) !! cid') eqn:Ec'; [|congruence]. cbn in Hc.
    rewrite lookup_insert_ne in Hc by congruence. congruence.
  - destruct (s_conns S (run S g evs) !! cid') as [c'|] eqn:Ec'; [|congruence].
    destruct (step_thread S g (s_sh S (run S g evs)) c' tid' o). cbn in Hc.
    rewrite lookup_insert_ne in Hc by congruence. congruence.
  - destruct (s_conns S (run S g evs) !! cid') eqn:Ec'; [|congruence]. cbn in Hc.
    rewrite lookup_insert_ne in Hc by congruence. congruence.
  - destruct (s_conns S (run S g evs) !! cid') eqn:Ec'; [|congruence]. cbn in Hc.
    rewrite lookup_insert_ne in Hc by congruence. congruence.
  - destruct (direct_okb d); cbn in Hc; congruence.
  - cbn in Hc. by rewrite lookup_empty in Hc.
Qed.
Print Assumptions C03_new_locked.

(** Once unlocked, always unlocked, as long as the server runs. *)
Theorem C03_stays_unlocked :
  forall S (SO : StoreOk S) g, CryptoOk (g_crypto g) ->
  forall evs evs' cid c,
    conn_at S g evs cid c -> c_unl S c = true -> no_restart evs' ->
    exists c', conn_at S g (evs ++ evs') cid c' /\ c_unl S c' = true.
Proof.
  intros S SO g HC evs evs' cid. revert evs. induction evs' as [|ev evs' IH]; intros evs c Hc Hu Hn.
  - rewrite app_nil_r. eauto.
  - unfold no_restart in Hn. cbn in Hn. apply orb_false_elim in Hn as [Hn1 Hn2].
    rewrite (cons_middle ev evs evs'), app_assoc.
    destruct (step_conn S SO g HC evs ev cid c Hc Hn1) as (c' & Hc' & _ & _ & _ & H).
    apply (IH _ c' Hc'); [|done]. destruct H as [H|[H _]]; congruence.
Qed.
Print Assumptions C03_stays_unlocked.

(** Two connections; unlocking one leaves the other locked. *)
Example C03_ex :
  let evs := EvConnect 2 demo_rx demo_tx :: demo_open 1 in
  (exists c, conn_at sql_store (demo_env false) evs 1 c /\ c_unl _ c = true)
  /\ (exists c, conn_at sql_store (demo_env false) evs 2 c /\ c_unl _ c = false).
Proof.
  split.
  - apply checked with (f := fun c => c_unl _ c). by vm_compute.
  - destruct (checked sql_store (demo_env false) (EvConnect 2 demo_rx demo_tx :: demo_open 1) 2
      (fun c => negb (c_unl _ c))) as (c & H1 & H2); [by vm_compute|].
    exists c. split; [exact H1|by apply negb_true_iff in H2].
Qed.

(** ** C04: every request gets exactly one answer, to itself *)

(** Whatever is sent belongs to a message received on the same connection, carries its
    id and is an error or of the response kind that belongs to it. *)
Theorem C04_answer_to_itself :
  forall S (SO : StoreOk S) g, CryptoOk (g_crypto g) ->
  forall evs cid c tid m,
    conn_at S g evs cid c -> sent S c tid m ->
    exists rq, received S c tid rq /\ msg_id m = msg_id (rq_msg S rq)
      /\ (is_error m = true \/ answer_kind (rq_msg S rq) m = true).
Proof.
  intros S SO g HC evs cid c tid m Hc Hm.
  destruct (sent_received S SO g HC evs cid c tid m Hc Hm) as [rq Hq]. exists rq. split; [done|].
  destruct (answer_meaning S SO g HC evs cid c tid rq m Hc Hq Hm) as (L0 & w & M).
  destruct (me_good _ _ _ _ _ _ _ _ M) as [Hr|(e & -> & _)].
  - destruct (right_kind g _ _ _ _ _ _ Hr) as (? & ? & ?). auto.
  - split; [done|]. by left.
Qed.
Print Assumptions C04_answer_to_itself.

(** The transport takes at most one answer per request. *)
Theorem C04_at_most_one :
  forall S (SO : StoreOk S) g, CryptoOk (g_crypto g) ->
  forall evs cid c tid rq,
    conn_at S g evs cid c -> received S c tid rq ->
    length (List.filter snd (answers S c tid)) <= 1.
Proof.
  intros S SO g HC evs cid c tid rq Hc Hq.
  destruct (reach S SO g HC evs) as (L & _ & HA & _). specialize (HA _ _ Hc tid rq Hq).
  unfold ans_req in HA. destruct (c_thr S c !! tid) as [[p|e]|].
  - destruct HA as [_ ->]. cbn. lia.
  - destruct HA as [->|(m & -> & _)]; cbn; lia.
  - destruct HA as (pre & m & b & -> & _ & [->|(m1 & -> & _)]); destruct b; cbn; lia.
Qed.
Print Assumptions C04_at_most_one.

(** A request that has been dealt with, without outside failure, has exactly one
    answer, which the transport took. *)
Theorem C04_exactly_one :
  forall S (SO : StoreOk S) g, CryptoOk (g_crypto g) ->
  forall evs cid c tid rq,
    conn_at S g evs cid c -> received S c tid rq -> finished S c tid -> undisturbed S rq ->
    exists m, answers S c tid = [(m, true)].
Proof.
  intros S SO g HC evs cid c tid rq Hc Hq Hf Hu.
  destruct (reach S SO g HC evs) as (L & _ & HA & _). specialize (HA _ _ Hc tid rq Hq).
  unfold ans_req in HA. unfold finished in Hf. rewrite Hf in HA.
  unfold undisturbed in Hu. destruct HA as (pre & m & b & -> & Hb & [->|(m1 & _ & H)]); [|congruence].
  destruct b; [by eexists|]. specialize (Hb eq_refl). congruence.
Qed.
Print Assumptions C04_exactly_one.

(** Even when things failed, a request that has been dealt with has been answered or
    the transport refused the error message too. *)
Theorem C04_always_tried :
  forall S (SO : StoreOk S) g, CryptoOk (g_crypto g) ->
  forall evs cid c tid rq,
    conn_at S g evs cid c -> received S c tid rq -> finished S c tid ->
    exists pre m b, answers S c tid = pre ++ [(m, b)]
      /\ (b = false -> ~ undisturbed S rq)
      /\ (pre = [] \/ exists m1, pre = [(m1, false)]).
Proof.
  intros S SO g HC evs cid c tid rq Hc Hq Hf.
  destruct (reach S SO g HC evs) as (L & _ & HA & _). specialize (HA _ _ Hc tid rq Hq).
  unfold ans_req in HA. unfold finished in Hf. rewrite Hf in HA.
  destruct HA as (pre & m & b & -> & Hb & Hp). exists pre, m, b. split; [done|].
  unfold undisturbed. split; [intros E; rewrite (Hb E); done|].
  destruct Hp as [->|(m1 & -> & _)]; eauto.
Qed.
Print Assumptions C04_always_tried.

(** The handling of a request ends: fourteen steps of its own are enough, whatever
    happens in between. *)
Theorem C04_ends :
  forall S (SO : StoreOk S) g, CryptoOk (g_crypto g) ->
  forall evs evs' cid c tid rq,
    conn_at S g evs cid c -> received S c tid rq -> no_restart evs' ->
    14 <= length (List.filter (is_step cid tid) evs') ->
    exists c', conn_at S g (evs ++ evs') cid c' /\ finished S c' tid.
Proof.
  intros S SO g HC evs evs' cid c tid rq Hc Hq Hn Hlen.
  destruct (reach S SO g HC evs) as (L & HI & HA & _). specialize (HA _ _ Hc tid rq Hq).
  assert (HR : rank S c tid 14).
  { split; [by eapply lookup_lt_Some|]. unfold ans_req in HA.
    destruct (c_thr S c !! tid) as [[p|e]|]; [|lia|done].
    destruct HA as [(n & Hn1 & Hn2) _]. exists n. split; [done|]. unfold STEPS in Hn1. lia. }
  destruct (run_rank S SO g HC evs' (run S g evs) L cid c tid 14 HI Hc HR Hn) as (c' & Hc' & Hr').
  exists c'. unfold conn_at. rewrite run_app. split; [done|].
  destruct Hr' as [_ Hr']. unfold finished. destruct (c_thr S c' !! tid) as [[p|e]|]; [|lia|done].
  destruct Hr' as (n & _ & Hle). lia.
Qed.
Print Assumptions C04_ends.

(** Two requests handled at the same time, steps interleaved. *)
Definition ex_two : list event :=
  demo_open 1 ++ [EvReceive 1 (encode_api (ReqNewSeed (str "a") (str "t") None true));
                  EvReceive 1 (encode_api (ReqListEntries (str "b")))]
    ++ concat (repeat [EvStep 1 2 (fine x00); EvStep 1 1 (fine x0a)] 14).
Example C04_ex :
  exists c rq, conn_at sql_store (demo_env false) ex_two 1 c /\ received _ c 2 rq
    /\ finished _ c 2 /\ undisturbed _ rq /\ answers _ c 2 = [(ResListEntries (str "b") [], true)].
Proof.
  destruct (checked sql_store (demo_env false) ex_two 1
    (fun c => match c_reqs _ c !! 2, c_thr _ c !! 2, answers _ c 2 with
              | Some rq, None, [(ResListEntries i [], true)] =>
                  negb (rq_fail _ rq) && beq i (str "b")
              | _, _, _ => false end)) as (c & H1 & H2); [by vm_compute|].
  unfold received, finished, undisturbed.
  destruct (c_reqs _ c !! 2) as [rq|] eqn:Hq; [|discriminate H2]. exists c, rq.
  split; [exact H1|]. split; [exact Hq|]. clear H1.
  destruct (c_thr _ c !! 2); [discriminate H2|].
  destruct (answers _ c 2) as [|[m b] r]; [discriminate H2|].
  destruct m; try discriminate H2.
  match goal with l : list entry_info |- _ => destruct l; [|discriminate H2] end.
  destruct b; [|discriminate H2]. destruct r; [|discriminate H2].
  apply andb_prop in H2 as [H2 H3]. apply negb_true_iff in H2. apply beq_true in H3 as ->. done.
Qed.

(** ** C05: response messages are never accepted as requests *)

Theorem C05_responses_refused :
  forall S (SO : StoreOk S) g, CryptoOk (g_crypto g) ->
  forall evs cid c tid rq,
    conn_at S g evs cid c -> received S c tid rq -> is_request (rq_msg S rq) = false ->
    (forall m, sent S c tid m -> exists text, m = ResError (msg_id (rq_msg S rq)) text)
    /\ (forall o, (forall e, stored S g (evs ++ [EvStep cid tid o]) e <-> stored S g evs e)
         /\ exists c', conn_at S g (evs ++ [EvStep cid tid o]) cid c' /\ c_unl S c' = c_unl S c).
Proof.
  intros S SO g HC evs cid c tid rq Hc Hq Hr. split.
  - intros m Hm. destruct (answer_meaning S SO g HC evs cid c tid rq m Hc Hq Hm) as (L0 & w & M).
    destruct (me_good _ _ _ _ _ _ _ _ M) as [[_ H]|(e & -> & _)]; [|by eexists].
    destruct (rq_msg S rq); done.
  - intros o. split.
    + destruct (step_stored S SO g HC evs (EvStep cid tid o)) as (_ & _ & [H|[(e & _ & Ho & _)|H]]);
        [done| |done].
      exfalso. destruct Ho as [(cid' & tid' & o' & c' & rq' & L & [= <- <- <-] & Hc' & _ & Hq' & _ & Ha)
        |(d & os & ? & _)]; [|done].
      unfold conn_at, received in *. assert (c' = c) as -> by congruence.
      assert (rq' = rq) as -> by congruence. by destruct (rq_msg S rq).
    + destruct (step_conn S SO g HC evs (EvStep cid tid o) cid c Hc eq_refl)
        as (c' & Hc' & _ & _ & _ & H). exists c'. split; [done|].
      destruct H as [H|(_ & tid' & o' & rq' & id' & p' & [= <- <-] & Hq' & Hm' & Hp')]; [done|].
      unfold received in *. assert (rq' = rq) as -> by congruence. by rewrite Hm' in Hr.
Qed.
Print Assumptions C05_responses_refused.

Example C05_ex :
  replies sql_store (demo_env false) (EvConnect 1 demo_rx demo_tx :: ask 1 0 (ResUnlock (str "a")) x00) 1
    = [(0, ResError (str "a") (str "invalid request"), true)].
Proof. by vm_compute. Qed.

(** ** C06: tags and public keys stay unique *)

(** What the store lists never repeats a tag or a public key. *)
Theorem C06_unique :
  forall S (SO : StoreOk S) g, CryptoOk (g_crypto g) ->
  forall evs l,
    st_list S (store_at S g evs) = Ok l ->
    NoDup (map info_tag l) /\ NoDup (omap info_ed l) /\ NoDup (omap info_x l).
Proof.
  intros S SO g HC evs l Hl.
  destruct (reach S SO g HC evs) as (L & ((Hr & Hd & _) & _) & _ & HL).
  destruct (st_list_ok S SO _ _ Hr) as (l' & Hl' & Hp). unfold store_at in Hl.
  assert (l' = l) as -> by congruence. rewrite Hp. clear -Hd.
  assert (H : NoDup (map info_tag (map info_of L)) /\ NoDup (omap info_ed (map info_of L))
    /\ NoDup (omap info_x (map info_of L))).
  { induction L as [|e L IH]; [repeat split; constructor|].
    destruct Hd as [H1 H2]. destruct (IH H2) as (I1 & I2 & I3). split; [|split].
    - cbn. constructor; [|done]. intros Hin. apply elem_of_list_fmap in Hin as (i & Hi & Hin).
      apply elem_of_list_fmap in Hin as (e' & -> & Hin).
      apply (H1 e' (ByTag (tag_of e)) Hin); [apply keys_tag|].
      replace (tag_of e) with (tag_of e') by (by destruct e, e'). apply keys_tag.
    - cbn. destruct (info_ed (info_of e)) as [pk|] eqn:E; [|done]. constructor; [|done].
      intros Hin. apply elem_of_list_omap in Hin as (i & Hin & Hi).
      apply elem_of_list_fmap in Hin as (e' & -> & Hin).
      apply (H1 e' (ByEd pk) Hin).
      + destruct e; cbn in E; try discriminate E; injection E as <-; by right; left.
      + destruct e'; cbn in Hi; try discriminate Hi; injection Hi as <-; by right; left.
    - cbn. destruct (info_x (info_of e)) as [pk|] eqn:E; [|done]. constructor; [|done].
      intros Hin. apply elem_of_list_omap in Hin as (i & Hin & Hi).
      apply elem_of_list_fmap in Hin as (e' & -> & Hin).
      apply (H1 e' (ByX pk) Hin).
      + destruct e; cbn in E; try discriminate E; injection E as <-; by right; right; left.
      + destruct e'; cbn in Hi; try discriminate Hi; injection Hi as <-; by right; right; left. }
  destruct H as (H1 & H2 & H3). split; [done|]. split; done.
Qed.
Print Assumptions C06_unique.

(** A second seed under the same tag is refused, and so is the same seed under another. *)
Definition ex_twice : list event :=
  demo_open 1 ++ ask 1 1 (ReqNewSeed (str "a") (str "t") None true) x0a
    ++ ask 1 2 (ReqNewSeed (str "b") (str "t") None true) x0b
    ++ ask 1 3 (ReqNewSeed (str "c") (str "t2") None true) x0a
    ++ ask 1 4 (ReqNewCert (str "d") (str "c")) x00.
Example C06_ex :
  (exists l, st_list sql_store (store_at sql_store (demo_env false) ex_twice) = Ok l /\ length l = 2)
  /\ map (fun x => is_error (snd (fst x))) (replies sql_store (demo_env false) ex_twice 1)
     = [false; false; true; true; false].
Proof. split; [eexists; split; by vm_compute|by vm_compute]. Qed.

(** ** C07: the keystore is append-only *)

(** One event adds at most one entry and takes none away, unless it ends the process
    and the store is not persistent. *)
Theorem C07_append_only :
  forall S (SO : StoreOk S) g, CryptoOk (g_crypto g) ->
  forall evs ev,
    (forall e, stored S g evs e -> lasting S SO [ev] -> stored S g (evs ++ [ev]) e)
    /\ (is_restart ev = false ->
        (forall e, stored S g (evs ++ [ev]) e <-> stored S g evs e)
        \/ exists e, ~ stored S g evs e
             /\ forall e', stored S g (evs ++ [ev]) e' <-> stored S g evs e' \/ e' = e).
Proof.
  intros S SO g HC evs ev. destruct (step_stored S SO g HC evs ev) as (H1 & _ & H3).
  split; [done|]. intros Hr. destruct H3 as [H|[(e & Hn & _ & H)| ->]]; [by left|right|done].
  by exists e.
Qed.
Print Assumptions C07_append_only.

Theorem C07_stored_for_good :
  forall S (SO : StoreOk S) g, CryptoOk (g_crypto g) ->
  forall evs evs' e,
    stored S g evs e -> lasting S SO evs' -> stored S g (evs ++ evs') e.
Proof. intros S SO g HC evs evs' e. by apply stored_lasts. Qed.
Print Assumptions C07_stored_for_good.

(** Whatever is in the keystore was asked for: by a request of an unlocked
    connection, or by a direct call of the store. *)
Theorem C07_asked_for :
  forall S (SO : StoreOk S) g, CryptoOk (g_crypto g) ->
  forall evs e,
    stored S g evs e ->
    exists pre ev post, evs = pre ++ ev :: post /\
      ((exists cid tid o c rq L, ev = EvStep cid tid o /\ conn_at S g pre cid c /\ c_unl S c = true
         /\ received S c tid rq /\ (forall e', e' ∈ L <-> stored S g pre e')
         /\ asked g (c_dec S c) (rq_msg S rq) L e)
       \/ (exists d os, ev = EvDirect d os /\ direct_asked g d e)).
Proof. intros S SO g HC evs e He. by apply (provenance S SO g HC). Qed.
Print Assumptions C07_asked_for.

(** The two entries of [ex_twice] survive a restart and further requests. *)
Example C07_ex :
  let evs' := EvRestart :: demo_open 2 ++ ask 2 1 (ReqNewSeed (str "x") (str "y") None true) x0d in
  lasting sql_store sql_store_ok evs'
  /\ length (store_at sql_store (demo_env false) ex_twice) = 2
  /\ length (store_at sql_store (demo_env false) (ex_twice ++ evs')) = 3
  /\ exists e, stored sql_store (demo_env false) ex_twice e /\ tag_of e = str "c".
Proof.
  split; [by left|]. split; [by vm_compute|]. split; [by vm_compute|].
  eexists (ECert (str "c") _ _). split; by vm_compute.
Qed.

(** ** C08: a stored entry can be found under its tag and both public keys *)

Theorem C08_found :
  forall S (SO : StoreOk S) g, CryptoOk (g_crypto g) ->
  forall evs evs' e,
    stored S g evs e -> lasting S SO evs' ->
    st_get S (store_at S g (evs ++ evs')) (ByTag (tag_of e)) = Ok e
    /\ (forall pk, ed_of e = Some pk -> st_get S (store_at S g (evs ++ evs')) (ByEd pk) = Ok e)
    /\ (forall pk, x_of e = Some pk -> st_get S (store_at S g (evs ++ evs')) (ByX pk) = Ok e).
Proof.
  intros S SO g HC evs evs' e He Hl. pose proof (stored_lasts S SO g HC evs' evs e He Hl) as Hs.
  unfold ed_of, x_of. split; [done|]. split; intros pk Hpk;
    (destruct (seed_info_of e) as [si|] eqn:E; [|done]); injection Hpk as <-;
    apply (lookup_stored S SO g HC); (split; [done|]).
  - by apply keys_ed.
  - by apply keys_x.
Qed.
Print Assumptions C08_found.

(** Nothing else is ever found. *)
Theorem C08_nothing_else :
  forall S (SO : StoreOk S) g, CryptoOk (g_crypto g) ->
  forall evs k e,
    st_get S (store_at S g evs) k = Ok e ->
    stored S g evs e
    /\ match k with
       | ByTag t => tag_of e = t
       | ByEd pk => ed_of e = Some pk
       | ByX pk => x_of e = Some pk
       end.
Proof.
  intros S SO g HC evs k e H. apply (lookup_stored S SO g HC) in H as [H1 H2]. split; [done|].
  unfold ed_of, x_of. apply keys_cases in H2 as [->|(si & E & [->| ->])]; [done|by rewrite E..].
Qed.
Print Assumptions C08_nothing_else.

(** What the server says it stored is stored. *)
Theorem C08_announced_is_stored :
  forall S (SO : StoreOk S) g, CryptoOk (g_crypto g) ->
  forall evs cid c tid rq m i,
    conn_at S g evs cid c -> received S c tid rq -> sent S c tid m ->
    announces (rq_msg S rq) m = Some i ->
    exists e, stored S g evs e /\ info_of e = i.
Proof.
  intros S SO g HC evs cid c tid rq m i Hc Hq Hm Hi.
  destruct (answer_meaning S SO g HC evs cid c tid rq m Hc Hq Hm) as (L0 & w & M).
  assert (Hh : forall e t d si seed, holds_seed g (c_dec S c) e t d si seed ->
    info_of e = match d with None => ISeed t si | Some _ => IDeep t si end).
  { intros e t d si seed H. destruct d; [destruct H as (? & ? & ? & _ & -> & _)|destruct H as (? & -> & _)]; done. }
  destruct (me_good _ _ _ _ _ _ _ _ M) as [[Hid H]|(e & -> & _)].
  2:{ by destruct (rq_msg S rq). }
  destruct (rq_msg S rq), m; try done; cbn in Hi; injection Hi as <-.
  - destruct H as (_ & -> & _ & e & seed & He & H). exists e.
    split; [by apply (me_now _ _ _ _ _ _ _ _ M)|by eapply Hh].
  - destruct H as (_ & -> & _ & e & seed & e2 & seed2 & _ & _ & _ & _ & He & H). exists e.
    split; [by apply (me_now _ _ _ _ _ _ _ _ M)|by eapply Hh].
  - destruct H as (_ & e & seed & e2 & _ & _ & _ & He & _ & H). exists e2.
    split; [by apply (me_now _ _ _ _ _ _ _ _ M)|by eapply Hh].
  - destruct H as (_ & -> & gc & sec & _ & -> & He & _). eexists.
    split; [by apply (me_now _ _ _ _ _ _ _ _ M)|done].
Qed.
Print Assumptions C08_announced_is_stored.

(** Asking for the entry under a tag: if it was there when the request came, its public
    information is the answer; an answer other than an error names a stored entry. *)
Theorem C08_get_entry :
  forall S (SO : StoreOk S) g, CryptoOk (g_crypto g) ->
  forall evs cid c tid rq m id t,
    conn_at S g evs cid c -> received S c tid rq -> sent S c tid m ->
    rq_msg S rq = ReqGetEntry id t ->
    (forall e, held_before S rq e -> tag_of e = t -> came_unlocked S rq -> undisturbed S rq ->
       m = ResGetEntry id (info_of e))
    /\ (forall i, m = ResGetEntry id i ->
         exists e, stored S g evs e /\ tag_of e = t /\ i = info_of e).
Proof.
  intros S SO g HC evs cid c tid rq m id t Hc Hq Hm Hrq.
  destruct (answer_meaning S SO g HC evs cid c tid rq m Hc Hq Hm) as (L0 & w & M).
  pose proof (me_good _ _ _ _ _ _ _ _ M) as HG. rewrite Hrq in HG.
  assert (Hright : right_answer g (c_enc S c) (c_dec S c) L0 (ReqGetEntry id t) w m ->
    exists e, stored S g evs e /\ tag_of e = t /\ m = ResGetEntry id (info_of e)).
  { intros [Hid H]. destruct m; try done. cbn in Hid. subst id0.
    destruct H as (_ & e & He & Ht & ->). exists e. split; [by apply (me_now _ _ _ _ _ _ _ _ M)|done]. }
  split.
  - intros e He Ht Hu Hd. destruct HG as [Hr|(er & -> & [Hf|[[_ Hf]|Hf]])].
    + destruct (Hright Hr) as (e' & He' & Ht' & ->).
      pose proof (before_now S SO g HC evs cid c tid rq e Hc Hq He) as Hs.
      assert (e' = e) as ->; [|done].
      apply (stored_unique S SO g HC evs e' e (ByTag t) He' Hs); [rewrite <- Ht'|rewrite <- Ht]; apply keys_tag.
    + apply (me_fail _ _ _ _ _ _ _ _ M) in Hf. unfold undisturbed in Hd. congruence.
    + unfold came_unlocked in Hu. congruence.
    + exfalso. apply (Hf e); [|done]. by apply (me_before _ _ _ _ _ _ _ _ M).
  - intros i ->. destruct HG as [Hr|(er & ? & _)]; [|done].
    destruct (Hright Hr) as (e & He & Ht & [= ->]). by exists e.
Qed.
Print Assumptions C08_get_entry.

Example C08_ex :
  exists e, stored sql_store (demo_env false) ex_twice e
    /\ ed_of e = Some (fill 32 x0a) /\ x_of e = Some (fill 32 x0a)
    /\ st_get sql_store (store_at sql_store (demo_env false) (ex_twice ++ [EvRestart])) (ByEd (fill 32 x0a)) = Ok e.
Proof.
  eexists (ESeed (str "t") _ _). split; [by vm_compute|]. split; [by vm_compute|].
  split; by vm_compute.
Qed.

(** ** C09: listing is complete and public *)

(** The store lists exactly the stored entries, each once. *)
Theorem C09_store_list :
  forall S (SO : StoreOk S) g, CryptoOk (g_crypto g) ->
  forall evs, exists l,
    st_list S (store_at S g evs) = Ok l
    /\ NoDup (map info_tag l)
    /\ forall i, i ∈ l <-> exists e, stored S g evs e /\ info_of e = i.
Proof.
  intros S SO g HC evs.
  destruct (reach S SO g HC evs) as (L & ((Hr & Hd & _) & _) & _ & HL).
  destruct (st_list_ok S SO _ _ Hr) as (l & Hl & Hp). exists l. split; [done|].
  split; [by eapply C06_unique|]. intros i. rewrite Hp. rewrite elem_of_list_fmap. split.
  - intros (e & -> & He). exists e. split; [by apply HL|done].
  - intros (e & He & <-). exists e. split; [done|by apply HL].
Qed.
Print Assumptions C09_store_list.

(** The answer to a list request has every entry that was there when the request came,
    only entries that are there, and no tag twice. *)
Theorem C09_list_answer :
  forall S (SO : StoreOk S) g, CryptoOk (g_crypto g) ->
  forall evs cid c tid rq id l,
    conn_at S g evs cid c -> received S c tid rq -> rq_msg S rq = ReqListEntries id ->
    sent S c tid (ResListEntries id l) ->
    (forall e, held_before S rq e -> info_of e ∈ l)
    /\ (forall i, i ∈ l -> exists e, stored S g evs e /\ info_of e = i)
    /\ NoDup (map info_tag l).
Proof.
  intros S SO g HC evs cid c tid rq id l Hc Hq Hrq Hm.
  destruct (answer_meaning S SO g HC evs cid c tid rq _ Hc Hq Hm) as (L0 & w & M).
  pose proof (me_good _ _ _ _ _ _ _ _ M) as HG. rewrite Hrq in HG.
  destruct HG as [[_ H]|(er & ? & _)]; [|done]. destruct H as (_ & L1 & H1 & H2 & H3).
  split; [|split].
  - intros e He. rewrite H3. apply elem_of_list_fmap. exists e. split; [done|].
    eapply prefix_in; [exact H1|]. by apply (me_before _ _ _ _ _ _ _ _ M).
  - intros i. rewrite H3. intros (e & -> & He)%elem_of_list_fmap. exists e. split; [|done].
    apply (me_now _ _ _ _ _ _ _ _ M). by eapply prefix_in.
  - rewrite H3. pose proof (me_distinct _ _ _ _ _ _ _ _ M) as Hd.
    destruct H2 as [k Hk]. rewrite Hk in Hd. clear -Hd.
    induction L1 as [|e L IH]; [constructor|]. destruct Hd as [H1 H2].
    cbn. constructor; [|by apply IH]. intros Hin. apply elem_of_list_fmap in Hin as (i & Hi & Hin).
    apply elem_of_list_fmap in Hin as (e' & -> & Hin).
    apply (H1 e' (ByTag (tag_of e))); [apply elem_of_app; by left|apply keys_tag|].
    replace (tag_of e) with (tag_of e') by (by destruct e, e'). apply keys_tag.
Qed.
Print Assumptions C09_list_answer.

(** A list request on an unlocked connection is answered with a list. *)
Theorem C09_list_succeeds :
  forall S (SO : StoreOk S) g, CryptoOk (g_crypto g) ->
  forall evs cid c tid rq m id,
    conn_at S g evs cid c -> received S c tid rq -> sent S c tid m ->
    rq_msg S rq = ReqListEntries id -> came_unlocked S rq -> undisturbed S rq ->
    exists l, m = ResListEntries id l.
Proof.
  intros S SO g HC evs cid c tid rq m id Hc Hq Hm Hrq Hu Hd.
  destruct (answer_meaning S SO g HC evs cid c tid rq m Hc Hq Hm) as (L0 & w & M).
  pose proof (me_good _ _ _ _ _ _ _ _ M) as HG. rewrite Hrq in HG.
  destruct HG as [[Hid H]|(er & -> & [Hf|[[_ Hf]|Hf]])].
  - destruct m; try done. cbn in Hid. subst. by eexists.
  - apply (me_fail _ _ _ _ _ _ _ _ M) in Hf. unfold undisturbed in Hd. congruence.
  - unfold came_unlocked in Hu. congruence.
  - done.
Qed.
Print Assumptions C09_list_succeeds.

(** Two keystores with the same public contents list identically, up to order,
    whatever their secrets, backends and histories. *)
Theorem C09_only_public :
  forall S1 (SO1 : StoreOk S1) g1, CryptoOk (g_crypto g1) ->
  forall S2 (SO2 : StoreOk S2) g2, CryptoOk (g_crypto g2) ->
  forall evs1 evs2,
    (forall i, (exists e, stored S1 g1 evs1 e /\ info_of e = i)
               <-> (exists e, stored S2 g2 evs2 e /\ info_of e = i)) ->
    exists l1 l2, st_list S1 (store_at S1 g1 evs1) = Ok l1
      /\ st_list S2 (store_at S2 g2 evs2) = Ok l2 /\ l1 ≡ₚ l2.
Proof.
  intros S1 SO1 g1 HC1 S2 SO2 g2 HC2 evs1 evs2 H.
  destruct (C09_store_list S1 SO1 g1 HC1 evs1) as (l1 & E1 & N1 & F1).
  destruct (C09_store_list S2 SO2 g2 HC2 evs2) as (l2 & E2 & N2 & F2).
  exists l1, l2. split; [done|]. split; [done|].
  apply NoDup_Permutation; [by eapply NoDup_fmap_1|by eapply NoDup_fmap_1|].
  intros i. by rewrite F1, F2.
Qed.
Print Assumptions C09_only_public.

Example C09_ex :
  exists si, replies sql_store (demo_env false)
    (demo_open 1 ++ ask 1 1 (ReqNewSeed (str "a") (str "t") None true) x0a
       ++ ask 1 2 (ReqListEntries (str "b")) x00) 1
    = [(0, ResUnlock (str "u"), true); (1, ResNewSeed (str "a") (str "t") si, true);
       (2, ResListEntries (str "b") [ISeed (str "t") si], true)].
Proof. eexists. by vm_compute. Qed.

(** ** C11: the key caches are invisible *)

(** What a cache returns is what the store holds, with the secrets one gets by
    decrypting it. *)
Theorem C11_cache_is_store :
  forall S (SO : StoreOk S) g, CryptoOk (g_crypto g) ->
  forall evs q f,
    fst (cache_get S (s_sh S (run S g evs)) q) = Some f ->
    st_get S (store_at S g evs) q = Ok (f_entry f)
    /\ match f_entry f with
       | ESeed _ si sec =>
           exists seed, sec_open (g_crypto g) 32 (g_bidi g) sec = Ok seed
             /\ f_seed f = Some seed /\ f_exportable f = si_exportable si
             /\ f_ed_sk f = Some (sign_sk (g_crypto g) seed)
             /\ f_x_sk f = Some (box_sk (g_crypto g) seed)
       | _ => f_seed f = None /\ f_exportable f = false /\ f_ed_sk f = None /\ f_x_sk f = None
       end.
Proof.
  intros S SO g HC evs q f Hf.
  destruct (reach S SO g HC evs) as (L & ((Hr & Hd & Hst & Hca) & _) & _ & HL).
  assert (H : f_entry f ∈ L /\ q ∈ keys_of (f_entry f) /\ gen_full g (f_entry f) = Ok f).
  { destruct Hca as (A1 & A2 & A3). unfold cache_get in Hf. destruct q as [t|pk|pk].
    - destruct (lru_get t (sh_tag S (s_sh S (run S g evs)))) as [o l] eqn:El. cbn in Hf. subst o.
      by apply (proj2 (cache_ok_get g _ _ _ _ _ _ A1 El)).
    - destruct (lru_get pk (sh_ed S (s_sh S (run S g evs)))) as [o l] eqn:El. cbn in Hf. subst o.
      by apply (proj2 (cache_ok_get g _ _ _ _ _ _ A2 El)).
    - destruct (lru_get pk (sh_x S (s_sh S (run S g evs)))) as [o l] eqn:El. cbn in Hf. subst o.
      by apply (proj2 (cache_ok_get g _ _ _ _ _ _ A3 El)). }
  destruct H as (H1 & H2 & H3). split.
  - apply (lookup_stored S SO g HC). split; [by apply HL|done].
  - rewrite Forall_forall in Hst. destruct (gen_full_stored g (f_entry f) (Hst _ H1)) as (f' & E & _ & Hok).
    assert (f' = f) as -> by congruence. unfold full_ok in Hok.
    destruct (f_entry f) as [t si sec|t si salt o m sec|t ci sec]; [|done|done].
    destruct Hok as (seed & (Ho & _) & Hrest). by exists seed.
Qed.
Print Assumptions C11_cache_is_store.

(** The program [p] run alone, nothing failing, for at most [n] effects. *)
Fixpoint alone (S : store_impl) (g : genv) {A} (n : nat) (sh : shared S) (p : prog A) : option A :=
  match p, n with
  | Ret a, _ => Some a
  | _, O => None
  | _, Datatypes.S n =>
      let r := step1 S g sh true p (Oracle [] false None (Err []) true) in
      match r_prog S r with Some p' => alone S g n (r_sh S r) p' | None => None end
  end.

(** The same server with nothing in its caches. *)
Definition without_caches (S : store_impl) (sh : shared S) : shared S :=
  Shared S (sh_store S sh) [] [] [] (sh_fb S sh).

(** Looking up a key gives the same with the caches as they are and with empty
    ones. *)
Theorem C11_caches_invisible :
  forall S (SO : StoreOk S) g, CryptoOk (g_crypto g) ->
  forall evs q,
    let sh := s_sh S (run S g evs) in
    exists r, alone S g 3 sh (get_full g q) = Some r
      /\ alone S g 3 (without_caches S sh) (get_full g q) = Some r.
Proof.
  intros S SO g HC evs q sh.
  assert (Hempty : forall sh', sh_store S sh' = sh_store S sh ->
    fst (cache_get S sh' q) = None ->
    alone S g 3 sh' (get_full g q) = Some (rbind (st_get S (store_at S g evs) q) (gen_full g))).
  { intros sh' Hs Hn. unfold get_full, bindr. cbn [alone step1].
    assert (Hs' : sh_store S (snd (cache_get S sh' q)) = sh_store S sh).
    { rewrite <- Hs. destruct q; cbn; by destruct (lru_get _ _). }
    destruct (cache_get S sh' q) as [o sh2]. cbn in Hn, Hs'. subst o. cbn. rewrite Hs'.
    unfold store_at. fold sh. destruct (st_get S (sh_store S sh) q) as [e|er]; cbn [orelse rbind]; [|done].
    by destruct (gen_full g e) as [f|er]. }
  eexists. split; [|apply Hempty; [done|by destruct q]].
  destruct (fst (cache_get S sh q)) as [f|] eqn:Ec; [|by apply Hempty].
  destruct (C11_cache_is_store S SO g HC evs q f Ec) as [Hg _].
  destruct (reach S SO g HC evs) as (L & ((Hr & Hd & Hst & Hca) & _) & _ & HL).
  assert (Hf : gen_full g (f_entry f) = Ok f).
  { fold sh in Hca. destruct Hca as (A1 & A2 & A3). unfold cache_get in Ec. destruct q as [t|pk|pk].
    - destruct (lru_get t (sh_tag S sh)) as [o l] eqn:El. cbn in Ec. subst o.
      by apply (proj2 (cache_ok_get g _ _ _ _ _ _ A1 El)).
    - destruct (lru_get pk (sh_ed S sh)) as [o l] eqn:El. cbn in Ec. subst o.
      by apply (proj2 (cache_ok_get g _ _ _ _ _ _ A2 El)).
    - destruct (lru_get pk (sh_x S sh)) as [o l] eqn:El. cbn in Ec. subst o.
      by apply (proj2 (cache_ok_get g _ _ _ _ _ _ A3 El)). }
  rewrite Hg. cbn [rbind]. rewrite Hf. unfold get_full. cbn [alone step1].
  destruct (cache_get S sh q) as [o sh2]. cbn in Ec. subst o. done.
Qed.
Print Assumptions C11_caches_invisible.

(** ** C12: deep-locked secrets are never kept decrypted; caches are bounded *)

Theorem C12_caches :
  forall S (SO : StoreOk S) g, CryptoOk (g_crypto g) ->
  forall evs cache,
    let sh := s_sh S (run S g evs) in
    cache = sh_tag S sh \/ cache = sh_ed S sh \/ cache = sh_x S sh ->
    length cache <= 128
    /\ forall k f, (k, f) ∈ cache -> is_deep (f_entry f) = true ->
         f_seed f = None /\ f_ed_sk f = None /\ f_x_sk f = None.
Proof.
  intros S SO g HC evs cache sh Hcache.
  destruct (reach S SO g HC evs) as (L & ((Hr & Hd & Hst & Hca) & _) & _ & HL).
  fold sh in Hca. destruct Hca as (A1 & A2 & A3).
  assert (H : exists mk, cache_ok g L mk cache).
  { destruct Hcache as [->|[->| ->]]; by eexists. }
  destruct H as (mk & H1 & H2). split; [exact H1|]. intros k f Hk Hdeep.
  destruct (H2 k f Hk) as (_ & _ & Hf). destruct (f_entry f); try done. cbn in Hf.
  by injection Hf as <-.
Qed.
Print Assumptions C12_caches.

(** A deep-locked seed and a plain one, both looked up: the first is cached without its
    secrets, the second with. *)
Definition ex_deep : list event :=
  demo_open 1
    ++ ask 1 1 (ReqNewSeed (str "a") (str "deep") (Some (Dlp 1 1 (demo_sec (fill 64 x44)))) true) x0a
    ++ ask 1 2 (ReqNewSeed (str "b") (str "plain") None true) x0b
    ++ ask 1 3 (ReqGetEntry (str "c") (str "deep")) x00
    ++ ask 1 4 (ReqSign (str "d") (fill 32 x0a) (Some (demo_sec (fill 64 x44))) (str "hi")) x00
    ++ ask 1 5 (ReqSign (str "e") (fill 32 x0b) None (str "hi")) x00.
Example C12_ex :
  map (fun kf => f_seed (snd kf)) (sh_tag _ (s_sh _ (run sql_store (demo_env false) ex_deep)))
    = [Some (fill 32 x0b); None]
  /\ map (fun x => is_error (snd (fst x))) (replies sql_store (demo_env false) ex_deep 1)
     = [false; false; false; false; false; false].
Proof. split; by vm_compute. Qed.

(** Looking up a cached and an uncached key. *)
Example C11_ex :
  (exists f, fst (cache_get _ (s_sh _ (run sql_store (demo_env false) ex_deep)) (ByEd (fill 32 x0b))) = Some f)
  /\ fst (cache_get _ (s_sh _ (run sql_store (demo_env false) ex_deep)) (ByX (fill 32 x0a))) = None.
Proof. split; [eexists|]; by vm_compute. Qed.
