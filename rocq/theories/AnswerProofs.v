(** * AnswerProofs: every request is answered, once *)

From Verif Require Import Base Utf8 Crypto Types Codec CodecProofs CodecProofs2 Secret Store StoreProofs
  Lru Server System ServerSpec ServerVocab ServerProofs ServerProofs2 SystemProofs.

(** A program that ends within [n] effects, sends at most one message, and does
    so last. *)
Fixpoint shape (n : nat) (p : prog (res unit)) {struct p} : Prop :=
  match p with
  | Ret r => is_ok r = false
  | Send m k => forall r, k r = Ret r
  | Crash => True
  | LoadUnlocked k => match n with O => False | S n => forall x, shape n (k x) end
  | SetUnlocked k => match n with O => False | S n => shape n k end
  | Rand _ k => match n with O => False | S n => forall x, shape n (k x) end
  | StWrite _ k => match n with O => False | S n => forall x, shape n (k x) end
  | StList k => match n with O => False | S n => forall x, shape n (k x) end
  | StGet _ k => match n with O => False | S n => forall x, shape n (k x) end
  | CacheGet _ k => match n with O => False | S n => forall x, shape n (k x) end
  | CachePut _ k => match n with O => False | S n => shape n k end
  | CertGen k => match n with O => False | S n => forall x, shape n (k x) end
  | AskFallback _ _ _ k => match n with O => False | S n => forall x, shape n (k x) end
  end.

(** Enough for every handler. *)
Definition STEPS : nat := 12.

Lemma shape_dispatch g enc dec a : shape STEPS (dispatch g enc dec a).
Proof.
  unfold STEPS.
  destruct a; cbn [dispatch];
    try exact eq_refl;
    unfold h_hello, h_unlock, h_get_entry, h_list, h_new_seed, h_derive, h_export, h_import,
      h_sign, h_box, h_box_open, h_box_sign, h_box_sign_open, h_new_cert, h_cert_key, h_sbox,
      h_sbox_open, check_unlocked, store_seed, new_seed, insert_seed, new_deep_locked_seed,
      insert_deep_locked_seed, new_wka_tls_cert, get_full, rand, send, fail, bindr;
    repeat (cbn [shape bind orelse];
      lazymatch goal with
      | |- forall _, _ => intros ?
      | |- is_ok (Err _) = false => exact eq_refl
      | |- True => exact I
      | |- Ret ?r = Ret ?r => exact eq_refl
      | |- shape _ (bind (match ?x with _ => _ end) _) => destruct x
      | |- shape _ (bind (orelse _ ?x) _) => destruct x
      | |- shape _ (orelse _ ?x) => destruct x
      | |- shape _ (match ?x with _ => _ end) => destruct x
      | |- shape _ (bind (bind (match ?x with _ => _ end) _) _) => destruct x
      | |- shape _ (bind (bind (orelse _ ?x) _) _) => destruct x
      end).
Qed.

Section Answers.
  Variable S : store_impl.
  Variable SO : StoreOk S.
  Variable g : genv.
  Hypothesis HC : CryptoOk (g_crypto g).

  Definition answered (rq : request S) (l : list (api * bool)) : Prop :=
    exists pre m b, l = pre ++ [(m, b)] /\ (b = false -> rq_fail S rq = true)
      /\ (pre = [] \/ exists m1, pre = [(m1, false)] /\ rq_fail S rq = true).

  Definition ans_req (c : conn S) (tid : nat) (rq : request S) : Prop :=
    match c_thr S c !! tid with
    | Some (Running p) => (exists n, n <= STEPS /\ shape n p) /\ answers S c tid = []
    | Some (Failed e) =>
        answers S c tid = [] \/ exists m, answers S c tid = [(m, false)] /\ rq_fail S rq = true
    | None => answered rq (answers S c tid)
    end.

  Definition ans_conn (c : conn S) : Prop :=
    forall tid rq, c_reqs S c !! tid = Some rq -> ans_req c tid rq.

  Lemma answers_add c tid out tid' :
    omap (fun x => match x with (t, m, b) => if Nat.eqb t tid' then Some (m, b) else None end)
      (log_add S c tid out) =
    answers S c tid' ++ (if Nat.eqb tid tid' then match out with Some x => [x] | None => [] end else []).
  Proof.
    unfold log_add, answers. destruct out as [[m b]|].
    - rewrite omap_app. cbn. by destruct (Nat.eqb tid tid').
    - destruct (Nat.eqb tid tid'); by rewrite app_nil_r.
  Qed.

  (** One effect of a program of that shape. *)
  Lemma step1_shape sh unl p o n : shape n p ->
    let r := step1 S g sh unl p o in
    match r_prog S r with
    | None => True
    | Some p' =>
        match r_out S r with
        | None => match p' with
                  | Ret x => is_ok x = false
                  | _ => exists n', n = Datatypes.S n' /\ shape n' p'
                  end
        | Some (m, b) =>
            r_fail S r = negb b /\ exists x, p' = Ret x /\ is_ok x = b
        end
    end.
  Proof.
    intros Hs.
    assert (Hk : forall n' q, n = Datatypes.S n' -> shape n' q ->
      match q with Ret x => is_ok x = false | _ => exists n', n = Datatypes.S n' /\ shape n' q end).
    { intros n' q -> Hq. destruct q; eauto. }
    destruct p as [a|k|k|m k|e k|k|q k|q k|f k|k|i pk d k|m k|]; cbn [step1]; cbn [shape] in Hs;
      try (destruct n as [|n']; [done|]).
    - cbn. done.
    - cbn. eapply Hk; [reflexivity|apply Hs].
    - cbn. eapply Hk; [reflexivity|apply Hs].
    - cbn. eapply Hk; [reflexivity|apply Hs].
    - destruct (o_fail o).
      + cbn. eapply Hk; [reflexivity|apply Hs].
      + destruct (st_write S (sh_store S sh) e). cbn. eapply Hk; [reflexivity|apply Hs].
    - destruct (o_fail o); cbn; (eapply Hk; [reflexivity|apply Hs]).
    - destruct (o_fail o); cbn; (eapply Hk; [reflexivity|apply Hs]).
    - destruct (cache_get S sh q). cbn. eapply Hk; [reflexivity|apply Hs].
    - cbn. eapply Hk; [reflexivity|apply Hs].
    - destruct (o_cert o) as [gc|]; [destruct (_ && _)|];
        cbn; (eapply Hk; [reflexivity|apply Hs]).
    - cbn. eapply Hk; [reflexivity|apply Hs].
    - cbn. split; [done|]. rewrite Hs. eexists. split; [reflexivity|].
      by destruct (fits m && o_send o).
    - done.
  Qed.

  Lemma step_thread_ans sh c tid o L : conn_ok S SO g L sh c -> shared_ok S SO g L sh ->
    ans_conn c -> ans_conn (snd (step_thread S g sh c tid o)).
  Proof.
    intros (H1 & H2 & H3 & H4) HS HA. unfold step_thread.
    destruct (c_thr S c !! tid) as [[p|e]|] eqn:Et; [| |done].
    - assert (Htid : tid < length (c_reqs S c)) by (apply H2; by eexists).
      apply lookup_lt_is_Some in Htid as [rq Hrq].
      destruct (H1 tid rq Hrq) as (L0 & A1 & A2 & A3 & A4 & A5 & A6 & A7).
      rewrite Et in A6. cbn [thread_ok] in A6.
      destruct (step1_ok S SO g (c_enc S c) (c_dec S c) L0 (rq_unl S rq) (rq_msg S rq)
        sh L (c_unl S c) (rq_fail S rq) p o _ HS A3 A4 A6)
        as (L' & p' & _ & _ & _ & _ & _ & B6 & _).
      pose proof (HA tid rq Hrq) as Hreq. unfold ans_req in Hreq. rewrite Et in Hreq.
      destruct Hreq as [(n & Hnle & Hn) Hans].
      pose proof (step1_shape sh (c_unl S c) p o n Hn) as Hsh. cbv zeta in Hsh.
      set (r := step1 S g sh (c_unl S c) p o) in *. rewrite B6 in *. cbn [snd].
      intros i ri. cbn. rewrite mark_fail_lookup.
      unfold ans_req, answers. cbn. rewrite answers_add, lookup_set_thr.
      destruct (decide (i = tid)) as [->|Hne].
      + rewrite Hrq, Nat.eqb_refl. cbn. intros [= <-]. rewrite Hans. cbn.
        destruct (r_out S r) as [[m b]|].
        * destruct Hsh as (Hf & x & -> & Hx). cbn [settle]. destruct x as [[]|er].
          { cbn in Hx. subst b. exists [], m, true. split; [done|]. split; [done|by left]. }
          { cbn in Hx. subst b. right. exists m. split; [done|]. cbn. rewrite Hf. apply orb_true_r. }
        * destruct p' as [[[]|er]| | | | | | | | | | | |]; cbn [settle]; try done;
            try (destruct Hsh as (n' & -> & Hsh); split; [exists n'; (split; [lia|exact Hsh])|reflexivity]).
          by left.
      + rewrite (proj2 (Nat.eqb_neq tid i)), app_nil_r by done.
        intros Hi. by apply HA.
    - destruct (c_reqs S c !! tid) as [rq|] eqn:Hrq; [|done]. cbn [snd].
      set (m := ResError _ e). set (b := fits m && o_send o). clearbody b m.
      intros i ri. cbn. rewrite mark_fail_lookup.
      unfold ans_req, answers. cbn. rewrite omap_app. cbn.
      destruct (decide (i = tid)) as [->|Hne].
      + rewrite Hrq, Nat.eqb_refl, lookup_delete. cbn. intros [= <-].
        pose proof (HA tid rq Hrq) as Hreq. unfold ans_req in Hreq. rewrite Et in Hreq.
        fold (answers S c tid). eexists (answers S c tid), m, b. split; [done|].
        cbn. split; [intros ->; apply orb_true_r|].
        destruct Hreq as [->|(m1 & -> & Hf)]; [by left|right].
        exists m1. split; [done|]. by rewrite Hf.
      + rewrite (proj2 (Nat.eqb_neq tid i)), app_nil_r by done.
        rewrite lookup_delete_ne by done. intros Hi. by apply HA.
  Qed.

  Lemma receive_ans L sh c raw : conn_ok S SO g L sh c ->
    ans_conn c -> ans_conn (receive S g sh c raw).
  Proof.
    intros (H1 & H2 & H3 & H4) HA. unfold receive.
    destruct (c_open S c && _); [|done].
    destruct (decode_api raw) as [a|]; [|exact HA].
    intros i ri Hi. unfold ans_req, answers. cbn in *. rewrite lookup_set_thr.
    fold (answers S c i).
    destruct (decide (i = length (c_reqs S c))) as [->|Hne].
    - assert (Hnil : answers S c (length (c_reqs S c)) = []).
      { unfold answers. assert (Hlt : forall x, x ∈ c_log S c -> x.1.1 < length (c_reqs S c)).
        { intros [[t m] b] Hin. cbn. by eapply H3. }
        revert Hlt. clear. induction (c_log S c) as [|[[t m] b] l IH]; intros Hlt; [done|].
        cbn. assert (Ht := Hlt (t, m, b) ltac:(by left)). cbn in Ht.
        rewrite (proj2 (Nat.eqb_neq t _)) by lia. apply IH. intros x Hx. apply Hlt. by right. }
      rewrite Hnil. pose proof (shape_dispatch g (c_enc S c) (c_dec S c) a) as Hsh.
      destruct (dispatch g (c_enc S c) (c_dec S c) a) as [[[]|er]| | | | | | | | | | | |] eqn:Ed;
        cbn [settle]; try (split; [exists STEPS; split; [apply Nat.le_refl|exact Hsh]|reflexivity]).
      + done.
      + by left.
    - assert (Hi' : c_reqs S c !! i = Some ri).
      { rewrite lookup_app_Some in Hi. destruct Hi as [Hi|[Hge Hi]]; [done|].
        exfalso. apply Hne. apply list_lookup_singleton_Some in Hi as [Hi _]. lia. }
      exact (HA i ri Hi').
  Qed.

  Lemma abort_ans c tid e : ans_conn c -> ans_conn (abort_thread S c tid e).
  Proof.
    intros HA. unfold abort_thread. destruct (c_thr S c !! tid) as [[p|e']|] eqn:Et; [|done..].
    intros i ri. cbn. rewrite mark_fail_lookup. unfold ans_req, answers. cbn.
    destruct (decide (i = tid)) as [->|Hne].
    - rewrite lookup_insert. destruct (c_reqs S c !! tid) as [rq|] eqn:Hrq; [|done].
      cbn. intros [= <-]. pose proof (HA tid rq Hrq) as Hreq. unfold ans_req in Hreq.
      rewrite Et in Hreq. left. apply Hreq.
    - rewrite lookup_insert_ne by done. intros Hi. by apply HA.
  Qed.

  Definition ans_inv (s : sys S) : Prop :=
    forall cid c, s_conns S s !! cid = Some c -> ans_conn c.

  Lemma step_ans L s ev : inv_at S SO g L s -> ans_inv s -> ans_inv (step S g s ev).
  Proof.
    intros (HS & HCs & HF) HA.
    assert (Hins : forall sh cid c', ans_conn c' ->
      ans_inv (Sys S sh (<[cid := c']> (s_conns S s)))).
    { intros sh cid c' Hc' i ci. cbn. destruct (decide (i = cid)) as [->|Hne].
      - rewrite lookup_insert. by intros [= <-].
      - rewrite lookup_insert_ne by done. apply HA. }
    destruct ev as [cid rx tx|cid raw|cid tid o|cid tid e|cid|d os|]; cbn [step].
    - destruct (s_conns S s !! cid); [done|]. destruct (_ && _); [|done]. apply Hins.
      intros i ri. cbn. by rewrite lookup_nil.
    - destruct (s_conns S s !! cid) as [c|] eqn:Ec; [|done]. apply Hins.
      eapply receive_ans; [by eapply HCs|by eapply HA].
    - destruct (s_conns S s !! cid) as [c|] eqn:Ec; [|done].
      pose proof (step_thread_ans (s_sh S s) c tid o L (HCs _ _ Ec) HS (HA _ _ Ec)) as H.
      destruct (step_thread S g (s_sh S s) c tid o) as [sh' c']. by apply Hins.
    - destruct (s_conns S s !! cid) as [c|] eqn:Ec; [|done]. apply Hins.
      apply abort_ans. by eapply HA.
    - destruct (s_conns S s !! cid) as [c|] eqn:Ec; [|done]. apply Hins.
      pose proof (HA cid c Ec) as H. exact H.
    - destruct (direct_okb d); [|done]. exact HA.
    - intros i ci Hi. cbn in Hi. by rewrite lookup_empty in Hi.
  Qed.

  Lemma run_both evs :
    exists L, inv_at S SO g L (run S g evs) /\ ans_inv (run S g evs).
  Proof.
    unfold run.
    assert (H : exists L, inv_at S SO g L (init S) /\ ans_inv (init S)).
    { exists []. split; [apply init_inv|]. intros i ci Hi. cbn in Hi. by rewrite lookup_empty in Hi. }
    revert H. generalize (init S). induction evs as [|ev evs IH]; intros s Hs; [done|].
    cbn [fold_left]. apply IH. destruct Hs as (L & HL & HA).
    destruct (step_inv S SO g HC L s ev HL) as (L' & H & _). exists L'. split; [done|].
    by eapply step_ans.
  Qed.

  (** ** Requests come to an end *)

  (** [tid] needs at most [k] more steps. *)
  Definition rank (c : conn S) (tid k : nat) : Prop :=
    tid < length (c_reqs S c) /\
    match c_thr S c !! tid with
    | Some (Running p) => exists n, shape n p /\ n + 2 <= k
    | Some (Failed _) => 1 <= k
    | None => True
    end.

  Lemma step_rank sh c tid o L k : conn_ok S SO g L sh c -> shared_ok S SO g L sh ->
    rank c tid k -> rank (snd (step_thread S g sh c tid o)) tid (Nat.pred k).
  Proof.
    intros (H1 & H2 & H3 & H4) HS [Hlt HR]. unfold step_thread.
    destruct (c_thr S c !! tid) as [[p|e]|] eqn:Et.
    - pose proof Hlt as Htid. apply lookup_lt_is_Some in Htid as [rq Hrq].
      destruct (H1 tid rq Hrq) as (L0 & A1 & A2 & A3 & A4 & A5 & A6 & A7).
      rewrite Et in A6. cbn [thread_ok] in A6.
      destruct (step1_ok S SO g (c_enc S c) (c_dec S c) L0 (rq_unl S rq) (rq_msg S rq)
        sh L (c_unl S c) (rq_fail S rq) p o _ HS A3 A4 A6)
        as (L' & p' & _ & _ & _ & _ & _ & B6 & _).
      destruct HR as (n & Hn & Hle).
      pose proof (step1_shape sh (c_unl S c) p o n Hn) as Hsh. cbv zeta in Hsh.
      set (r := step1 S g sh (c_unl S c) p o) in *. rewrite B6 in *. cbn [snd].
      split; cbn; [by rewrite mark_fail_length|].
      rewrite lookup_set_thr, decide_True by done.
      destruct (r_out S r) as [[m b]|].
      + destruct Hsh as (_ & x & -> & _). destruct x as [[]|]; cbn [settle]; [done|lia].
      + destruct p' as [[[]|er]| | | | | | | | | | | |]; cbn [settle]; try done; try lia;
          destruct Hsh as (n' & -> & Hsh); exists n'; (split; [done|lia]).
    - destruct (c_reqs S c !! tid) as [rq|] eqn:Hrq.
      + cbn [snd]. split; cbn; [by rewrite mark_fail_length|]. by rewrite lookup_delete.
      + apply lookup_ge_None in Hrq. lia.
    - cbn [snd]. split; [done|]. by rewrite Et.
  Qed.

  (** Other events do not set a request back. *)
  Lemma other_rank sh c c' tid tid' o L k :
    conn_ok S SO g L sh c -> shared_ok S SO g L sh ->
    rank c tid k -> tid <> tid' -> c' = snd (step_thread S g sh c tid' o) -> rank c' tid k.
  Proof.
    intros (H1 & H2 & H3 & H4) HS [Hlt HR] Hne ->. unfold step_thread.
    destruct (c_thr S c !! tid') as [[p|e]|] eqn:Et; [| |by split].
    - assert (Htid : tid' < length (c_reqs S c)) by (apply H2; by eexists).
      apply lookup_lt_is_Some in Htid as [rq Hrq].
      destruct (H1 tid' rq Hrq) as (L0 & A1 & A2 & A3 & A4 & A5 & A6 & A7).
      rewrite Et in A6. cbn [thread_ok] in A6.
      destruct (step1_ok S SO g (c_enc S c) (c_dec S c) L0 (rq_unl S rq) (rq_msg S rq)
        sh L (c_unl S c) (rq_fail S rq) p o _ HS A3 A4 A6)
        as (L' & p' & _ & _ & _ & _ & _ & B6 & _).
      rewrite B6. cbn [snd]. split; cbn; [by rewrite mark_fail_length|].
      by rewrite lookup_set_thr, decide_False.
    - destruct (c_reqs S c !! tid') as [rq|] eqn:Hrq; [|by split].
      cbn [snd]. split; cbn; [by rewrite mark_fail_length|]. by rewrite lookup_delete_ne.
  Qed.

  Lemma step_rank_any L s ev cid c tid k :
    inv_at S SO g L s -> s_conns S s !! cid = Some c -> rank c tid k -> is_restart ev = false ->
    exists c', s_conns S (step S g s ev) !! cid = Some c'
      /\ rank c' tid (if is_step cid tid ev then Nat.pred k else k).
  Proof.
    intros (HS & HCs & HF) Hc HR Hnr.
    assert (Hsame : rank c tid k -> s_conns S s !! cid = Some c ->
      exists c', s_conns S s !! cid = Some c' /\ rank c' tid k) by eauto.
    destruct ev as [cid' rx tx|cid' raw|cid' tid' o|cid' tid' e|cid'|d os|]; cbn [step is_step].
    - destruct (s_conns S s !! cid') eqn:Ec'; [by eauto|]. destruct (_ && _); [|by eauto].
      cbn. assert (cid <> cid') by congruence. rewrite lookup_insert_ne by done. eauto.
    - destruct (s_conns S s !! cid') as [c1|] eqn:Ec; [|by eauto]. cbn.
      destruct (decide (cid = cid')) as [<-|Hne]; [|rewrite lookup_insert_ne by done; eauto].
      rewrite lookup_insert. assert (c1 = c) as -> by congruence. eexists. split; [done|].
      unfold receive. destruct (c_open S c && _); [|done].
      destruct (decode_api raw) as [a|]; [|exact HR]. destruct HR as [Hlt HR].
      split; cbn; [rewrite app_length; cbn; lia|].
      by rewrite lookup_set_thr, decide_False by lia.
    - destruct (s_conns S s !! cid') as [c1|] eqn:Ec.
      2:{ destruct (Nat.eqb_spec cid' cid); [congruence|]. cbn. eauto. }
      destruct (Nat.eqb_spec cid' cid) as [->|Hne].
      + assert (c1 = c) as -> by congruence. destruct (Nat.eqb_spec tid' tid) as [->|Hne].
        * pose proof (step_rank (s_sh S s) c tid o L k (HCs _ _ Hc) HS HR) as H.
          destruct (step_thread S g (s_sh S s) c tid o) as [sh' c'] eqn:Es. cbn.
          rewrite lookup_insert. eauto.
        * pose proof (other_rank (s_sh S s) c _ tid tid' o L k (HCs _ _ Hc) HS HR
            (not_eq_sym Hne) eq_refl) as H.
          destruct (step_thread S g (s_sh S s) c tid' o) as [sh' c'] eqn:Es. cbn.
          rewrite lookup_insert. eauto.
      + destruct (step_thread S g (s_sh S s) c1 tid' o) as [sh' c']. cbn.
        rewrite lookup_insert_ne by done. eauto.
    - destruct (s_conns S s !! cid') as [c1|] eqn:Ec; [|by eauto]. cbn.
      destruct (decide (cid = cid')) as [<-|Hne]; [|rewrite lookup_insert_ne by done; eauto].
      rewrite lookup_insert. assert (c1 = c) as -> by congruence. eexists. split; [done|].
      unfold abort_thread. destruct (c_thr S c !! tid') as [[p|e']|] eqn:Et; [|done..].
      destruct HR as [Hlt HR]. split; cbn; [by rewrite mark_fail_length|].
      destruct (decide (tid = tid')) as [->|Hne].
      + rewrite lookup_insert. rewrite Et in HR. destruct HR as (n & _ & Hn). lia.
      + by rewrite lookup_insert_ne.
    - destruct (s_conns S s !! cid') as [c1|] eqn:Ec; [|by eauto]. cbn.
      destruct (decide (cid = cid')) as [<-|Hne]; [|rewrite lookup_insert_ne by done; eauto].
      rewrite lookup_insert. assert (c1 = c) as -> by congruence. eexists. by split.
    - destruct (direct_okb d); cbn; eauto.
    - done.
  Qed.

  Lemma run_rank evs : forall s L cid c tid k,
    inv_at S SO g L s -> s_conns S s !! cid = Some c -> rank c tid k ->
    existsb is_restart evs = false ->
    exists c', s_conns S (fold_left (step S g) evs s) !! cid = Some c'
      /\ rank c' tid (k - length (List.filter (is_step cid tid) evs)).
  Proof.
    induction evs as [|ev evs IH]; intros s L cid c tid k HL Hc HR Hnr.
    - exists c. cbn. rewrite Nat.sub_0_r. done.
    - cbn in Hnr. apply orb_false_elim in Hnr as [Hnr1 Hnr2].
      destruct (step_rank_any L s ev cid c tid k HL Hc HR Hnr1) as (c1 & Hc1 & HR1).
      destruct (step_inv S SO g HC L s ev HL) as (L' & HL' & _).
      destruct (IH _ _ _ _ _ _ HL' Hc1 HR1 Hnr2) as (c2 & Hc2 & HR2).
      exists c2. split; [done|]. cbn [List.filter]. destruct (is_step cid tid ev); [|done].
      cbn [length]. by replace (k - Datatypes.S (length (List.filter (is_step cid tid) evs)))
        with (Nat.pred k - length (List.filter (is_step cid tid) evs)) by lia.
  Qed.
End Answers.
