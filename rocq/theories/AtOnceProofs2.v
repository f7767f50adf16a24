(** * AtOnceProofs2: a whole history is one where requests come in turn *)

From Verif Require Import Base Utf8 Crypto Types Codec Secret Store StoreProofs
  Lru Server System ServerSpec ServerVocab ServerProofs ServerProofs2 SystemProofs AnswerProofs
  ServerTheorems WriteProofs AtOnce AtOnceProofs.
From Coq Require Import Sorted.

Lemma app_split {A} (a b c d : list A) : a ++ b = c ++ d -> length a <= length c ->
  exists k, c = a ++ k /\ b = k ++ d.
Proof.
  revert c. induction a as [|x a IH]; intros c E Hl; [by exists c|].
  destruct c as [|y c]; [cbn in Hl; lia|]. injection E as -> E. destruct (IH c E) as (k & -> & ->); [cbn in Hl; lia|]. by exists k.
Qed.

Lemma finite_choice {A B} `{EqDecision A} (R : A -> B -> Prop) (b0 : B) (l : list A) :
  (forall a, a ∈ l -> exists b, R a b) -> exists f : A -> B, forall a, a ∈ l -> R a (f a).
Proof.
  induction l as [|x l IH]; intros H; [exists (fun _ => b0); by intros a ?%elem_of_nil|].
  destruct IH as [f Hf]; [intros a Ha; apply H; by right|].
  destruct (H x ltac:(by left)) as [b Hb].
  exists (fun a => if decide (a = x) then b else f a). intros a [->|Ha]%elem_of_cons.
  - by rewrite decide_True.
  - destruct (decide (a = x)) as [->|]; [done|by apply Hf].
Qed.

Section Turns.
  Variable S : store_impl.
  Variable SO : StoreOk S.
  Variable g : genv.
  Hypothesis HC : CryptoOk (g_crypto g).

  Notation run := (run S g).
  Notation store_at := (store_at S g).
  Notation conn_at := (conn_at S g).
  Notation received := (received S).
  Notation sent := (sent S).
  Notation at_once := (at_once S g).
  Notation in_turn := (in_turn S g).
  Notation unlocked_at := (unlocked_at S g).
  Notation no_effect := (no_effect S g).

  (** [instant], with the position. *)
  Definition instant_at (evs : list event) (cid tid : nat) (rq m : api) (n : nat) : Prop :=
    exists pre o post c c' r fb,
      length pre = n /\ evs = pre ++ EvStep cid tid o :: post /\ no_restart post
      /\ conn_at pre cid c /\ received c tid r /\ rq_msg S r = rq
      /\ (forall m, ~ sent c tid m)
      /\ conn_at (pre ++ [EvStep cid tid o]) cid c'
      /\ at_once (msg_id rq) (store_at pre) (c_unl S c)
           (dispatch g (c_enc S c) (c_dec S c) rq) fb
           (store_at (pre ++ [EvStep cid tid o])) (c_unl S c') m
      /\ no_other_effect S g evs cid tid (Some n).

  Lemma instant_pos evs cid tid rq m : instant S g evs cid tid rq m -> exists n, instant_at evs cid tid rq m n.
  Proof.
    intros (pre & o & post & c & c' & r & fb & H1 & H2 & H3 & H4 & H5 & H6 & H7 & H8 & _ & H9).
    exists (length pre), pre, o, post, c, c', r, fb. done.
  Qed.

  Lemma in_turn_end keys ts : forall s us s1 us1 us2, in_turn keys ts s us s1 us1 -> (forall i, us2 i = us1 i) ->
    in_turn keys ts s us s1 us2.
  Proof.
    intros s us s1 us1 us2 H. revert us2. induction H as [s us us' He|cid tid rq m fb ts s us s1 u1 s2 us2 Ha Ht IH]; intros us3 E.
    - constructor. intros i. by rewrite E.
    - econstructor; [exact Ha|]. by apply IH.
  Qed.

  Lemma at_once_start keys ts : forall s us us0 s1 us1, in_turn keys ts s us s1 us1 -> (forall i, us0 i = us i) ->
    in_turn keys ts s us0 s1 us1.
  Proof.
    intros s us us0 s1 us1 H. revert us0. induction H as [s us us' He|cid tid rq m fb ts s us s1 u1 s2 us2 Ha Ht IH]; intros us3 E.
    - constructor. intros i. by rewrite E.
    - econstructor; [rewrite E; exact Ha|]. apply IH. intros i. by rewrite E.
  Qed.

  Lemma in_turn_snoc keys ts : forall s us s1 us1 cid tid rq m fb s2 u2 us2, in_turn keys ts s us s1 us1 ->
    at_once (msg_id rq) s1 (us1 cid) (dispatch g (fst (keys cid)) (snd (keys cid)) rq) fb s2 u2 m ->
    (forall i, us2 i = if Nat.eqb i cid then u2 else us1 i) ->
    in_turn keys (ts ++ [Turn cid tid rq m]) s us s2 us2.
  Proof.
    intros s us s1 us1 cid tid rq m fb s2 u2 us2 H.
    induction H as [s us us' He|cid0 tid0 rq0 m0 fb0 ts s us s1 u1 s3 us3 Ha Ht IH]; intros Hat E.
    - cbn. econstructor; [rewrite <- He; exact Hat|]. constructor. intros i. rewrite E. by destruct (Nat.eqb i cid).
    - cbn. econstructor; [exact Ha|]. by apply IH.
  Qed.

  (** ** Connections last *)

  Lemma no_restart_app a b : no_restart (a ++ b) <-> no_restart a /\ no_restart b.
  Proof. unfold no_restart. rewrite existsb_app. apply orb_false_iff. Qed.

  Lemma conn_lasts rest : forall evs cid c, conn_at evs cid c -> no_restart rest ->
    exists c', conn_at (evs ++ rest) cid c' /\ c_enc S c' = c_enc S c /\ c_dec S c' = c_dec S c.
  Proof.
    induction rest as [|ev rest IH]; intros evs cid c Hc Hr.
    - rewrite app_nil_r. by exists c.
    - unfold no_restart in Hr. cbn in Hr. apply orb_false_elim in Hr as [Hr1 Hr2].
      destruct (step_conn S SO g HC evs ev cid c Hc Hr1) as (c1 & Hc1 & E1 & E2 & _).
      destruct (IH (evs ++ [ev]) cid c1 Hc1 Hr2) as (c2 & Hc2 & E3 & E4).
      rewrite <- app_assoc in Hc2. exists c2. split; [done|]. split; congruence.
  Qed.

  (** What one event does to the requests and the log of a connection. *)
  Lemma step_keeps evs ev cid c : conn_at evs cid c -> is_restart ev = false ->
    exists c', conn_at (evs ++ [ev]) cid c'
      /\ (forall tid rq, received c tid rq -> exists rq', received c' tid rq' /\ (rq_msg S rq', rq_unl S rq') = (rq_msg S rq, rq_unl S rq))
      /\ (forall tid m, sent c tid m -> sent c' tid m).
  Proof.
    intros Hc Hr. unfold ServerVocab.conn_at in *. rewrite (run_snoc S g).
    assert (Hsame : exists c', Some c = Some c'
      /\ (forall tid rq, received c tid rq -> exists rq', received c' tid rq' /\ (rq_msg S rq', rq_unl S rq') = (rq_msg S rq, rq_unl S rq))
      /\ (forall tid m, sent c tid m -> sent c' tid m)).
    { exists c. split; [done|]. split; [|done]. eauto. }
    assert (Hmark : forall t b tid rq, received c tid rq ->
      exists rq', mark_fail S (c_reqs S c) t b !! tid = Some rq' /\ (rq_msg S rq', rq_unl S rq') = (rq_msg S rq, rq_unl S rq)).
    { intros t b tid rq Hq. unfold ServerVocab.received in Hq. rewrite mark_fail_lookup.
      destruct (decide (tid = t)); rewrite Hq; by eexists. }
    destruct ev as [i rx tx|i raw|i t o|i t er|i|d os|]; cbn [step].
    - destruct (s_conns S (run evs) !! i) eqn:Ei; [by rewrite Hc|]. destruct (_ && _); [|by rewrite Hc]. cbn [s_conns].
      rewrite lookup_insert_ne by congruence. by rewrite Hc.
    - destruct (s_conns S (run evs) !! i) as [c0|] eqn:Ei; [|by rewrite Hc]. cbn [s_conns].
      destruct (decide (i = cid)) as [->|]; [|rewrite lookup_insert_ne by done; by rewrite Hc].
      rewrite lookup_insert. assert (c0 = c) as -> by congruence. eexists. split; [done|].
      unfold receive. destruct (c_open S c && _); [|by split; eauto]. destruct (decode_api raw); [|by split; eauto].
      split; [|done]. intros tid rq Hq. exists rq. split; [|done]. unfold ServerVocab.received in *. cbn [c_reqs].
      apply lookup_app_Some. by left.
    - destruct (s_conns S (run evs) !! i) as [c0|] eqn:Ei; [|by rewrite Hc].
      destruct (decide (i = cid)) as [->|].
      2:{ destruct (step_thread S g (s_sh S (run evs)) c0 t o). cbn [s_conns]. rewrite lookup_insert_ne by done. by rewrite Hc. }
      assert (c0 = c) as -> by congruence. unfold step_thread.
      destruct (c_thr S c !! t) as [[p|e]|]; [| |cbn [s_conns]; by rewrite lookup_insert].
      + destruct (r_prog S _); cbn [s_conns]; rewrite lookup_insert; (eexists; split; [done|]); split.
        * intros tid rq Hq. apply Hmark, Hq.
        * intros tid m [b Hb]. exists b. cbn [c_log]. unfold log_add. destruct (r_out S _) as [[]|]; [|done].
          apply elem_of_app. by left.
        * eauto.
        * done.
      + destruct (c_reqs S c !! t); cbn [s_conns]; rewrite lookup_insert; [|done].
        eexists; split; [done|]; split.
        * intros tid rq Hq. apply Hmark, Hq.
        * intros tid m [b Hb]. exists b. cbn [c_log]. apply elem_of_app. by left.
    - destruct (s_conns S (run evs) !! i) as [c0|] eqn:Ei; [|by rewrite Hc]. cbn [s_conns].
      destruct (decide (i = cid)) as [->|]; [|rewrite lookup_insert_ne by done; by rewrite Hc].
      rewrite lookup_insert. assert (c0 = c) as -> by congruence. eexists. split; [done|].
      unfold abort_thread. destruct (c_thr S c !! t) as [[p|e]|]; [|by split; eauto..]. split; [|done].
      intros tid rq Hq. apply Hmark, Hq.
    - destruct (s_conns S (run evs) !! i) as [c0|] eqn:Ei; [|by rewrite Hc]. cbn [s_conns].
      destruct (decide (i = cid)) as [->|]; [|rewrite lookup_insert_ne by done; by rewrite Hc].
      rewrite lookup_insert. assert (c0 = c) as -> by congruence. eexists. split; [done|]. by split; eauto.
    - destruct (direct_okb d); cbn [s_conns]; rewrite Hc; exact Hsame.
    - done.
  Qed.

  Lemma keeps rest : forall evs cid c, conn_at evs cid c -> no_restart rest ->
    exists c', conn_at (evs ++ rest) cid c'
      /\ (forall tid rq, received c tid rq -> exists rq', received c' tid rq' /\ (rq_msg S rq', rq_unl S rq') = (rq_msg S rq, rq_unl S rq))
      /\ (forall tid m, sent c tid m -> sent c' tid m).
  Proof.
    induction rest as [|ev rest IH]; intros evs cid c Hc Hr.
    - rewrite app_nil_r. exists c. split; [done|]. split; [|done]. eauto.
    - unfold no_restart in Hr. cbn in Hr. apply orb_false_elim in Hr as [Hr1 Hr2].
      destruct (step_keeps evs ev cid c Hc Hr1) as (c1 & Hc1 & E1 & E2).
      destruct (IH (evs ++ [ev]) cid c1 Hc1 Hr2) as (c2 & Hc2 & E3 & E4).
      rewrite <- app_assoc in Hc2. exists c2. split; [done|]. split; [|auto].
      intros tid rq Hq. destruct (E1 tid rq Hq) as (rq1 & Hq1 & M1). destruct (E3 tid rq1 Hq1) as (rq2 & Hq2 & M2).
      exists rq2. split; [done|congruence].
  Qed.

  (** ** Events that do nothing, and the others *)

  Lemma flag_other evs ev i : is_restart ev = false -> (forall j rx tx, ev <> EvConnect j rx tx) ->
    conn_of ev <> Some i -> unlocked_at (evs ++ [ev]) i = unlocked_at evs i.
  Proof.
    intros Hr Hn Hi. unfold AtOnce.unlocked_at. rewrite (run_snoc S g).
    destruct ev as [j rx tx|j raw|j t o|j t er|j|d os|]; cbn [step conn_of] in *.
    - by destruct (Hn j rx tx).
    - destruct (s_conns S (run evs) !! j); [|done]. cbn. rewrite lookup_insert_ne; [done|]. intros ->. by apply Hi.
    - destruct (s_conns S (run evs) !! j); [|done]. destruct (step_thread _ _ _ _ _ _). cbn.
      rewrite lookup_insert_ne; [done|]. intros ->. by apply Hi.
    - destruct (s_conns S (run evs) !! j); [|done]. cbn. rewrite lookup_insert_ne; [done|]. intros ->. by apply Hi.
    - destruct (s_conns S (run evs) !! j); [|done]. cbn. rewrite lookup_insert_ne; [done|]. intros ->. by apply Hi.
    - by destruct (direct_okb d).
    - done.
  Qed.

  Lemma quiet_event evs ev : is_restart ev = false -> is_direct ev = false ->
    (forall cid tid o c rq, ev = EvStep cid tid o -> conn_at evs cid c -> received c tid rq -> no_effect evs ev cid) ->
    store_at (evs ++ [ev]) = store_at evs /\ forall i, unlocked_at (evs ++ [ev]) i = unlocked_at evs i.
  Proof.
    intros Hr Hd Hs. assert (Hrs := run_snoc S g evs ev).
    destruct ev as [j rx tx|j raw|j t o|j t er|j|d os|]; cbn [step] in Hrs; try done;
      unfold ServerVocab.store_at, AtOnce.unlocked_at; try rewrite Hrs.
    - destruct (s_conns S (run evs) !! j) eqn:Ej; [done|]. destruct (_ && _); [|done]. split; [done|]. intros i. cbn.
      destruct (decide (j = i)) as [->|]; [rewrite lookup_insert, Ej; done|by rewrite lookup_insert_ne].
    - destruct (s_conns S (run evs) !! j) as [c|] eqn:Ej; [|done]. split; [done|]. intros i. cbn.
      destruct (decide (j = i)) as [->|]; [|by rewrite lookup_insert_ne]. rewrite lookup_insert, Ej.
      unfold receive. destruct (c_open S c && _); [|done]. by destruct (decode_api raw).
    - destruct (s_conns S (run evs) !! j) as [c|] eqn:Ej; [|done].
      destruct (c_reqs S c !! t) as [rq|] eqn:Eq.
      + destruct (Hs j t o c rq eq_refl Ej Eq) as [H1 H2]. unfold ServerVocab.store_at in H1.
        rewrite <- Hrs. split; [exact H1|]. intros i. destruct (decide (j = i)) as [->|].
        * destruct (step_conn S SO g HC evs (EvStep i t o) i c Ej Hr) as (c' & Hc' & _).
          unfold ServerVocab.conn_at in Hc'. rewrite Hc', Ej. by apply H2.
        * apply (flag_other evs (EvStep j t o) i); [done|done|]. cbn. congruence.
      + destruct (reach S SO g HC evs) as (L & (_ & HCs & _) & _).
        assert (Et : c_thr S c !! t = None).
        { destruct (c_thr S c !! t) as [th|] eqn:E; [|done].
          destruct (HCs _ _ Ej) as (_ & H2 & _). destruct (lookup_lt_is_Some_2 (c_reqs S c) t) as [? ?]; [|congruence].
          apply H2. by eexists. }
        unfold step_thread. rewrite Et. split; [done|]. intros i. cbn [s_conns].
        destruct (decide (j = i)) as [->|]; [rewrite lookup_insert, Ej; done|by rewrite lookup_insert_ne].
    - destruct (s_conns S (run evs) !! j) as [c|] eqn:Ej; [|done]. split; [done|]. intros i. cbn.
      destruct (decide (j = i)) as [->|]; [|by rewrite lookup_insert_ne]. rewrite lookup_insert, Ej.
      unfold abort_thread. by destruct (c_thr S c !! t) as [[]|].
    - destruct (s_conns S (run evs) !! j) as [c|] eqn:Ej; [|done]. split; [done|]. intros i. cbn.
      destruct (decide (j = i)) as [->|]; [|by rewrite lookup_insert_ne]. by rewrite lookup_insert, Ej.
  Qed.

  (** ** The history *)

  Section History.
    Variable evs0 evs : list event.
    Notation all := (evs0 ++ evs).
    Hypothesis H0 : s_conns S (run evs0) = ∅.
    Hypothesis Hnr : no_restart evs.
    Hypothesis Hnd : no_direct evs.
    Variable f : nat * nat -> nat * api.
    Notation pos x := (fst (f x)).
    Notation ans x := (snd (f x)).
    Hypothesis Hf : forall cid c tid rq, conn_at all cid c -> received c tid rq ->
      sent c tid (ans (cid, tid)) /\ instant_at all cid tid (rq_msg S rq) (ans (cid, tid)) (pos (cid, tid)).
    Variable keys : nat -> bytes * bytes.
    Hypothesis Hkeys : forall cid c, conn_at all cid c -> keys cid = (c_enc S c, c_dec S c).

    Definition tpos (t : turn) : nat := pos (tu_cid t, tu_tid t).

    Definition reached (n : nat) (ts : list turn) : Prop :=
      (forall t, t ∈ ts -> tpos t < n /\ exists c rq, conn_at all (tu_cid t) c /\ received c (tu_tid t) rq
         /\ rq_msg S rq = tu_rq t /\ tu_ans t = ans (tu_cid t, tu_tid t))
      /\ (forall cid c tid rq, conn_at all cid c -> received c tid rq -> pos (cid, tid) < n ->
            Turn cid tid (rq_msg S rq) (ans (cid, tid)) ∈ ts)
      /\ StronglySorted (fun a b => tpos a < tpos b) ts.

    Lemma instant_in cid c tid rq : conn_at all cid c -> received c tid rq ->
      length evs0 <= pos (cid, tid) < length all.
    Proof.
      intros Hc Hq. destruct (Hf _ _ _ _ Hc Hq) as [_ (pre & o & post & c0 & c1 & r & fb & En & E & Hp & Hc0 & _)].
      split.
      - destruct (decide (length evs0 <= length pre)); [lia|]. exfalso.
        destruct (app_split pre (EvStep cid tid o :: post) evs0 evs) as (k & Hk & Hk2); [done|lia|].
        assert (Hk' : no_restart k).
        { destruct k as [|x k]; [done|]. injection Hk2 as <- ->. by apply no_restart_app in Hp as [Hp _]. }
        destruct (conn_lasts k pre cid c0 Hc0 Hk') as (c2 & Hc2 & _). rewrite <- Hk in Hc2.
        unfold ServerVocab.conn_at in Hc2. by rewrite H0, lookup_empty in Hc2.
      - rewrite E, app_length. cbn. lia.
    Qed.

    Lemma reach_turns pre : forall rest, evs = pre ++ rest ->
      exists ts, in_turn keys ts (store_at evs0) (fun _ => false) (store_at (evs0 ++ pre)) (unlocked_at (evs0 ++ pre))
        /\ reached (length (evs0 ++ pre)) ts.
    Proof.
      induction pre as [|ev pre IH] using rev_ind; intros rest E.
      - exists []. rewrite app_nil_r. split.
        + constructor. intros i. unfold AtOnce.unlocked_at. by rewrite H0, lookup_empty.
        + split; [by intros t ?%elem_of_nil|]. split; [|constructor].
          intros cid c tid rq Hc Hq Hn. pose proof (instant_in cid c tid rq Hc Hq). lia.
      - rewrite <- app_assoc in E. destruct (IH _ E) as (ts & Ht & R1 & R2 & R3).
        assert (Hall : all = (evs0 ++ pre) ++ ev :: rest) by (rewrite E, app_assoc; done).
        assert (Hev : is_restart ev = false /\ is_direct ev = false /\ no_restart rest).
        { unfold no_direct in Hnd. rewrite E in Hnr, Hnd. apply no_restart_app in Hnr as [_ Hn].
          rewrite existsb_app in Hnd. apply orb_false_elim in Hnd as [_ Hd].
          unfold no_restart in Hn. cbn in Hn, Hd. apply orb_false_elim in Hn as [? ?]. apply orb_false_elim in Hd as [? _]. done. }
        destruct Hev as (Hr & Hd & Hrest).
        assert (Hlen : length (evs0 ++ pre ++ [ev]) = Datatypes.S (length (evs0 ++ pre))).
        { rewrite !app_length. cbn. lia. }
        (* requests of the middle are requests of the end *)
        assert (Hend : forall cid c tid rq, conn_at (evs0 ++ pre) cid c -> received c tid rq ->
          exists c' rq', conn_at all cid c' /\ received c' tid rq' /\ rq_msg S rq' = rq_msg S rq).
        { intros cid c tid rq Hc Hq. destruct (keeps (ev :: rest) _ cid c Hc) as (c' & Hc' & Hk & _).
          { unfold no_restart in *. cbn. by rewrite Hr. }
          destruct (Hk tid rq Hq) as (rq' & Hq' & Hm). injection Hm as Hm _. rewrite <- Hall in Hc'. by exists c', rq'. }
        (* nothing happens at this position *)
        assert (Hskip : (forall cid c tid rq, conn_at all cid c -> received c tid rq -> pos (cid, tid) <> length (evs0 ++ pre)) ->
          exists ts, in_turn keys ts (store_at evs0) (fun _ => false) (store_at (evs0 ++ pre ++ [ev])) (unlocked_at (evs0 ++ pre ++ [ev]))
            /\ reached (length (evs0 ++ pre ++ [ev])) ts).
        { intros Hno. exists ts. rewrite app_assoc.
          destruct (quiet_event (evs0 ++ pre) ev Hr Hd) as [Es Eu].
          { intros cid tid o c rq -> Hc Hq. destruct (Hend _ _ _ _ Hc Hq) as (c' & rq' & Hc' & Hq' & Hm).
            destruct (Hf _ _ _ _ Hc' Hq') as [_ (p1 & o1 & p2 & c0 & c1 & r & fb & En & E' & Hp & Hc0 & _ & _ & _ & _ & _ & Hoe)].
            apply (Hoe _ o rest Hall Hrest). intros [= E1]. by apply (Hno cid c' tid rq' Hc' Hq'). }
          rewrite Es. split; [by eapply in_turn_end|]. rewrite <- app_assoc, Hlen. split; [|split; [|done]].
          - intros t Hin. destruct (R1 t Hin) as [? ?]. split; [lia|done].
          - intros cid c tid rq Hc Hq Hlt. apply (R2 cid c tid rq Hc Hq).
            pose proof (Hno cid c tid rq Hc Hq). lia. }
        destruct ev as [j rx tx|j raw|cid tid o|j t er|j|d os|].
        1,2,4,5,6,7: apply Hskip; intros cid c tid rq Hc Hq En;
          destruct (Hf _ _ _ _ Hc Hq) as [_ (p1 & o1 & p2 & c0 & c1 & r & fb & En' & E' & _)];
          rewrite Hall in E'; rewrite En in En'; apply app_inj_1 in E' as [_ E']; [done|by rewrite En'].
        (* a step *)
        assert (Hwho : forall cid' c tid' rq, conn_at all cid' c -> received c tid' rq ->
          pos (cid', tid') = length (evs0 ++ pre) -> cid' = cid /\ tid' = tid).
        { intros cid' c tid' rq Hc Hq En.
          destruct (Hf _ _ _ _ Hc Hq) as [_ (p1 & o1 & p2 & c0 & c1 & r & fb & En' & E' & _)].
          rewrite Hall in E'. rewrite En in En'. apply app_inj_1 in E' as [_ E']; [|by rewrite En']. by injection E' as -> -> _. }
        destruct (s_conns S (run all) !! cid) as [c|] eqn:Ec.
        2:{ apply Hskip. intros cid' c tid' rq Hc Hq En. destruct (Hwho _ _ _ _ Hc Hq En) as [-> ->].
            unfold ServerVocab.conn_at in Hc. congruence. }
        destruct (c_reqs S c !! tid) as [rq|] eqn:Eq.
        2:{ apply Hskip. intros cid' c' tid' rq Hc Hq En. destruct (Hwho _ _ _ _ Hc Hq En) as [-> ->].
            unfold ServerVocab.conn_at, ServerVocab.received in *. congruence. }
        destruct (decide (pos (cid, tid) = length (evs0 ++ pre))) as [En|Hno].
        2:{ apply Hskip. intros cid' c' tid' rq' Hc Hq En. by destruct (Hwho _ _ _ _ Hc Hq En) as [-> ->]. }
        destruct (Hf cid c tid rq Ec Eq) as [_ (p1 & o1 & p2 & c0 & c1 & r & fb & En' & E' & Hp & Hc0 & Hr0 & Hm0 & _ & Hc1 & Hat & _)].
        rewrite Hall in E'. rewrite En in En'. apply app_inj_1 in E' as [<- E']; [|by rewrite En']. injection E' as <- <-.
        exists (ts ++ [Turn cid tid (rq_msg S rq) (ans (cid, tid))]). split.
        + rewrite (app_assoc evs0 pre). eapply in_turn_snoc; [exact Ht| |].
          * assert (Ek : keys cid = (c_enc S c0, c_dec S c0)).
            { destruct (conn_lasts (EvStep cid tid o :: rest) _ cid c0 Hc0) as (c2 & Hc2 & E1 & E2).
              { unfold no_restart in *. cbn. done. }
              rewrite <- Hall in Hc2. rewrite (Hkeys cid c2 Hc2). congruence. }
            rewrite Ek. cbn [fst snd]. unfold AtOnce.unlocked_at. unfold ServerVocab.conn_at in Hc0. rewrite Hc0. exact Hat.
          * intros i. destruct (Nat.eqb_spec i cid) as [->|Hi].
            -- unfold AtOnce.unlocked_at. unfold ServerVocab.conn_at in Hc1. by rewrite Hc1.
            -- apply flag_other; [done|done|]. cbn. congruence.
        + rewrite Hlen. split; [|split].
          * intros t [Hin|Hin%elem_of_list_singleton]%elem_of_app.
            -- destruct (R1 t Hin) as [? ?]. split; [lia|done].
            -- subst t. cbn. unfold tpos. cbn. split; [lia|]. by exists c, rq.
          * intros cid' c' tid' rq' Hc Hq Hlt.
            destruct (decide (pos (cid', tid') = length (evs0 ++ pre))) as [En2|Hno].
            -- destruct (Hwho _ _ _ _ Hc Hq En2) as [-> ->]. unfold ServerVocab.conn_at, ServerVocab.received in *.
               assert (c' = c) as -> by congruence. assert (rq' = rq) as -> by congruence.
               apply elem_of_app. right. by left.
            -- apply elem_of_app. left. apply (R2 cid' c' tid' rq' Hc Hq). lia.
          * assert (Hall' : Forall (fun a => tpos a < length (evs0 ++ pre)) ts).
            { apply Forall_forall. intros t Hin. by apply R1. }
            assert (Hlast : tpos (Turn cid tid (rq_msg S rq) (ans (cid, tid))) = length (evs0 ++ pre)) by exact En.
            clear -R3 Hall' Hlast. induction R3 as [|a l Hs IH Hh]; cbn.
            -- constructor; constructor.
            -- apply Forall_cons in Hall' as [Ha Hl]. constructor; [by apply IH|]. apply Forall_app. split; [done|].
               constructor; [|done]. by rewrite Hlast.
    Qed.
  End History.

  (** An answer without an outside failure is the only one. *)
  Lemma one_answer evs cid c tid rq m m' : conn_at evs cid c -> received c tid rq -> undisturbed S rq ->
    sent c tid m -> sent c tid m' -> m' = m.
  Proof.
    intros Hc Hq Hu Hm Hm'. destruct (run_both S SO g HC evs) as (L & HL & HA).
    pose proof (HA cid c Hc tid rq Hq) as H. unfold ans_req in H. unfold undisturbed in Hu.
    assert (Hin : forall x, sent c tid x -> exists b, (x, b) ∈ answers S c tid).
    { intros x [b Hb]. exists b. unfold answers. apply elem_of_list_omap. exists (tid, x, b). split; [done|]. cbn. by rewrite Nat.eqb_refl. }
    apply Hin in Hm as [b Hm], Hm' as [b' Hm'].
    destruct (c_thr S c !! tid) as [[p|e]|].
    - destruct H as [_ H]. rewrite H in Hm. by apply elem_of_nil in Hm.
    - destruct H as [H|(m1 & _ & H)]; [|congruence]. rewrite H in Hm. by apply elem_of_nil in Hm.
    - destruct H as (pre & m1 & b1 & E & _ & [->|(m2 & _ & H)]); [|congruence]. rewrite E in Hm, Hm'. cbn in Hm, Hm'.
      apply elem_of_list_singleton in Hm, Hm'. congruence.
  Qed.

  Lemma sorted_before (R : turn -> turn -> Prop) (p : turn -> nat) ts a b :
    StronglySorted (fun a b => p a < p b) ts -> a ∈ ts -> b ∈ ts -> p a < p b ->
    exists t1 t2 t3, ts = t1 ++ a :: t2 ++ b :: t3.
  Proof.
    induction 1 as [|x l Hs IH Hh]; intros Ha Hb Hlt; [by apply elem_of_nil in Ha|].
    apply elem_of_cons in Ha as [->|Ha], Hb as [->|Hb].
    - lia.
    - apply elem_of_list_split in Hb as (t2 & t3 & ->). by exists [], t2, t3.
    - rewrite Forall_forall in Hh. apply Hh in Ha. lia.
    - destruct (IH Ha Hb Hlt) as (t1 & t2 & t3 & ->). by exists (x :: t1), t2, t3.
  Qed.

  Lemma history evs0 evs :
    s_conns S (run evs0) = ∅ -> no_restart evs -> no_direct evs ->
    (forall cid c tid rq, conn_at (evs0 ++ evs) cid c -> received c tid rq -> undisturbed S rq /\ exists m, sent c tid m) ->
    exists keys ts,
      (forall cid c, conn_at (evs0 ++ evs) cid c -> keys cid = (c_enc S c, c_dec S c))
      /\ in_turn keys ts (store_at evs0) (fun _ => false) (store_at (evs0 ++ evs)) (unlocked_at (evs0 ++ evs))
      /\ (forall t, answered_turn S g (evs0 ++ evs) t <-> t ∈ ts)
      /\ NoDup ts
      /\ (forall t t', t ∈ ts -> t' ∈ ts -> before_arrival S g (evs0 ++ evs) t t' ->
            exists t1 t2 t3, ts = t1 ++ t :: t2 ++ t' :: t3).
  Proof.
    intros H0 Hnr Hnd Hall.
    set (keys := fun cid => match s_conns S (run (evs0 ++ evs)) !! cid with Some c => (c_enc S c, c_dec S c) | None => ([], []) end).
    assert (Hkeys : forall cid c, conn_at (evs0 ++ evs) cid c -> keys cid = (c_enc S c, c_dec S c)).
    { intros cid c Hc. unfold keys. unfold ServerVocab.conn_at in Hc. by rewrite Hc. }
    (* choose the instants *)
    set (who := flat_map (fun x => map (fun t => (fst x, t)) (seq 0 (length (c_reqs S (snd x))))) (map_to_list (s_conns S (run (evs0 ++ evs))))).
    assert (Hwho : forall cid c tid rq, conn_at (evs0 ++ evs) cid c -> received c tid rq -> (cid, tid) ∈ who).
    { intros cid c tid rq Hc Hq. unfold who. apply elem_of_list_In, in_flat_map. exists (cid, c). split.
      - apply elem_of_list_In. by apply elem_of_map_to_list.
      - apply in_map_iff. exists tid. split; [done|]. apply in_seq. apply lookup_lt_Some in Hq. cbn. lia. }
    destruct (finite_choice (fun (x : nat * nat) (y : nat * api) =>
      forall c rq, conn_at (evs0 ++ evs) (fst x) c -> received c (snd x) rq ->
        sent c (snd x) (snd y) /\ instant_at (evs0 ++ evs) (fst x) (snd x) (rq_msg S rq) (snd y) (fst y)) (0, ResUnlock []) who) as [f Hf].
    { intros [cid tid] _. cbn [fst snd].
      destruct (s_conns S (run (evs0 ++ evs)) !! cid) as [c|] eqn:Ec.
      2:{ exists (0, ResUnlock []). intros c rq Hc. unfold ServerVocab.conn_at in Hc. congruence. }
      destruct (c_reqs S c !! tid) as [rq|] eqn:Eq.
      2:{ exists (0, ResUnlock []). intros c' rq Hc Hq. unfold ServerVocab.conn_at, ServerVocab.received in *. congruence. }
      destruct (Hall cid c tid rq Ec Eq) as [Hu [m Hm]].
      destruct (instant_pos _ _ _ _ _ (answered_at_once S SO g HC _ cid c tid rq m Ec Eq Hu Hm)) as [n Hn].
      exists (n, m). intros c' rq' Hc Hq. unfold ServerVocab.conn_at, ServerVocab.received in Hc, Hq.
      assert (c' = c) as -> by congruence. assert (rq' = rq) as -> by congruence. done. }
    assert (Hf' : forall cid c tid rq, conn_at (evs0 ++ evs) cid c -> received c tid rq ->
      sent c tid (snd (f (cid, tid))) /\ instant_at (evs0 ++ evs) cid tid (rq_msg S rq) (snd (f (cid, tid))) (fst (f (cid, tid)))).
    { intros cid c tid rq Hc Hq. by apply (Hf (cid, tid) (Hwho cid c tid rq Hc Hq) c rq). }
    destruct (reach_turns evs0 evs H0 Hnr Hnd f Hf' keys Hkeys evs [] ltac:(by rewrite app_nil_r)) as (ts & Ht & R1 & R2 & R3).
    exists keys, ts. split; [done|]. split; [exact Ht|]. split; [|split].
    - intros [cid tid rq m]. unfold answered_turn. cbn [tu_cid tu_tid tu_rq tu_ans]. split.
      + intros (c & r & Hc & Hq & <- & Hm). destruct (Hall cid c tid r Hc Hq) as [Hu _].
        destruct (Hf' cid c tid r Hc Hq) as [Hs _]. rewrite (one_answer _ _ _ _ _ _ _ Hc Hq Hu Hs Hm).
        apply (R2 cid c tid r Hc Hq). eapply instant_in; eauto.
      + intros Hin. destruct (R1 _ Hin) as [_ (c & r & Hc & Hq & Hm & Ha)]. cbn [tu_cid tu_tid tu_rq tu_ans] in *.
        exists c, r. split; [done|]. split; [done|]. split; [done|]. rewrite Ha. by apply (Hf' cid c tid r Hc Hq).
    - clear -R3. induction R3 as [|a l Hs IH Hh]; constructor; [|done]. intros Hin. rewrite Forall_forall in Hh.
      apply Hh in Hin. lia.
    - intros t t' Hin Hin' (pre & post & c & E & Hpo & Hc & Hs & Hn).
      apply (sorted_before (fun _ _ => True) (tpos f) ts t t' R3 Hin Hin').
      destruct (R1 _ Hin) as [_ (ca & ra & Hca & Hqa & _ & Haa)].
      destruct (R1 _ Hin') as [_ (cb & rb & Hcb & Hqb & _ & _)].
      destruct (Hf' _ _ _ _ Hca Hqa) as [_ (p1 & o1 & p2 & c1 & c1' & r1 & fb1 & E1 & F1 & G1 & I1 & J1 & K1 & L1 & _)].
      destruct (Hf' _ _ _ _ Hcb Hqb) as [_ (q1 & o2 & q2 & c2 & c2' & r2 & fb2 & E2 & F2 & G2 & I2 & J2 & K2 & L2 & _)].
      change (fst (f (tu_cid t, tu_tid t))) with (tpos f t) in E1.
      change (fst (f (tu_cid t', tu_tid t'))) with (tpos f t') in E2.
      assert (tpos f t < length pre).
      { destruct (decide (tpos f t < length pre)); [done|]. exfalso.
        destruct (app_split pre post p1 (EvStep (tu_cid t) (tu_tid t) o1 :: p2)) as (k & Hk & Hk1); [congruence|lia|].
        rewrite Hk1 in Hpo. apply no_restart_app in Hpo as [Hpo _].
        destruct (keeps k pre (tu_cid t) c Hc) as (c3 & Hc3 & _ & Hk2); [done|]. rewrite <- Hk in Hc3.
        unfold ServerVocab.conn_at in Hc3, I1. assert (c3 = c1) as -> by congruence. eapply L1, Hk2, Hs. }
      assert (length pre <= tpos f t').
      { destruct (decide (length pre <= tpos f t')); [done|]. exfalso.
        destruct (app_split q1 (EvStep (tu_cid t') (tu_tid t') o2 :: q2) pre post) as (k & Hk & Hk1); [congruence|lia|].
        assert (Hk' : no_restart k).
        { destruct k as [|x k]; [done|]. injection Hk1 as <- Hk1. rewrite Hk1 in G2. by apply no_restart_app in G2 as [G2 _]. }
        destruct (keeps k q1 (tu_cid t') c2 I2) as (c3 & Hc3 & Hk2 & _); [done|]. rewrite <- Hk in Hc3.
        destruct (Hk2 _ _ J2) as (rq3 & Hq3 & _). by apply (Hn c3 rq3 Hc3). }
      lia.
  Qed.
End Turns.
