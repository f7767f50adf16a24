(** * PropertiesAtOnce3: calls over a network take effect one at a time (C73)

    As [PropertiesAtOnce2], where connections are byte streams and the network may do anything to
    them ([Net]). *)

From Verif Require Import Base Crypto Toy Types Codec Secret Store StoreProofs Lru Server System ServerSpec ServerVocab
  ServerProofs SystemProofs AnswerProofs ServerTheorems Wire Client Asks World WorldVocab WorldProofs WorldProofs2 WorldProofs3
  Net NetVocab NetProofs NetProofs2 AtOnce AtOnceSpec AtOnceProofs2 PropertiesAtOnce2.
From Verif Require DemoWorld.
From Verif Require Import DemoNet.

Section Calls.
  Variable S : store_impl.
  Variable g : genv.
  Notation C := (g_crypto g).

  (** Call [k] of the client of [cid], a call of the function [a] that gave back [v], took effect in
      one instant: at one moment after it was made and before it was over, something happened by which
      the keystore went from [L] to [L'] as if it had handled the call's request alone, and [v] is
      what the client makes of the answer. *)
  Definition ncall_instant (evs : list nevent) (cid k : nat) (a : ask) (v : res value) : Prop :=
    exists mid e rest l c d fb L L' n m,
      evs = mid ++ e :: rest
      /\ ncall_at S g mid cid k l c /\ (forall oc, c_st c <> CEnd oc)
      /\ draws_ok d /\ c_req c = request_of C (x_enc l) d a
      /\ holds_just g S (nserver_evs S g mid) L
      /\ holds_just g S (nserver_evs S g (mid ++ [e])) L'
      /\ AtOnceSpec.handled g (x_dec l) (x_enc l) (c_req c) L (unlocked_at S g (nserver_evs S g mid) cid) fb
           L' (unlocked_at S g (nserver_evs S g (mid ++ [e])) cid) m
      /\ give_back C (x_dec l) a (c_req c) (Answer n m) = Some v.
End Calls.

Section Proofs.
  Variable S : store_impl.
  Variable SO : StoreOk S.
  Variable g : genv.
  Hypothesis HC : CryptoOk (g_crypto g).
  Notation C := (g_crypto g).

  Lemma none_or_one (n : net S g) e : n_evs (nstep S g n e) = n_evs n
    \/ exists ev, n_evs (nstep S g n e) = n_evs n ++ [ev].
  Proof.
    destruct e as [cid id h|cid d a|cid e|cid k o|ev j|cid up b|cid up|cid|cid]; cbn [nstep].
    - destruct (n_links n !! cid); [by left|]. destruct (_ && _); [|by left].
      destruct (shake g id h) as [[c s]|]; [|by left]. right. by eexists.
    - left. by destruct (n_links n !! cid).
    - left. destruct (n_links n !! cid) as [l|]; [|done]. by destruct (n_own l e).
    - left. destruct (n_links n !! cid) as [l|]; [|done]. destruct (k_calls (x_cli l) !! k) as [[req [] ?]|]; try done.
      destruct (x_res l !! k); [done|]. by destruct (chan_send (x_up l) req o).
    - destruct ev as [| |cid tid o|cid tid er|cid|dd os|]; try (by left); try (right; by eexists).
      destruct (n_links n !! cid) as [l|]; [|by left]. destruct (x_task l); [|by left]. right.
      destruct (s_conns S (n_srv n) !! cid); [|by eexists].
      destruct (s_conns S (n_srv (srv_does n (EvStep cid tid (line_oracle (t_dead (ch_snd (x_down l))) o)))) !! cid); by eexists.
    - left. by destruct (n_links n !! cid).
    - left. by destruct (n_links n !! cid).
    - destruct (n_links n !! cid) as [l|]; [|by left]. destruct (s_conns S (n_srv n) !! cid) as [c|]; [|by left].
      destruct (takes_more S c); [|by left]. destruct (chan_read (x_up l)); [by left|..]; right; by eexists.
    - left. destruct (n_links n !! cid) as [l|]; [|done]. destruct (k_recv (x_cli l)), (chan_read (x_down l)); done.
  Qed.

  Lemma net_split evs : forall p ev q, nserver_evs S g evs = p ++ ev :: q ->
    exists mid e rest, evs = mid ++ e :: rest /\ nserver_evs S g mid = p
      /\ nserver_evs S g (mid ++ [e]) = p ++ [ev].
  Proof.
    induction evs as [|e evs IH] using rev_ind; intros p ev q E.
    - destruct p; done.
    - unfold nserver_evs in E. rewrite nrun_snoc in E.
      assert (Hold : forall q', nserver_evs S g evs = p ++ ev :: q' ->
        exists mid e' rest, evs ++ [e] = mid ++ e' :: rest /\ nserver_evs S g mid = p
          /\ nserver_evs S g (mid ++ [e']) = p ++ [ev]).
      { intros q' E'. destruct (IH _ _ _ E') as (mid & e' & rest & -> & H1 & H2).
        exists mid, e', (rest ++ [e]). rewrite <- app_assoc. done. }
      destruct (none_or_one (nrun S g evs) e) as [E1|(ev' & E1)]; rewrite E1 in E.
      + by apply (Hold q).
      + destruct q as [|x q] using rev_ind.
        * apply app_inj_tail in E as [E Eev]. rewrite Eev in E1. exists evs, e, []. split; [done|]. split; [done|].
          unfold nserver_evs. rewrite nrun_snoc, E1. by f_equal.
        * change (ev :: q ++ [x]) with ((ev :: q) ++ [x]) in E. rewrite app_assoc in E.
          apply app_inj_tail in E as [E _]. by apply (Hold q).
  Qed.

  Lemma nwell_instant evs cid k a v : Forall ntyped evs -> ~ forged S g evs -> nids_differ S g evs ->
    nwell S g evs cid k a v -> ncall_instant S g evs cid k a v.
  Proof.
    intros Ht Hf Hd Hw. destruct (sim_run S g HC evs Ht Hf) as (ws & Wt & R & _).
    destruct (well_serv S SO g HC ws cid k a v Wt (tr_ids _ _ _ _ R Hd) (tr_well _ _ _ _ R _ _ _ _ Hw))
      as (l & cl & d & n & m & conn & tid & rq & p1 & o & p2 & c0 & c1 & r & fb & L & L'
      & Hcall & Hdr & Ereq & Hst & Hg & Hh & E & Ex & Hc0 & Hr & Hns & Hc1 & HL & HL' & Hhd).
    destruct (tr_call' _ _ _ _ R _ _ _ _ Hcall) as (x & Hx & Lx).
    apply (tr_handled _ _ _ _ R) in Hh. rewrite (tr_evs _ _ _ _ R) in Ex.
    destruct (net_split evs _ _ _ Ex) as (mid & e & rest & -> & M1 & M2). clear R Wt Hcall ws.
    destruct (sim_both S g HC mid (e :: rest) Ht Hf) as (w1 & w2 & Wt & R1 & R2 & _).
    destruct (tr_call _ _ _ _ R2 _ _ _ _ Hx) as (l2 & Hl2 & L2).
    apply (tr_handled' _ _ _ _ R2) in Hh. rewrite <- M1, <- (tr_evs _ _ _ _ R1) in Hc0.
    destruct (call_open S SO g HC w1 w2 cid k l2 cl n m conn tid rq c0 r Wt (tr_ids _ _ _ _ R2 Hd) Hl2 Hst Hh E Hc0 Hr Hns)
      as (l1 & cl1 & Hcm & Hover & Er & E1 & E2 & Q1 & Q2).
    destruct (tr_call' _ _ _ _ R1 _ _ _ _ Hcm) as (x1 & Hx1 & Lx1).
    rewrite (tr_evs _ _ _ _ R1), M1 in Hc0.
    pose proof (lr_enc _ _ _ Lx). pose proof (lr_dec _ _ _ Lx). pose proof (lr_enc _ _ _ Lx1). pose proof (lr_dec _ _ _ Lx1).
    pose proof (lr_enc _ _ _ L2). pose proof (lr_dec _ _ _ L2).
    exists mid, e, rest, x1, cl1, d, fb, L, L', n, m. split; [done|]. split; [done|]. split; [done|]. split; [done|].
    rewrite M1, M2. split; [congruence|]. split; [done|]. split; [done|]. split.
    - unfold unlocked_at. unfold conn_at in Hc0, Hc1. rewrite Hc0, Hc1.
      replace (x_dec x1) with (c_enc S c0) by congruence. replace (x_enc x1) with (c_dec S c0) by congruence. rewrite Er. exact Hhd.
    - replace (x_dec x1) with (l_dec l) by congruence. rewrite Er. exact Hg.
  Qed.
End Proofs.

(** Over any network that does not forge a ciphertext, a call that was answered, and with which the
    server had no trouble, took effect in one instant between being made and being over. *)
Theorem C73_over_a_network :
  forall S (SO : StoreOk S) g, CryptoOk (g_crypto g) ->
  forall evs cid k a v, Forall ntyped evs -> ~ forged S g evs -> nids_differ S g evs ->
    nwell S g evs cid k a v -> ncall_instant S g evs cid k a v.
Proof. intros S SO g HC evs cid k a v Ht Hf Hd Hw. by eapply nwell_instant. Qed.
Print Assumptions C73_over_a_network.

(** The second client looks up what the first one has made. *)
Example C73_over_a_network_ex :
  Forall ntyped (one ++ two) /\ ~ forged sql_store env (one ++ two) /\ nids_differ sql_store env (one ++ two)
  /\ nwell sql_store env (one ++ two) 2 1 (AGet (str "s")) (Ok (VInfo (ISeed (str "s") DemoWorld.infoS))).
Proof.
  split; [apply typedb_ok; vm_compute; reflexivity|]. split; [apply not_forged; vm_compute; reflexivity|].
  split; [apply napart_ids; vm_compute; reflexivity|].
  apply (ngave_well _ 2 1 "b1"); [DemoWorld.txt| |]; vm_compute; reflexivity.
Qed.
