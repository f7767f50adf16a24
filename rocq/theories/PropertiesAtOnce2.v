(** * PropertiesAtOnce2: calls of clients take effect one at a time (C73) *)

From Verif Require Import Base Crypto Toy Types Codec Secret Store StoreProofs Lru Server System ServerSpec ServerVocab
  ServerProofs SystemProofs AnswerProofs ServerTheorems Client Asks World WorldVocab WorldProofs WorldProofs2 WorldProofs3
  AtOnce AtOnceSpec AtOnceProofs2.
From Verif Require PropertiesWorld PropertiesAtOnce.
From Verif Require Import DemoWorld.

Section Calls.
  Variable S : store_impl.
  Variable g : genv.
  Notation C := (g_crypto g).

  (** Call [k] of the client of [cid], a call of the function [a] that gave back [v], took effect in
      one instant: at one moment after it was made and before it was over, the server made a step
      in which the keystore went from [L] to [L'] as if it had handled the call's request alone, and [v] is
      what the client makes of the answer. *)
  Definition call_instant (evs : list wevent) (cid k : nat) (a : ask) (v : res value) : Prop :=
    exists mid tid o rest l c d fb L L' n m,
      evs = mid ++ WServer (EvStep cid tid o) :: rest
      /\ call_at S g mid cid k l c /\ (forall oc, c_st c <> CEnd oc)
      /\ draws_ok d /\ c_req c = request_of C (l_enc l) d a
      /\ holds_just g S (server_evs S g mid) L
      /\ holds_just g S (server_evs S g (mid ++ [WServer (EvStep cid tid o)])) L'
      /\ AtOnceSpec.handled g (l_dec l) (l_enc l) (c_req c) L (unlocked_at S g (server_evs S g mid) cid) fb
           L' (unlocked_at S g (server_evs S g (mid ++ [WServer (EvStep cid tid o)])) cid) m
      /\ give_back C (l_dec l) a (c_req c) (Answer n m) = Some v.
End Calls.

Section Proofs.
  Variable S : store_impl.
  Variable SO : StoreOk S.
  Variable g : genv.
  Hypothesis HC : CryptoOk (g_crypto g).
  Notation C := (g_crypto g).

  Lemma one_event (w : joined S) e : w_evs (wstep S g w e) = w_evs w
    \/ exists ev, w_evs (wstep S g w e) = w_evs w ++ [ev]
         /\ match ev with EvConnect _ _ _ | EvReceive _ _ => True | _ => e = WServer ev end.
  Proof.
    destruct e as [cid2 rx tx|cid2 d a|cid2 e|cid2 k|cid2|ev|cid2|cid2 up]; cbn [wstep].
    - destruct (w_links w !! cid2); [by left|]. destruct (_ && _); [|by left]. right. by exists (EvConnect cid2 rx tx).
    - left. by destruct (w_links w !! cid2).
    - left. destruct (w_links w !! cid2) as [l|]; [|done]. by destruct (own l e).
    - left. destruct (w_links w !! cid2) as [l|]; [|done]. by destruct (may_put l k).
    - destruct (w_links w !! cid2) as [[cl en de [|raw up] down ul dl put ce]|]; [by left| |by left].
      destruct (s_conns S (w_srv w) !! cid2) as [c|]; [|by left]. destruct (takes S c); [|by left].
      right. by exists (EvReceive cid2 raw).
    - destruct ev as [| |cid2 tid o|cid2 tid er|cid2|dd os|]; try (by left); right.
      2: by exists (EvAbort cid2 tid er).
      2: by exists (EvHangup cid2).
      2: by exists (EvDirect dd os).
      2: by exists EvRestart.
      exists (EvStep cid2 tid o). split; [|done]. destruct (w_links w !! cid2); [|done]. destruct (s_conns S (w_srv w) !! cid2); [|done].
      by destruct (s_conns S (w_srv (srv_step S g w (EvStep cid2 tid o))) !! cid2).
    - left. destruct (w_links w !! cid2) as [[cl en de up [|raw down] ul dl put ce]|]; [done| |done]. by destruct (k_recv cl).
    - left. by destruct (w_links w !! cid2).
  Qed.

  Lemma world_split evs : forall p cid tid o q, server_evs S g evs = p ++ EvStep cid tid o :: q ->
    exists mid rest, evs = mid ++ WServer (EvStep cid tid o) :: rest /\ server_evs S g mid = p
      /\ server_evs S g (mid ++ [WServer (EvStep cid tid o)]) = p ++ [EvStep cid tid o].
  Proof.
    induction evs as [|e evs IH] using rev_ind; intros p cid tid o q E.
    - destruct p; done.
    - unfold server_evs in E. rewrite wrun_snoc in E.
      assert (Hold : forall q', server_evs S g evs = p ++ EvStep cid tid o :: q' ->
        exists mid rest, evs ++ [e] = mid ++ WServer (EvStep cid tid o) :: rest /\ server_evs S g mid = p
          /\ server_evs S g (mid ++ [WServer (EvStep cid tid o)]) = p ++ [EvStep cid tid o]).
      { intros q' E'. destruct (IH _ _ _ _ _ E') as (mid & rest & -> & H1 & H2).
        exists mid, (rest ++ [e]). rewrite <- app_assoc. done. }
      destruct (one_event (wrun S g evs) e) as [E1|(ev & E1 & Hev)]; rewrite E1 in E.
      + by apply (Hold q).
      + destruct q as [|x q] using rev_ind.
        * apply app_inj_tail in E as [E Eev]. rewrite Eev in Hev, E1. subst e. exists evs, []. split; [done|]. split; [done|].
          unfold server_evs. rewrite wrun_snoc, E1. by f_equal.
        * change (EvStep cid tid o :: q ++ [x]) with ((EvStep cid tid o :: q) ++ [x]) in E. rewrite app_assoc in E.
          apply app_inj_tail in E as [E _]. by apply (Hold q).
  Qed.

  Lemma same_life post : forall pre cid c c', conn_at S g pre cid c -> (forall rx tx, EvConnect cid rx tx ∉ post) ->
    conn_at S g (pre ++ post) cid c' -> no_restart post.
  Proof.
    induction post as [|ev post IH] using rev_ind; intros pre cid c c' Hc Hn Hc'; [done|].
    rewrite app_assoc in Hc'.
    assert (Hn' : forall rx tx, EvConnect cid rx tx ∉ post).
    { intros rx tx Hin. apply (Hn rx tx). apply elem_of_app. by left. }
    assert (H0 : exists c0, conn_at S g (pre ++ post) cid c0).
    { apply conn_grows in Hc' as [(c0 & Hc0 & _)|(_ & rx & tx & -> & _)]; [by exists c0|].
      exfalso. apply (Hn rx tx). apply elem_of_app. right. by left. }
    destruct H0 as [c0 Hc0]. apply no_restart_app. split; [exact (IH pre cid c c0 Hc Hn' Hc0)|].
    destruct ev; try done. exfalso. unfold conn_at in Hc'. rewrite (run_snoc S g) in Hc'. cbn in Hc'.
    by rewrite lookup_empty in Hc'.
  Qed.

  (** What happened at the server. *)
  Lemma well_serv evs cid k a v : Forall typed evs -> ids_differ S g evs -> well S g evs cid k a v ->
    exists l cl d n m conn tid rq p1 o p2 c0 c1 r fb L L',
      call_at S g evs cid k l cl /\ draws_ok d /\ c_req cl = request_of C (l_enc l) d a /\ c_st cl = CEnd (Answer n m)
      /\ give_back C (l_dec l) a (c_req cl) (Answer n m) = Some v
      /\ WorldVocab.handled S g evs cid conn tid rq /\ rq_msg S rq = c_req cl
      /\ server_evs S g evs = p1 ++ EvStep cid tid o :: p2
      /\ conn_at S g p1 cid c0 /\ received S c0 tid r /\ (forall m', ~ sent S c0 tid m')
      /\ conn_at S g (p1 ++ [EvStep cid tid o]) cid c1
      /\ holds_just g S p1 L /\ holds_just g S (p1 ++ [EvStep cid tid o]) L'
      /\ AtOnceSpec.handled g (c_enc S c0) (c_dec S c0) (c_req cl) L (c_unl S c0) fb L' (c_unl S c1) m.
  Proof.
    intros Ht Hd ((l & cl & d & oc & Hcall & Hdr & Ereq & Hst & Hg) & (l' & cl' & n & m & Hcall' & Hst') & Hsm).
    assert (l' = l /\ cl' = cl) as [-> ->].
    { destruct Hcall as [Hl Hc], Hcall' as [Hl' Hc']. unfold link_at in *. assert (l' = l) as -> by congruence.
      split; [done|congruence]. }
    assert (oc = Answer n m) as -> by congruence. clear Hcall' Hst'.
    destruct (answer_from S SO g HC evs cid l k cl n m Ht Hd Hcall Hst) as (pre & conn & tid & rq & Hp & Hconn & Hq & E & Hdel & K1 & K2).
    assert (Hh : WorldVocab.handled S g evs cid conn tid rq) by (by exists pre).
    pose proof (Hsm _ _ _ _ _ Hcall Hh E) as Hu.
    assert (Hsent : sent S conn tid m) by (by exists true).
    destruct (PropertiesAtOnce.C73_at_one_instant S SO g HC pre cid conn tid rq m Hconn Hq Hu Hsent)
      as (p1 & o & p2 & c0 & c1 & r & fb & L & L' & E1 & Hnr & Hc0 & Hr & Hrm & Hns & Hc1 & HL & HL' & Hhd & _).
    destruct Hp as [x Ex]. rewrite E1, <- app_assoc in Ex. cbn [app] in Ex.
    rewrite E in Hhd.
    by exists l, cl, d, n, m, conn, tid, rq, p1, o, (p2 ++ x), c0, c1, r, fb, L, L'.
  Qed.

  (** At the time when the server has the request of a call but has not answered it, the call has been
      made and is not over. *)
  Lemma call_open mid rest cid k l cl n m conn tid rq c0 r :
    Forall typed (mid ++ rest) -> ids_differ S g (mid ++ rest) -> call_at S g (mid ++ rest) cid k l cl ->
    c_st cl = CEnd (Answer n m) -> WorldVocab.handled S g (mid ++ rest) cid conn tid rq -> rq_msg S rq = c_req cl ->
    conn_at S g (server_evs S g mid) cid c0 -> received S c0 tid r -> (forall m', ~ sent S c0 tid m') ->
    exists l1 cl1, call_at S g mid cid k l1 cl1 /\ (forall oc, c_st cl1 <> CEnd oc) /\ c_req cl1 = c_req cl
      /\ l_enc l1 = l_enc l /\ l_dec l1 = l_dec l /\ c_enc S c0 = l_dec l1 /\ c_dec S c0 = l_enc l1.
  Proof.
    intros Ht Hd Hcall Hst Hh E Hc0 Hr Hns.
    assert (Htm : Forall typed mid) by (by apply Forall_app in Ht as [? _]).
    assert (Hdm : ids_differ S g mid) by (by eapply (ids_app S SO g HC)).
    assert (Hhm : WorldVocab.handled S g mid cid c0 tid r) by (by exists (server_evs S g mid)).
    assert (Hpre : server_evs S g mid `prefix_of` server_evs S g (mid ++ rest)).
    { destruct (wrun_adds S SO g HC mid _ Ht) as (post & (A1 & _) & _). eexists. exact A1. }
    (* the call was made *)
    destruct (w_links (wrun S g mid) !! cid) as [l1|] eqn:El.
    2:{ exfalso. refine (not_handled S SO g HC mid _ cid l k cl tid conn rq Ht Hd _ Hcall Hh E c0 r Hhm).
        intros l2 c2 [Hl2 _]. unfold link_at in Hl2. congruence. }
    destruct (k_calls (l_cli l1) !! k) as [cl1|] eqn:Ec.
    2:{ exfalso. refine (not_handled S SO g HC mid _ cid l k cl tid conn rq Ht Hd _ Hcall Hh E c0 r Hhm).
        intros l2 c2 [Hl2 Hc2]. unfold link_at in Hl2. congruence. }
    assert (Hcm : call_at S g mid cid k l1 cl1) by done.
    assert (Hlat : WorldProofs3.later l1 l).
    { destruct (wrun_adds S SO g HC mid _ Ht) as (post & (_ & _ & A3) & _).
      destruct (A3 cid l1 El) as (l2 & Hl2 & La). destruct Hcall as [Hl _]. unfold link_at in Hl.
      assert (l2 = l) as -> by congruence. done. }
    destruct Hlat as [La1 La2 La3 La4]. destruct (La4 k cl1 Ec) as (cl2 & Ec2 & Er2 & Es2).
    assert (cl2 = cl) as -> by (destruct Hcall as [_ Hc]; congruence).
    exists l1, cl1. split; [done|]. split.
    { (* it was not over *)
      intros oc Hoc. pose proof (Es2 oc Hoc) as Hoc2. assert (oc = Answer n m) as -> by congruence.
      destruct (answer_from S SO g HC mid cid l1 k cl1 n m Htm Hdm Hcm Hoc)
        as (pre' & conn' & tid' & rq' & Hp' & Hconn' & Hq' & E' & Hdel' & _).
      assert (Hpe : pre' `prefix_of` server_evs S g (mid ++ rest)) by (etransitivity; [exact Hp'|exact Hpre]).
      assert (tid' = tid) as ->.
      { refine (PropertiesWorld.C58_once S SO g HC (mid ++ rest) cid k l cl conn' tid' rq' conn tid rq Ht Hd Hcall _ _ Hh E);
          [by exists pre'|congruence]. }
      destruct Hp' as [y Ey].
      assert (Hny : no_restart y).
      { apply (same_life y pre' cid conn' c0 Hconn'); [|by rewrite <- Ey].
        intros rx tx Hin. destruct (conn_connects S g _ _ _ Hconn') as (rx0 & tx0 & Hin0).
        destruct (connects_once S SO g HC mid cid Htm) as [Hone _].
        rewrite Ey in Hone. rewrite List.filter_app, app_length in Hone.
        apply elem_of_list_In in Hin, Hin0.
        assert (F1 : In (EvConnect cid rx0 tx0) (List.filter (is_connect cid) pre')).
        { apply filter_In. split; [done|]. cbn. apply Nat.eqb_refl. }
        assert (F2 : In (EvConnect cid rx tx) (List.filter (is_connect cid) y)).
        { apply filter_In. split; [done|]. cbn. apply Nat.eqb_refl. }
        destruct (List.filter _ pre'); [done|]. destruct (List.filter _ y); [done|]. cbn in Hone. lia. }
      destruct (AtOnceProofs2.keeps S g y pre' cid conn' Hconn' Hny) as (c2 & Hc2 & _ & Hk). rewrite <- Ey in Hc2.
      assert (c2 = c0) as -> by (unfold conn_at in *; congruence).
      eapply Hns, Hk. by exists true. }
    pose proof (wi_link _ _ _ (winv_run S SO g HC mid Htm) cid l1 El) as Hlk.
    destruct (li_keys _ _ _ _ _ Hlk (server_evs S g mid) c0) as [Q1 Q2]; [done|done|].
    split; [congruence|]. done.
  Qed.

  Lemma well_instant evs cid k a v : Forall typed evs -> ids_differ S g evs -> well S g evs cid k a v ->
    call_instant S g evs cid k a v.
  Proof.
    intros Ht Hd Hw.
    destruct (well_serv evs cid k a v Ht Hd Hw) as (l & cl & d & n & m & conn & tid & rq & p1 & o & p2 & c0 & c1 & r & fb & L & L'
      & Hcall & Hdr & Ereq & Hst & Hg & Hh & E & Ex & Hc0 & Hr & Hns & Hc1 & HL & HL' & Hhd).
    destruct (world_split evs _ _ _ _ _ Ex) as (mid & rest & Eevs & M1 & M2). subst evs. rewrite <- M1 in Hc0.
    destruct (call_open mid _ cid k l cl n m conn tid rq c0 r Ht Hd Hcall Hst Hh E Hc0 Hr Hns)
      as (l1 & cl1 & Hcm & Hover & Er & E1 & E2 & Q1 & Q2).
    exists mid, tid, o, rest, l1, cl1, d, fb, L, L', n, m. split; [done|]. split; [done|]. split; [done|]. split; [done|].
    split; [congruence|]. rewrite M1 in *. rewrite M2. split; [done|]. split; [done|]. split.
    - unfold unlocked_at. unfold conn_at in Hc0, Hc1. rewrite Hc0, Hc1. rewrite <- Q1, <- Q2, Er. exact Hhd.
    - rewrite E2, Er. exact Hg.
  Qed.
End Proofs.

(** A call that was answered, and with which the server had no trouble, took effect in one instant
    between being made and being over, whatever else all the clients did at the time. *)
Theorem C73_calls_at_one_instant :
  forall S (SO : StoreOk S) g, CryptoOk (g_crypto g) ->
  forall evs cid k a v, Forall typed evs -> ids_differ S g evs -> well S g evs cid k a v ->
    call_instant S g evs cid k a v.
Proof. intros S SO g HC evs cid k a v Ht Hd Hw. by eapply well_instant. Qed.
Print Assumptions C73_calls_at_one_instant.

(** What [list_entries] gives back is what the keystore held at one moment during the call. *)
Theorem C73_listing_is_a_snapshot :
  forall S (SO : StoreOk S) g, CryptoOk (g_crypto g) ->
  forall evs cid k infos, Forall typed evs -> ids_differ S g evs -> well S g evs cid k AList (Ok (VInfos infos)) ->
    exists mid rest l c L, evs = mid ++ rest /\ call_at S g mid cid k l c /\ (forall oc, c_st c <> CEnd oc)
      /\ holds_just g S (server_evs S g mid) L /\ infos ≡ₚ map info_of L.
Proof.
  intros S SO g HC evs cid k infos Ht Hd Hw.
  destruct (C73_calls_at_one_instant S SO g HC evs cid k _ _ Ht Hd Hw)
    as (mid & tid & o & rest & l & c & d & fb & L & L' & n & m & E & Hc & Hov & _ & Er & HL & _ & (_ & Hst & _ & Hr) & Hg).
  exists mid, (WServer (EvStep cid tid o) :: rest), l, c, L. do 4 (split; [done|]).
  rewrite Er in *. cbn [request_of] in *. unfold give_back, result_of in Hg.
  destruct m; cbn in Hg; try done. unfold stores in Hst. cbn in Hst. subst L'. cbn in Hr.
  destruct Hr as (_ & _ & _ & L1 & P1 & P2 & Hp). injection Hg as <-. by rewrite (anti_symm _ _ _ P1 P2).
Qed.
Print Assumptions C73_listing_is_a_snapshot.

(** In the session of [DemoWorld] the second client lists the three entries the first one has made. *)
Example C73_calls_ex :
  Forall typed (first ++ second) /\ ids_differ sql_store env (first ++ second)
  /\ exists l, well sql_store env (first ++ second) 2 2 AList (Ok (VInfos l)) /\ length l = 3.
Proof.
  split; [apply Forall_app; split; [apply first_typed|apply second_typed]|]. split; [apply both_ids|].
  eexists. split; [apply (gave_well "b2"); [txt|]; vm_compute; reflexivity|]. vm_compute. reflexivity.
Qed.
