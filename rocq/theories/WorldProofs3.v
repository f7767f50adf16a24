(** * WorldProofs3: from the invariant to calls and what they give back *)

From Verif Require Import Base Utf8 Crypto Types Codec CodecProofs CodecProofs2 Secret Store StoreProofs Lru
  Server System ServerSpec ServerVocab ServerProofs ServerProofs2 SystemProofs AnswerProofs ServerTheorems
  Client Asks EchoProofs World WorldVocab WorldProofs WorldProofs2.
From Verif Require PropertiesClient.

Section Calls.
  Variable S : store_impl.
  Variable SO : StoreOk S.
  Variable g : genv.
  Hypothesis HC : CryptoOk (g_crypto g).
  Notation C := (g_crypto g).

  Notation run := (System.run S g).
  Notation conn_at := (ServerVocab.conn_at S g).
  Notation msgs := (msgs S).
  Notation dels := (dels S).
  Notation wrun := (wrun S g).
  Notation winv := (winv S g).
  Notation linv := (linv S g).

  Lemma wrun_app evs more : wrun (evs ++ more) = fold_left (wstep S g) more (wrun evs).
  Proof. unfold World.wrun. by rewrite fold_left_app. Qed.
  Lemma wrun_snoc evs e : wrun (evs ++ [e]) = wstep S g (wrun evs) e.
  Proof. by rewrite wrun_app. Qed.

  (** ** What stays *)

  Record later (l l' : link) : Prop := {
    la_enc : l_enc l' = l_enc l;
    la_dec : l_dec l' = l_dec l;
    la_put : l_put l `prefix_of` l_put l';
    la_calls : forall k c, k_calls (l_cli l) !! k = Some c ->
      exists c', k_calls (l_cli l') !! k = Some c' /\ c_req c' = c_req c
        /\ forall o, c_st c = CEnd o -> c_st c' = CEnd o
  }.
  Lemma later_refl l : later l l.
  Proof. split; try done. intros k c H. by exists c. Qed.
  Lemma later_trans l1 l2 l3 : later l1 l2 -> later l2 l3 -> later l1 l3.
  Proof.
    intros [A1 A2 A3 A4] [B1 B2 B3 B4]. split; [congruence|congruence|by etransitivity|].
    intros k c H. destruct (A4 k c H) as (c' & H' & E & F). destruct (B4 k c' H') as (c2 & H2 & E2 & F2).
    exists c2. split; [done|]. split; [congruence|auto].
  Qed.

  Lemma later_cli l e down : PropertiesClient.pinv (l_cli l) ->
    later l (cli_step (with_down l down) e).
  Proof.
    intros I. split; try done. intros k c H. cbn [cli_step with_down l_cli].
    destruct (PropertiesClient.change_step _ e I k c H) as (c' & H' & E & _ & Hst). exists c'. split; [done|].
    split; [done|]. intros o Ho. destruct Hst as [Hst|[Hl _]]; [congruence|]. unfold PropertiesClient.live in Hl.
    by rewrite Ho in Hl.
  Qed.

  Definition adds (w w' : joined S) (post : list event) : Prop :=
    w_evs w' = w_evs w ++ post
    /\ (forall cid l, w_links w !! cid = Some l -> forall rx tx, EvConnect cid rx tx ∉ post)
    /\ (forall cid l, w_links w !! cid = Some l -> exists l', w_links w' !! cid = Some l' /\ later l l').

  Lemma wstep_adds w e : winv w -> exists post, adds w (wstep S g w e) post
    /\ (e <> WServer EvRestart -> no_restart post).
  Proof.
    intros H.
    assert (Hid : exists post, adds w w post /\ (e <> WServer EvRestart -> no_restart post)).
    { exists []. split; [|done]. split; [by rewrite app_nil_r|]. split; [intros cid l _ rx tx Hin; by apply elem_of_nil in Hin|].
      intros cid l Hl. exists l. split; [done|apply later_refl]. }
    assert (Hset : forall cid l l', w_links w !! cid = Some l -> later l l' ->
      exists post, adds w (set_link S w cid l') post /\ (e <> WServer EvRestart -> no_restart post)).
    { intros cid l l' Hl Hlat. exists []. split; [|done]. split; [cbn; by rewrite app_nil_r|].
      split; [intros c2 l2 _ rx tx Hin; by apply elem_of_nil in Hin|].
      intros cid2 l2 Hl2. cbn [set_link w_links]. destruct (decide (cid2 = cid)) as [->|].
      - exists l'. rewrite lookup_insert. split; [done|]. congruence.
      - exists l2. rewrite lookup_insert_ne by done. split; [done|apply later_refl]. }
    assert (Hsrv : forall ev (links : gmap nat link), (forall cid l rx tx, w_links w !! cid = Some l -> ev <> EvConnect cid rx tx) ->
      (ev = EvRestart -> e = WServer EvRestart) ->
      (forall cid l, w_links w !! cid = Some l -> exists l', links !! cid = Some l' /\ later l l') ->
      exists post, adds w (Joined (step S g (w_srv w) ev) links (w_evs w ++ [ev])) post
        /\ (e <> WServer EvRestart -> no_restart post)).
    { intros ev links Hc Hr Hl. exists [ev]. split.
      - split; [done|]. split; [|done]. intros cid l E rx tx Hin. apply elem_of_list_singleton in Hin.
        by destruct (Hc cid l rx tx E).
      - intros Hn. unfold no_restart. cbn. destruct ev; try done. by destruct (Hn (Hr eq_refl)). }
    assert (Hins : forall cid l l', w_links w !! cid = Some l -> later l l' ->
      forall cid2 l2, w_links w !! cid2 = Some l2 -> exists l3, <[cid := l']> (w_links w) !! cid2 = Some l3 /\ later l2 l3).
    { intros cid l l' Hl Hlat cid2 l2 Hl2. destruct (decide (cid2 = cid)) as [->|].
      - exists l'. rewrite lookup_insert. split; [done|]. congruence.
      - exists l2. rewrite lookup_insert_ne by done. split; [done|apply later_refl]. }
    assert (Hsame : forall cid2 l2, w_links w !! cid2 = Some l2 -> exists l3, w_links w !! cid2 = Some l3 /\ later l2 l3).
    { intros cid2 l2 Hl2. exists l2. split; [done|apply later_refl]. }
    assert (Hpinv : forall cid l, w_links w !! cid = Some l -> PropertiesClient.pinv (l_cli l)).
    { intros cid l Hl. rewrite (li_cli _ _ _ _ _ (wi_link _ _ _ H _ _ Hl)). apply PropertiesClient.pinv_run. }
    destruct e as [cid rx tx|cid d a|cid e|cid k|cid|ev|cid|cid up]; cbn [wstep].
    - destruct (w_links w !! cid) as [l|] eqn:El; [done|]. destruct (_ && _); [|done].
      unfold set_link, srv_step. cbn [w_srv w_links w_evs]. apply Hsrv; [|done|].
      + intros cid2 l rx2 tx2 E [= <- _ _]. congruence.
      + intros cid2 l2 E. rewrite lookup_insert_ne by congruence. by apply Hsame.
    - destruct (w_links w !! cid) as [l|] eqn:El; [|done]. eapply Hset; [done|].
      destruct l. by apply (later_cli _ _ l_down (Hpinv _ _ El)).
    - destruct (w_links w !! cid) as [l|] eqn:El; [|done]. destruct (own l e); [|done]. eapply Hset; [done|].
      destruct l. by apply (later_cli _ _ l_down (Hpinv _ _ El)).
    - destruct (w_links w !! cid) as [l|] eqn:El; [|done]. destruct (may_put l k); [|done]. eapply Hset; [done|].
      split; try done; [by eexists|]. intros j c Hc. by exists c.
    - destruct (w_links w !! cid) as [[cl en de [|raw up] down ul dl put ce]|] eqn:El; [done| |done].
      destruct (s_conns S (w_srv w) !! cid) as [c|] eqn:Ec; [|done]. destruct (takes S c) eqn:Et; [|done].
      unfold set_link, srv_step. cbn [w_srv w_links w_evs]. apply Hsrv; [done|done|]. eapply Hins; [done|].
      split; try done. intros j c2 Hc. by exists c2.
    - destruct ev as [| |cid tid o| | | |]; try done; unfold srv_step; try (by apply Hsrv).
      cbn [w_srv]. destruct (w_links w !! cid) as [l|] eqn:El; [|by apply Hsrv].
      destruct (s_conns S (w_srv w) !! cid) as [c|]; [|by apply Hsrv].
      destruct (s_conns S (step S g (w_srv w) (EvStep cid tid o)) !! cid) as [c'|]; [|by apply Hsrv].
      unfold set_link. cbn [w_srv w_links w_evs]. apply Hsrv; [done|done|]. eapply Hins; [done|].
      split; try done. intros j c2 Hc. by exists c2.
    - destruct (w_links w !! cid) as [[cl en de up [|raw down] ul dl put ce]|] eqn:El; [done| |done].
      destruct (k_recv cl); try done. eapply Hset; [done|].
      apply (later_cli _ _ down (Hpinv _ _ El)).
    - destruct (w_links w !! cid) as [l|] eqn:El; [|done]. eapply Hset; [done|].
      destruct up; (split; try done; intros j c Hc; by exists c).
  Qed.

  Lemma wrun_adds evs more : Forall typed (evs ++ more) -> exists post, adds (wrun evs) (wrun (evs ++ more)) post
    /\ (WServer EvRestart ∉ more -> no_restart post).
  Proof.
    induction more as [|e more IH] using rev_ind; intros Ht.
    - exists []. rewrite app_nil_r. split; [|done]. split; [by rewrite app_nil_r|].
      split; [intros cid l _ rx tx Hin; by apply elem_of_nil in Hin|].
      intros cid l Hl. exists l. split; [done|apply later_refl].
    - rewrite app_assoc in Ht |- *. apply Forall_app in Ht as [Ht He]. destruct (IH Ht) as (post & (A1 & A2 & A3) & A4).
      destruct (wstep_adds (wrun (evs ++ more)) e) as (p2 & (B1 & B2 & B3) & B4); [by apply (winv_run S SO g HC)|].
      rewrite wrun_snoc. exists (post ++ p2). split.
      + split; [by rewrite B1, A1, <- app_assoc|]. split.
        * intros cid l Hl rx tx Hin. apply elem_of_app in Hin as [Hin|Hin]; [by eapply A2|].
          destruct (A3 cid l Hl) as (l' & Hl' & _). by eapply B2.
        * intros cid l Hl. destruct (A3 cid l Hl) as (l' & Hl' & La). destruct (B3 cid l' Hl') as (l2 & Hl2 & Lb).
          exists l2. split; [done|]. by eapply later_trans.
      + intros Hn. unfold no_restart in *. rewrite existsb_app, A4, B4; [done| |].
        * intros ->. apply Hn. apply elem_of_app. right. by left.
        * intros Hin. apply Hn. apply elem_of_app. by left.
  Qed.

  Lemma keeps_lasting evs : Forall typed evs -> keeps S SO evs -> lasting S SO (server_evs S g evs).
  Proof.
    intros Ht [H|H]; [by left|right]. destruct (wrun_adds [] evs Ht) as (post & (E & _) & Hn).
    change ([] ++ evs) with evs in E. change (w_evs (wrun [])) with (@nil event) in E.
    unfold server_evs. rewrite E. by apply Hn.
  Qed.

  (** A connection is made once. *)
  Definition is_connect (cid : nat) (ev : event) : bool :=
    match ev with EvConnect c _ _ => Nat.eqb c cid | _ => false end.

  Lemma connects_once evs cid : Forall typed evs ->
    length (List.filter (is_connect cid) (server_evs S g evs)) <= 1
    /\ (w_links (wrun evs) !! cid = None -> List.filter (is_connect cid) (server_evs S g evs) = []).
  Proof.
    induction evs as [|e evs IH] using rev_ind; intros Ht; [cbn; split; [lia|done]|].
    apply Forall_app in Ht as [Ht He]. destruct (IH Ht) as [I1 I2]. unfold server_evs in *.
    pose proof (winv_run S SO g HC evs Ht) as W.
    rewrite wrun_snoc. destruct (wstep_adds (wrun evs) e W) as (post & (A1 & A2 & A3) & _).
    rewrite A1. rewrite List.filter_app, app_length.
    destruct (w_links (wrun evs) !! cid) as [l|] eqn:El.
    - assert (E : List.filter (is_connect cid) post = []).
      { specialize (A2 cid l El). clear -A2. induction post as [|ev post IH]; [done|]. cbn.
        destruct (is_connect cid ev) eqn:E.
        - exfalso. destruct ev; try done. cbn in E. apply Nat.eqb_eq in E as ->. eapply A2. by left.
        - apply IH. intros rx tx Hin. eapply A2. by right. }
      rewrite E. cbn. split; [lia|]. intros En. destruct (A3 cid l El) as (l' & El' & _). congruence.
    - rewrite (I2 eq_refl). cbn [length app].
      (* at most one event is added *)
      assert (Hp : length post <= 1 /\ (List.filter (is_connect cid) post <> [] -> is_Some (w_links (wstep S g (wrun evs) e) !! cid))).
      { assert (Hlen : forall w' : joined S, w_evs w' = w_evs (wrun evs) ++ post -> w_evs w' = w_evs (wrun evs) -> post = []).
        { intros w' E1 E2. rewrite E2 in E1. rewrite <- (app_nil_r (w_evs (wrun evs))) in E1 at 1.
          by apply app_inv_head in E1. }
        assert (Hone : forall (w' : joined S) ev, w_evs w' = w_evs (wrun evs) ++ post -> w_evs w' = w_evs (wrun evs) ++ [ev] -> post = [ev]).
        { intros w' ev E1 E2. rewrite E2 in E1. by apply app_inv_head in E1. }
        destruct e as [cid2 rx tx|cid2 d a|cid2 e|cid2 k|cid2|ev|cid2|cid2 up]; cbn [wstep] in *.
        - destruct (w_links (wrun evs) !! cid2) as [l|] eqn:El2; [rewrite (Hlen _ A1 eq_refl); cbn; split; [lia|done]|].
          destruct (_ && _); [|rewrite (Hlen _ A1 eq_refl); cbn; split; [lia|done]].
          rewrite (Hone _ (EvConnect cid2 rx tx) A1 eq_refl). cbn. split; [lia|].
          destruct (Nat.eqb cid2 cid) eqn:E; [|done]. apply Nat.eqb_eq in E as ->. intros _.
          rewrite lookup_insert. by eexists.
        - destruct (w_links (wrun evs) !! cid2) as [l|]; rewrite (Hlen _ A1 eq_refl); cbn; (split; [lia|done]).
        - destruct (w_links (wrun evs) !! cid2) as [l|]; [destruct (own l e)|]; rewrite (Hlen _ A1 eq_refl); cbn; (split; [lia|done]).
        - destruct (w_links (wrun evs) !! cid2) as [l|]; [destruct (may_put l k)|]; rewrite (Hlen _ A1 eq_refl); cbn; (split; [lia|done]).
        - destruct (w_links (wrun evs) !! cid2) as [[cl en de [|raw up] down ul dl put ce]|];
            [rewrite (Hlen _ A1 eq_refl); cbn; (split; [lia|done])| |rewrite (Hlen _ A1 eq_refl); cbn; (split; [lia|done])].
          destruct (s_conns S (w_srv (wrun evs)) !! cid2) as [c|]; [|rewrite (Hlen _ A1 eq_refl); cbn; (split; [lia|done])].
          destruct (takes S c); [|rewrite (Hlen _ A1 eq_refl); cbn; (split; [lia|done])].
          rewrite (Hone _ (EvReceive cid2 raw) A1 eq_refl). cbn. split; [lia|done].
        - destruct ev as [| |cid2 tid o| | | |]; try (rewrite (Hlen _ A1 eq_refl); cbn; (split; [lia|done]));
            try (rewrite (Hone _ _ A1 eq_refl); cbn; (split; [lia|done])).
          destruct (w_links (wrun evs) !! cid2) as [l|]; [|rewrite (Hone _ _ A1 eq_refl); cbn; (split; [lia|done])].
          destruct (s_conns S (w_srv (wrun evs)) !! cid2) as [c|]; [|rewrite (Hone _ _ A1 eq_refl); cbn; (split; [lia|done])].
          destruct (s_conns S (w_srv (srv_step S g (wrun evs) (EvStep cid2 tid o))) !! cid2) as [c'|];
            rewrite (Hone _ _ A1 eq_refl); cbn; (split; [lia|done]).
        - destruct (w_links (wrun evs) !! cid2) as [[cl en de up [|raw down] ul dl put ce]|];
            [| destruct (k_recv cl)|]; rewrite (Hlen _ A1 eq_refl); cbn; (split; [lia|done]).
        - destruct (w_links (wrun evs) !! cid2) as [l|]; rewrite (Hlen _ A1 eq_refl); cbn; (split; [lia|done]). }
      destruct Hp as [Hp1 Hp2]. split.
      + etransitivity; [|exact Hp1]. clear. induction post as [|ev post IH]; cbn; [lia|]. destruct (is_connect cid ev); cbn; lia.
      + intros En. destruct (List.filter (is_connect cid) post) as [|x y] eqn:Ef; [done|].
        destruct (Hp2 ltac:(done)) as [l' El']. congruence.
  Qed.

  (** ** Requests written and calls *)

  Lemma asked_lookup evs cid l i r : linv evs cid l ->
    asked_for l !! i = Some r <-> exists k c, l_put l !! i = Some k /\ k_calls (l_cli l) !! k = Some c /\ c_req c = r.
  Proof.
    intros H. pose proof (li_put _ _ _ _ _ H) as Hp. unfold asked_for. revert i Hp. generalize (l_put l) as ks.
    induction ks as [|k ks IH]; intros i Hp; [split; [done|]; by intros (? & ? & ? & _)|].
    destruct (Hp k) as [c Hc]; [by left|]. cbn [omap list_omap]. rewrite Hc. cbn [option_map].
    destruct i as [|i]; cbn.
    - split; [intros [= <-]; by exists k, c|]. intros (k' & c' & [= <-] & Hc' & <-). congruence.
    - rewrite IH; [done|]. intros k' Hk'. apply Hp. by right.
  Qed.

  Lemma same_call l k k' c c' : NoDup (map (fun c => msg_id (c_req c)) (k_calls (l_cli l))) ->
    k_calls (l_cli l) !! k = Some c -> k_calls (l_cli l) !! k' = Some c' ->
    msg_id (c_req c) = msg_id (c_req c') -> k = k'.
  Proof.
    intros Hd Hc Hc' E. eapply (NoDup_lookup _ _ _ (msg_id (c_req c)) Hd).
    - by rewrite list_lookup_fmap, Hc.
    - by rewrite list_lookup_fmap, Hc', E.
  Qed.

  (** A request received over the connection that is the request of call [k]. *)
  Lemma handled_call evs cid l c k cl tid rq : Forall typed evs -> ids_differ S g evs ->
    call_at S g evs cid k l cl -> handled S g evs cid c tid rq ->
    msg_id (rq_msg S rq) = msg_id (c_req cl) -> l_put l !! tid = Some k /\ rq_msg S rq = c_req cl.
  Proof.
    intros Ht Hd [Hl Hc] (pre & Hp & Hconn & Hq) Hid.
    pose proof (wi_link _ _ _ (winv_run S SO g HC evs Ht) cid l Hl) as H.
    destruct (li_up _ _ _ _ _ H pre c Hp Hconn) as [x Ex].
    assert (Ha : asked_for l !! tid = Some (rq_msg S rq)).
    { rewrite Ex, lookup_app_l.
      - unfold WorldProofs.msgs. rewrite list_lookup_fmap. unfold ServerVocab.received in Hq. by rewrite Hq.
      - unfold WorldProofs.msgs. rewrite map_length. by eapply lookup_lt_Some. }
    apply (asked_lookup _ _ _ _ _ H) in Ha as (k' & c' & Hk' & Hc' & E).
    assert (k' = k) as ->.
    { eapply (same_call l k' k c' cl); [by eapply Hd|done|done|congruence]. }
    split; [done|]. congruence.
  Qed.

  (** A call that was not made has not been handled. *)
  Lemma not_handled evs more cid l k cl tid c rq : Forall typed (evs ++ more) -> ids_differ S g (evs ++ more) ->
    not_made S g evs cid k -> call_at S g (evs ++ more) cid k l cl ->
    handled S g (evs ++ more) cid c tid rq -> rq_msg S rq = c_req cl ->
    forall c0 rq0, ~ handled S g evs cid c0 tid rq0.
  Proof.
    intros Ht Hd Hn Hc Hh E c0 rq0 Hh0.
    destruct (handled_call _ _ _ _ _ _ _ _ Ht Hd Hc Hh ltac:(by rewrite E)) as [Hput _].
    assert (Ht0 : Forall typed evs) by (by apply Forall_app in Ht as [? _]).
    destruct Hh0 as (pre0 & Hp0 & Hc0 & Hq0).
    pose proof (winv_run S SO g HC evs Ht0) as W.
    destruct (wi_conn _ _ _ W pre0 cid c0 Hp0 Hc0) as [l0 Hl0].
    pose proof (wi_link _ _ _ W cid l0 Hl0) as H0.
    destruct (li_up _ _ _ _ _ H0 pre0 c0 Hp0 Hc0) as [x Ex].
    assert (Ha : asked_for l0 !! tid = Some (rq_msg S rq0)).
    { rewrite Ex, lookup_app_l.
      - unfold WorldProofs.msgs. rewrite list_lookup_fmap. unfold ServerVocab.received in Hq0. by rewrite Hq0.
      - unfold WorldProofs.msgs. rewrite map_length. by eapply lookup_lt_Some. }
    apply (asked_lookup _ _ _ _ _ H0) in Ha as (k' & c' & Hk' & Hc' & _).
    destruct (wrun_adds evs more Ht) as (post & (_ & _ & A3) & _).
    destruct (A3 cid l0 Hl0) as (l1 & Hl1 & La). destruct Hc as [Hl Hcl]. unfold link_at in Hl.
    assert (l1 = l) as -> by congruence.
    destruct (la_put _ _ La) as [y Ey]. rewrite Ey, lookup_app_l in Hput by (by eapply lookup_lt_Some).
    assert (k' = k) as -> by congruence. by eapply (Hn l0 c').
  Qed.

  (** ** Where an answer comes from *)

  Lemma answer_from evs cid l k c n m : Forall typed evs -> ids_differ S g evs ->
    call_at S g evs cid k l c -> c_st c = CEnd (Answer n m) ->
    exists pre conn tid rq, pre `prefix_of` server_evs S g evs /\ conn_at pre cid conn
      /\ ServerVocab.received S conn tid rq /\ rq_msg S rq = c_req c /\ ServerVocab.delivered S conn tid m
      /\ c_dec S conn = l_enc l /\ c_enc S conn = l_dec l.
  Proof.
    intros Ht Hd Hcall Hst. pose proof Hcall as [Hl Hc].
    pose proof (wi_link _ _ _ (winv_run S SO g HC evs Ht) cid l Hl) as H.
    pose proof (li_cli _ _ _ _ _ H) as Ecli. pose proof Hc as Hc1. rewrite Ecli in Hc1.
    pose proof (PropertiesClient.hinv_run (l_evs l)) as Hh.
    pose proof (PropertiesClient.h_end _ _ Hh _ _ _ _ Hc1 Hst) as Hm.
    destruct (PropertiesClient.h_call _ _ Hh k c Hc1) as (before & after & _ & _ & Hx).
    destruct (Hx n m Hm) as (Hrec & Hid & _).
    destruct (li_down _ _ _ _ _ H) as (dl & downs & tail & D1 & _ & [y Ey] & _).
    assert (Hin : exists t, (t, m) ∈ dl).
    { assert (Hi : m ∈ (snd <$> dl)).
      { rewrite Ey. apply elem_of_app. left. by eapply elem_of_list_lookup_2. }
      apply elem_of_list_fmap in Hi as ([t m'] & -> & Hi). by exists t. }
    destruct Hin as [tid Hin]. rewrite Forall_forall in D1. specialize (D1 _ Hin).
    destruct (said_about S SO g HC _ _ _ _ H D1) as (pre & conn & rq & Hp & Hconn & Hdel & Hq & _ & Hid2 & _).
    cbn [fst snd] in *. exists pre, conn, tid, rq.
    assert (Hhd : handled S g evs cid conn tid rq) by (exists pre; done).
    destruct (handled_call evs cid l conn k c tid rq Ht Hd Hcall Hhd) as [_ E]; [congruence|].
    destruct (li_keys _ _ _ _ _ H pre conn Hp Hconn) as [K1 K2]. done.
  Qed.

  (** ** What calls give back *)

  (** The server answered call [k], which asked [a], with [m]. *)
  Record served (evs : list wevent) (cid k : nat) (a : ask) (pre : list event) (c : conn S) (tid : nat)
      (rq : request S) (d : draws) (m : api) : Prop := {
    se_pre : pre `prefix_of` server_evs S g evs;
    se_conn : conn_at pre cid c;
    se_rq : ServerVocab.received S c tid rq;
    se_msg : rq_msg S rq = request_of C (c_dec S c) d a;
    se_draws : draws_ok d;
    se_sent : ServerVocab.sent S c tid m;
    se_call : exists l cl, call_at S g evs cid k l cl /\ rq_msg S rq = c_req cl
  }.

  Lemma replied_served evs cid k a v : Forall typed evs -> ids_differ S g evs ->
    gives S g evs cid k a v -> replied S g evs cid k ->
    exists pre c tid rq d m, served evs cid k a pre c tid rq d m
      /\ match m with
         | ResError _ e => v = Err e
         | _ => if Client.answers (rq_msg S rq) m then value_of C (c_enc S c) a m = Some v
                else v = Err (str "unexpected response type")
         end.
  Proof.
    intros Ht Hd (l & cl & d & o & Hcall & Hdr & Ereq & Hst & Hg) (l' & cl' & n & m & Hcall' & Hst').
    assert (l' = l /\ cl' = cl) as [-> ->].
    { destruct Hcall as [Hl Hc], Hcall' as [Hl' Hc']. unfold link_at in *. assert (l' = l) as -> by congruence.
      split; [done|congruence]. }
    assert (o = Answer n m) as -> by congruence.
    destruct (answer_from evs cid l k cl n m Ht Hd Hcall Hst) as (pre & c & tid & rq & Hp & Hconn & Hq & E & Hdel & K1 & K2).
    exists pre, c, tid, rq, d, m. split.
    - split; try done; [congruence|by exists true|]. by exists l, cl.
    - unfold give_back, result_of in Hg. rewrite E, K2. destruct m; try (by injection Hg as <-);
        (destruct (Client.answers (c_req cl) _); [exact Hg|by injection Hg as <-]).
  Qed.

  Lemma ok_replied evs cid k a v : gives S g evs cid k a (Ok v) -> replied S g evs cid k.
  Proof.
    intros (l & c & d & o & Hcall & Hdr & E & Hst & Hg). destruct o as [n m| | | |]; try done.
    by exists l, c, n, m.
  Qed.

  Lemma ok_served evs cid k a v : Forall typed evs -> ids_differ S g evs ->
    gives S g evs cid k a (Ok v) ->
    exists pre c tid rq d m, served evs cid k a pre c tid rq d m /\ is_error m = false
      /\ value_of C (c_enc S c) a m = Some (Ok v).
  Proof.
    intros Ht Hd Hg. destruct (replied_served evs cid k a _ Ht Hd Hg (ok_replied _ _ _ _ _ Hg))
      as (pre & c & tid & rq & d & m & Hs & Hm).
    exists pre, c, tid, rq, d, m. split; [done|].
    destruct m; try done; (split; [done|]); by destruct (Client.answers _ _).
  Qed.

  Lemma served_right evs cid k a pre c tid rq d m : served evs cid k a pre c tid rq d m -> is_error m = false ->
    exists L0 w, meaning S g pre c rq m L0 w
      /\ right_answer g (c_enc S c) (c_dec S c) L0 (request_of C (c_dec S c) d a) w m.
  Proof.
    intros [H1 H2 H3 H4 H5 H6 H7] He. rewrite <- H4. by eapply (right_meaning S SO g HC).
  Qed.

  (** What was stored then is stored now. *)
  Lemma served_stored evs cid k a pre c tid rq d m e : Forall typed evs -> keeps S SO evs ->
    served evs cid k a pre c tid rq d m ->
    ServerVocab.stored S g pre e -> ServerVocab.stored S g (server_evs S g evs) e.
  Proof.
    intros Ht Hk [[post Hp] _ _ _ _ _ _] He. pose proof (keeps_lasting evs Ht Hk) as Hl.
    rewrite Hp in Hl |- *. apply (stored_lasts S SO g HC); [done|].
    destruct Hl as [Hl|Hl]; [by left|right]. unfold no_restart in *. rewrite existsb_app in Hl.
    by apply orb_false_elim in Hl as [_ ?].
  Qed.

  Lemma stored_more evs more e : Forall typed (evs ++ more) -> keeps S SO (evs ++ more) ->
    ServerVocab.stored S g (server_evs S g evs) e -> ServerVocab.stored S g (server_evs S g (evs ++ more)) e.
  Proof.
    intros Ht Hk He. pose proof (keeps_lasting _ Ht Hk) as Hl. unfold server_evs in *.
    destruct (wrun_adds evs more Ht) as (post & (A1 & _) & _). rewrite A1 in Hl |- *.
    apply (stored_lasts S SO g HC); [done|].
    destruct Hl as [Hl|Hl]; [by left|right]. unfold no_restart in *. rewrite existsb_app in Hl.
    by apply orb_false_elim in Hl as [_ ?].
  Qed.

  (** What was stored before a call was made was there when it arrived. *)
  Lemma served_after evs more cid k a pre c tid rq d m e :
    Forall typed (evs ++ more) -> ids_differ S g (evs ++ more) -> keeps S SO (evs ++ more) ->
    served (evs ++ more) cid k a pre c tid rq d m -> not_made S g evs cid k ->
    ServerVocab.stored S g (server_evs S g evs) e -> held_before S rq e.
  Proof.
    intros Ht Hd Hk [H1 H2 H3 H4 H5 H6 (l & cl & H7 & H8)] Hn He.
    assert (Hno : forall c0 rq0, ~ handled S g evs cid c0 tid rq0).
    { eapply (not_handled evs more cid l k cl tid c rq); try done. by exists pre. }
    destruct (wrun_adds evs more Ht) as (post & (A1 & _) & _). fold (server_evs S g evs) in A1.
    unfold server_evs in H1. fold wrun in H1. rewrite A1 in H1.
    assert (Hcmp : pre `prefix_of` server_evs S g evs \/ exists p2, pre = server_evs S g evs ++ p2).
    { destruct H1 as [x Ex]. destruct (decide (length pre <= length (server_evs S g evs))).
      - left. exists (drop (length pre) (server_evs S g evs)).
        pose proof (f_equal (take (length (server_evs S g evs))) Ex) as Et. rewrite take_app in Et.
        rewrite Et at 1. rewrite take_app_ge by lia. f_equal.
        pose proof (f_equal (drop (length pre)) Et) as Edr. rewrite take_app_ge, drop_app in Edr by lia. done.
      - right. exists (drop (length (server_evs S g evs)) pre).
        pose proof (f_equal (take (length (server_evs S g evs))) Ex) as Et. rewrite take_app in Et.
        rewrite take_app_le in Et by lia. rewrite <- (take_drop (length (server_evs S g evs)) pre) at 1. by rewrite <- Et. }
    destruct Hcmp as [Hpre|[p2 ->]].
    - exfalso. apply (Hno c rq). by exists pre.
    - assert (Hl : lasting S SO p2).
      { pose proof (keeps_lasting _ Ht Hk) as Hl. unfold server_evs at 1 in Hl. fold wrun in Hl. rewrite A1 in Hl.
        destruct H1 as [x Ex]. rewrite Ex in Hl. destruct Hl as [Hl|Hl]; [by left|right].
        unfold no_restart in *. rewrite !existsb_app in Hl. apply orb_false_elim in Hl as [Hl _].
        by apply orb_false_elim in Hl as [_ ?]. }
      eapply (fresh_request S SO g HC p2 (server_evs S g evs) cid c tid rq e); [done|done| |done|done].
      right. intros c0 rq0 Hc0 Hq0. apply (Hno c0 rq0). exists (server_evs S g evs). done.
  Qed.

  (** ** Unlocked connections *)

  Lemma conn_connects evs cid c : conn_at evs cid c -> exists rx tx, EvConnect cid rx tx ∈ evs.
  Proof.
    revert c. induction evs as [|ev evs IH] using rev_ind; intros c Hc; [done|].
    apply conn_grows in Hc as [(c0 & Hc0 & _)|(_ & rx & tx & -> & _)].
    - destruct (IH c0 Hc0) as (rx & tx & Hin). exists rx, tx. apply elem_of_app. by left.
    - exists rx, tx. apply elem_of_app. right. by left.
  Qed.

  Lemma unl_kept post : forall pre cid c c' tid rq,
    conn_at pre cid c -> c_unl S c = true -> (forall rx tx, EvConnect cid rx tx ∉ post) ->
    conn_at (pre ++ post) cid c' ->
    c_unl S c' = true /\ (ServerVocab.received S c' tid rq -> length (c_reqs S c) <= tid -> rq_unl S rq = true).
  Proof.
    induction post as [|ev post IH] using rev_ind; intros pre cid c c' tid rq Hc Hu Hn Hc'.
    - rewrite app_nil_r in Hc'. unfold ServerVocab.conn_at in *. assert (c' = c) as -> by congruence.
      split; [done|]. intros Hq Hlen. apply lookup_lt_Some in Hq. lia.
    - rewrite app_assoc in Hc'.
      assert (Hn' : forall rx tx, EvConnect cid rx tx ∉ post).
      { intros rx tx Hin. apply (Hn rx tx). apply elem_of_app. by left. }
      assert (H0 : exists c0, conn_at (pre ++ post) cid c0).
      { apply conn_grows in Hc' as [(c0 & Hc0 & _)|(_ & rx & tx & -> & _)]; [by exists c0|].
        exfalso. apply (Hn rx tx). apply elem_of_app. right. by left. }
      destruct H0 as [c0 Hc0].
      assert (Hnr : is_restart ev = false).
      { destruct ev; try done. exfalso. unfold ServerVocab.conn_at in Hc'. rewrite (run_snoc S g) in Hc'. cbn in Hc'.
        by rewrite lookup_empty in Hc'. }
      destruct (step_conn S SO g HC (pre ++ post) ev cid c0 Hc0 Hnr) as (c1 & Hc1 & _ & _ & _ & U).
      assert (c1 = c') as -> by (unfold ServerVocab.conn_at in *; congruence).
      destruct (IH pre cid c c0 tid rq Hc Hu Hn' Hc0) as [U0 _].
      split; [by destruct U as [->|[-> _]]|].
      intros Hq Hlen.
      (* the request was there already, or came now *)
      assert (Hcase : (exists rq0, ServerVocab.received S c0 tid rq0 /\ rq_unl S rq = rq_unl S rq0) \/ rq_unl S rq = c_unl S c0).
      { unfold ServerVocab.conn_at in Hc', Hc0. rewrite (run_snoc S g) in Hc'. unfold ServerVocab.received in *.
        assert (Hsame : s_conns S (run (pre ++ post)) !! cid = Some c' ->
          (exists rq0, c_reqs S c0 !! tid = Some rq0 /\ rq_unl S rq = rq_unl S rq0) \/ rq_unl S rq = c_unl S c0).
        { intros E. assert (c' = c0) as -> by congruence. left. by exists rq. }
        assert (Hmark : forall t b, mark_fail S (c_reqs S c0) t b !! tid = Some rq ->
          (exists rq0, c_reqs S c0 !! tid = Some rq0 /\ rq_unl S rq = rq_unl S rq0) \/ rq_unl S rq = c_unl S c0).
        { intros t b E. left. unfold mark_fail in E. destruct (decide (t = tid)) as [->|].
          - rewrite list_lookup_alter in E. destruct (c_reqs S c0 !! tid) as [rq0|]; [|done]. injection E as <-. by exists rq0.
          - rewrite list_lookup_alter_ne in E by done. by exists rq. }
        destruct ev as [cid2 rx tx|cid2 raw|cid2 tid2 o|cid2 tid2 e|cid2|dd os|]; cbn [step] in Hc'; try done.
        - destruct (s_conns S (run (pre ++ post)) !! cid2) eqn:E2; [by apply Hsame|].
          destruct (_ && _); [|by apply Hsame]. cbn [s_conns] in Hc'. rewrite lookup_insert_ne in Hc' by congruence. by apply Hsame.
        - destruct (s_conns S (run (pre ++ post)) !! cid2) as [c2|] eqn:E2; [|by apply Hsame]. cbn [s_conns] in Hc'.
          destruct (decide (cid2 = cid)) as [->|Hne]; [|rewrite lookup_insert_ne in Hc' by done; by apply Hsame].
          rewrite lookup_insert in Hc'. assert (c2 = c0) as -> by congruence. injection Hc' as <-. unfold receive in Hq.
          destruct (c_open S c0 && _); [|left; by exists rq].
          destruct (decode_api raw) as [a|]; cbn [c_reqs] in Hq; [|left; by exists rq].
          apply lookup_app_Some in Hq as [Hq|[_ Hq]]; [left; by exists rq|].
          apply list_lookup_singleton_Some in Hq as [_ <-]. by right.
        - destruct (s_conns S (run (pre ++ post)) !! cid2) as [c2|] eqn:E2; [|by apply Hsame].
          destruct (step_thread S g (s_sh S (run (pre ++ post))) c2 tid2 o) as [sh' c3] eqn:Es. cbn [s_conns] in Hc'.
          destruct (decide (cid2 = cid)) as [->|Hne]; [|rewrite lookup_insert_ne in Hc' by done; by apply Hsame].
          rewrite lookup_insert in Hc'. assert (c2 = c0) as -> by congruence. injection Hc' as ->.
          apply (f_equal snd) in Es. cbn [snd] in Es. subst c'. unfold step_thread in Hq.
          destruct (c_thr S c0 !! tid2) as [[p|er]|].
          + revert Hq. generalize (step1 S g (s_sh S (run (pre ++ post))) (c_unl S c0) p o). intros r Hq.
            destruct (r_prog S r); cbn [snd c_reqs] in Hq; [by eapply Hmark|left; by exists rq].
          + destruct (c_reqs S c0 !! tid2); cbn [snd c_reqs] in Hq; [by eapply Hmark|left; by exists rq].
          + left. by exists rq.
        - destruct (s_conns S (run (pre ++ post)) !! cid2) as [c2|] eqn:E2; [|by apply Hsame]. cbn [s_conns] in Hc'.
          destruct (decide (cid2 = cid)) as [->|Hne]; [|rewrite lookup_insert_ne in Hc' by done; by apply Hsame].
          rewrite lookup_insert in Hc'. assert (c2 = c0) as -> by congruence. injection Hc' as <-. unfold abort_thread in Hq.
          destruct (c_thr S c0 !! tid2) as [[p|er]|]; cbn [c_reqs] in Hq; [by eapply Hmark|left; by exists rq|left; by exists rq].
        - destruct (s_conns S (run (pre ++ post)) !! cid2) as [c2|] eqn:E2; [|by apply Hsame]. cbn [s_conns] in Hc'.
          destruct (decide (cid2 = cid)) as [->|Hne]; [|rewrite lookup_insert_ne in Hc' by done; by apply Hsame].
          rewrite lookup_insert in Hc'. assert (c2 = c0) as -> by congruence. injection Hc' as <-. left. by exists rq.
        - destruct (direct_okb dd); by apply Hsame. }
      destruct Hcase as [(rq0 & Hq0 & ->)| ->]; [|done].
      destruct (IH pre cid c c0 tid rq0 Hc Hu Hn' Hc0) as [_ Hr]. by apply Hr.
  Qed.

  Lemma prefix_cmp {A} (a b c : list A) : a `prefix_of` c -> b `prefix_of` c -> a `prefix_of` b \/ b `prefix_of` a.
  Proof.
    intros [x ->]. revert b. induction a as [|y a IH]; intros b Hb; [left; apply prefix_nil|].
    destruct b as [|z b]; [right; apply prefix_nil|]. destruct Hb as [k Ek]. cbn in Ek. injection Ek as -> Ek.
    destruct (IH b) as [H|H]; [by exists k|left|right]; by apply prefix_cons.
  Qed.

  (** Once unlocked, every later call finds its connection unlocked. *)
  Lemma unlocked_after evs more cid k a pre c tid rq d m pre0 c0 :
    Forall typed (evs ++ more) -> ids_differ S g (evs ++ more) ->
    served (evs ++ more) cid k a pre c tid rq d m -> not_made S g evs cid k ->
    pre0 `prefix_of` server_evs S g evs -> conn_at pre0 cid c0 -> c_unl S c0 = true ->
    came_unlocked S rq.
  Proof.
    intros Ht Hd [H1 H2 H3 H4 H5 H6 (l & cl & H7 & H8)] Hn Hp0 Hc0 Hu.
    assert (Hno : forall c0 rq0, ~ handled S g evs cid c0 tid rq0).
    { eapply (not_handled evs more cid l k cl tid c rq); try done. by exists pre. }
    destruct (wrun_adds evs more Ht) as (post & (A1 & _) & _).
    assert (Hp1 : pre0 `prefix_of` server_evs S g (evs ++ more)).
    { etransitivity; [exact Hp0|]. exists post. exact A1. }
    destruct (prefix_cmp _ _ _ H1 Hp1) as [Hc|Hc].
    - exfalso. apply (Hno c rq). exists pre. split; [by etransitivity|done].
    - destruct Hc as [p2 ->].
      destruct (unl_kept p2 pre0 cid c0 c tid rq Hc0 Hu) as [_ Hr]; [|done|].
      + intros rx tx Hin. destruct (conn_connects _ _ _ Hc0) as (rx0 & tx0 & Hin0).
        destruct (connects_once (evs ++ more) cid Ht) as [Hone _].
        destruct H1 as [x Ex]. rewrite Ex in Hone. rewrite !List.filter_app, !app_length in Hone.
        apply elem_of_list_In in Hin, Hin0.
        assert (F1 : In (EvConnect cid rx0 tx0) (List.filter (is_connect cid) pre0)).
        { apply filter_In. split; [done|]. cbn. apply Nat.eqb_refl. }
        assert (F2 : In (EvConnect cid rx tx) (List.filter (is_connect cid) p2)).
        { apply filter_In. split; [done|]. cbn. apply Nat.eqb_refl. }
        destruct (List.filter _ pre0); [done|]. destruct (List.filter _ p2); [done|]. cbn in Hone. lia.
      + unfold came_unlocked. apply Hr; [done|]. destruct (le_lt_dec (length (c_reqs S c0)) tid) as [?|Hlt]; [done|].
        exfalso. apply lookup_lt_is_Some in Hlt as [rq0 Hrq0]. apply (Hno c0 rq0). by exists pre0.
  Qed.

  (** A passphrase hidden by the client is what the server opens. *)
  Lemma hide_opens key hdr pass : sec_open C 64 key (hide C key hdr pass) = Ok (blake2b C 64 pass).
  Proof.
    unfold hide. pose proof (sec_open_encrypt C HC key hdr (blake2b C 64 pass)) as H. by rewrite (blake2b_len C HC) in H.
  Qed.
End Calls.

Section Later.
  Variable S : store_impl.
  Variable SO : StoreOk S.
  Variable g : genv.
  Hypothesis HC : CryptoOk (g_crypto g).
  Notation C := (g_crypto g).

  Notation conn_at := (ServerVocab.conn_at S g).
  Notation served := (served S g).

  Definition outcome_is (evs : list wevent) (a : ask) (c : conn S) (rq : request S) (m : api) (v : res value) : Prop :=
    match m with
    | ResError _ e => v = Err e
    | _ => if Client.answers (rq_msg S rq) m then value_of C (c_enc S c) a m = Some v
           else v = Err (str "unexpected response type")
    end.

  Lemma keeps_app evs more : keeps S SO (evs ++ more) -> keeps S SO evs.
  Proof. intros [H|H]; [by left|right]. intros Hin. apply H. apply elem_of_app. by left. Qed.

  Lemma ids_app evs more : Forall typed (evs ++ more) -> ids_differ S g (evs ++ more) -> ids_differ S g evs.
  Proof.
    intros Ht Hd cid l Hl. destruct (wrun_adds S SO g HC evs more Ht) as (post & (_ & _ & A3) & _).
    destruct (A3 cid l Hl) as (l' & Hl' & La). specialize (Hd cid l' Hl').
    assert (Hp : map (fun c => msg_id (c_req c)) (k_calls (l_cli l))
      `prefix_of` map (fun c => msg_id (c_req c)) (k_calls (l_cli l'))).
    { pose proof (la_calls _ _ La) as H. clear -H. revert H. generalize (k_calls (l_cli l)) (k_calls (l_cli l')).
      intros xs. induction xs as [|x xs IH]; intros ys H; [apply prefix_nil|].
      destruct ys as [|y ys]; [by destruct (H 0 x eq_refl) as (? & ? & _)|].
      destruct (H 0 x eq_refl) as (y' & [= <-] & E & _). cbn. rewrite E. apply prefix_cons. apply IH.
      intros k c Hk. apply (H (Datatypes.S k) c Hk). }
    destruct Hp as [z Ez]. rewrite Ez in Hd. by apply NoDup_app in Hd as [? _].
  Qed.

  (** What a call has given back, it has given back for good. *)
  Lemma gives_more evs more cid k a r : Forall typed (evs ++ more) -> gives S g evs cid k a r ->
    gives S g (evs ++ more) cid k a r.
  Proof.
    intros Ht (l & c & d & o & [Hl Hc] & Hd & Hq & Hs & Hb).
    destruct (wrun_adds S SO g HC evs more Ht) as (post & (_ & _ & A3) & _).
    destruct (A3 cid l Hl) as (l' & Hl' & [E1 E2 _ Hcalls]). destruct (Hcalls k c Hc) as (c' & Hc' & Eq & F).
    exists l', c', d, o. split; [by split|]. split; [done|]. rewrite E1, E2, Eq. split; [done|]. split; [by apply F|done].
  Qed.

  Lemma well_served evs cid k a v : Forall typed evs -> ids_differ S g evs -> well S g evs cid k a v ->
    exists pre c tid rq d m, served evs cid k a pre c tid rq d m /\ undisturbed S rq /\ outcome_is evs a c rq m v.
  Proof.
    intros Ht Hd (Hg & Hr & Hs). destruct (replied_served S SO g HC evs cid k a v Ht Hd Hg Hr)
      as (pre & c & tid & rq & d & m & Hsv & Hm).
    exists pre, c, tid, rq, d, m. split; [done|]. split; [|done].
    destruct Hsv as [H1 H2 H3 H4 H5 H6 (l & cl & H7 & H8)]. eapply (Hs l cl c tid rq); try done. by exists pre.
  Qed.

  Lemma unlocked_conn evs cid : Forall typed evs -> ids_differ S g evs -> unlocked S g evs cid ->
    exists pre c, pre `prefix_of` server_evs S g evs /\ conn_at pre cid c /\ c_unl S c = true.
  Proof.
    intros Ht Hd (k & p & Hg). destruct (ok_served S SO g HC evs cid k _ _ Ht Hd Hg)
      as (pre & c & tid & rq & d & m & Hs & He & _).
    destruct (served_right S SO g HC _ _ _ _ _ _ _ _ _ _ Hs He) as (L0 & w & M & R).
    exists pre, c. split; [apply Hs|]. split; [apply Hs|]. apply (me_unl _ _ _ _ _ _ _ _ M).
    cbn [request_of] in R. destruct R as [_ R]. destruct m; try done. by destruct R.
  Qed.

  (** A call made later, over an unlocked connection. *)
  Lemma later_call evs more cid k a v : Forall typed (evs ++ more) -> ids_differ S g (evs ++ more) ->
    keeps S SO (evs ++ more) -> unlocked S g evs cid -> not_made S g evs cid k -> well S g (evs ++ more) cid k a v ->
    exists pre c tid rq d m, served (evs ++ more) cid k a pre c tid rq d m /\ undisturbed S rq
      /\ came_unlocked S rq /\ (forall e, stored S g (server_evs S g evs) e -> held_before S rq e)
      /\ outcome_is (evs ++ more) a c rq m v.
  Proof.
    intros Ht Hd Hk Hu Hn Hw. destruct (well_served _ _ _ _ _ Ht Hd Hw) as (pre & c & tid & rq & d & m & Hs & Hq & Ho).
    exists pre, c, tid, rq, d, m. split; [done|]. split; [done|].
    assert (Ht0 : Forall typed evs) by (by apply Forall_app in Ht as [? _]).
    destruct (unlocked_conn evs cid Ht0 (ids_app _ _ Ht Hd) Hu) as (pre0 & c0 & P1 & P2 & P3).
    split; [by eapply (unlocked_after S SO g HC evs more)|]. split; [|done].
    intros e He. by eapply (served_after S SO g HC evs more).
  Qed.

  (** What was created is stored. *)
  Lemma created evs cid k a v i : Forall typed evs -> ids_differ S g evs -> keeps S SO evs ->
    gives S g evs cid k a (Ok v) -> creates a v = Some i ->
    exists e, stored S g (server_evs S g evs) e /\ info_of e = i.
  Proof.
    intros Ht Hd Hk Hg Hc. destruct (ok_served S SO g HC evs cid k _ _ Ht Hd Hg)
      as (pre & c & tid & rq & d & m & Hs & He & Hv).
    destruct (served_right S SO g HC _ _ _ _ _ _ _ _ _ _ Hs He) as (L0 & w & M & R).
    assert (Hx : exists e, e ∈ w_L w /\ info_of e = i).
    { destruct R as [_ R]. destruct a, v; try done; cbn [request_of] in R; destruct m; try done;
        cbn [value_of] in Hv; injection Hv as ->; cbn [creates] in Hc; injection Hc as <-.
      - destruct R as (_ & -> & _ & e & seed & Hin & Hh). exists e. split; [done|].
        destruct pass; cbn [option_map holds_seed] in Hh.
        + by destruct Hh as (? & ? & ? & _ & -> & _).
        + by destruct Hh as (? & -> & _).
      - destruct R as (_ & -> & _ & e & seed & e2 & seed2 & _ & _ & _ & _ & Hin & Hh). exists e. split; [done|].
        destruct pass; cbn [option_map holds_seed] in Hh.
        + by destruct Hh as (? & ? & ? & _ & -> & _).
        + by destruct Hh as (? & -> & _).
      - destruct R as (_ & e & seed & e2 & _ & _ & _ & Hin & _ & Hh). exists e2. split; [done|].
        destruct dst_pass; cbn [option_map holds_seed] in Hh.
        + by destruct Hh as (? & ? & ? & _ & -> & _).
        + by destruct Hh as (? & -> & _).
      - destruct R as (_ & -> & gc & sec & _ & _ & Hin & _). by eexists. }
    destruct Hx as (e & Hin & Hi). exists e. split; [|done].
    eapply (served_stored S SO g HC); try done. by apply (me_now _ _ _ _ _ _ _ _ M).
  Qed.

  Lemma stored_info_seed evs e t si : stored S g evs e -> info_of e = ISeed t si ->
    tag_of e = t /\ is_deep e = false /\ seed_info_of e = Some si /\ exists seed, plain_seed g e seed.
  Proof.
    intros He Hi. destruct e as [t' si' sec| |]; try done. injection Hi as -> ->.
    split; [done|]. split; [done|]. split; [done|]. by eapply (stored_plain S SO g HC).
  Qed.
End Later.
