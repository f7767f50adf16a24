(** * NetProofs: the system on byte streams behaves like the one on queues of messages *)

From Verif Require Import Base Crypto Types Codec Secret Store StoreProofs Lru Server System ServerSpec ServerVocab ServerProofs
  ServerProofs2 SystemProofs AnswerProofs ServerTheorems Wire Sender WireVocab WireProofs Handshake WireProofs2
  Client Asks World WorldVocab WorldProofs Net NetVocab.

Section Chan.
  Variable g : genv.
  Hypothesis HC : CryptoOk (g_crypto g).
  Notation C := (g_crypto g).

  Definition plains (l : list (bytes * bytes * bool)) : list bytes := map (fun x => x.1.1) l.
  Definition written (x : bytes * bytes * bool) : option bytes := if x.2 then Some x.1.1 else None.

  Definition genuine (h : chan g) : Prop :=
    forall i c, ch_got h !! i = Some c -> exists p, ch_out h !! i = Some (p, c, true).

  Lemma genuine_dec h : ~ misread g h -> genuine h.
  Proof.
    intros Hm i c Hc. destruct (ch_out h !! i) as [[[p c'] b]|] eqn:E.
    - destruct (decide (c' = c /\ b = true)) as [[-> ->]|Hn]; [by exists p|].
      exfalso. apply Hm. exists i, c. split; [done|]. intros p' E'. rewrite E in E'. injection E' as -> -> ->. by apply Hn.
    - exfalso. apply Hm. exists i, c. split; [done|]. intros p' E'. congruence.
  Qed.

  (** The ends of a direction agree, and [q] is what is under way. *)
  Inductive crel (h : chan g) (q : list bytes) : Prop :=
  | CRel (st : ss_state C)
      (cr_cip : forall i p c b, ch_out h !! i = Some (p, c, b) ->
         c = fst (ss_push C (after C st (take i (plains (ch_out h)))) TagMessage p))
      (cr_enc : t_enc (ch_snd h) = after C st (plains (ch_out h)))
      (cr_dec : ch_dec h = after C st (take (length (ch_got h)) (plains (ch_out h))))
      (cr_gen : genuine h)
      (cr_q : q = omap written (drop (length (ch_got h)) (ch_out h))).

  Lemma got_le h : genuine h -> length (ch_got h) <= length (ch_out h).
  Proof.
    intros H. destruct (ch_got h) as [|x l _] eqn:E using rev_ind; [cbn; lia|].
    destruct (H (length l) x) as [p Hp]; [by rewrite E, lookup_app_r, Nat.sub_diag|].
    apply lookup_lt_Some in Hp. rewrite app_length. cbn. lia.
  Qed.

  Lemma api_send_enc t m o :
    t_enc (snd (api_send C t m o)) = snd (ss_push C (t_enc t) TagMessage (encode_api m)).
  Proof.
    unfold api_send, crypt_send. destruct (ss_push C (t_enc t) TagMessage (encode_api m)) as [c enc].
    unfold frame_send. destruct (N.ltb _ _); [done|]. unfold write_all. cbn [t_dead t_enc snd].
    destruct (t_dead t); [done|]. by destruct o.
  Qed.

  Lemma plains_app l1 l2 : plains (l1 ++ l2) = plains l1 ++ plains l2.
  Proof. apply map_app. Qed.
  Lemma plains_len l : length (plains l) = length l.
  Proof. apply map_length. Qed.

  Lemma crel_send h q m o : crel h q ->
    crel (chan_send h m o).2 (q ++ if (chan_send h m o).1 then [encode_api m] else []).
  Proof.
    intros [st Hcip Henc Hdec Hgen Hq]. pose proof (got_le h Hgen) as Hle.
    unfold chan_send. pose proof (api_send_enc (ch_snd h) m o) as He.
    destruct (api_send C (ch_snd h) m o) as [r t]. cbn [fst snd] in *.
    split with st; cbn [ch_out ch_snd ch_dec ch_got].
    - intros i p c b Hi. rewrite plains_app. apply lookup_app_Some in Hi as [Hi|[Hi1 Hi2]].
      + pose proof (lookup_lt_Some _ _ _ Hi). rewrite take_app_le by (rewrite plains_len; lia). by eapply Hcip.
      + destruct (i - length (ch_out h)) as [|] eqn:E; [|done]. cbn in Hi2. injection Hi2 as <- <- _.
        assert (i = length (ch_out h)) as -> by lia. rewrite take_app_alt by (by rewrite plains_len). by rewrite Henc.
    - rewrite He, Henc, plains_app. unfold after. by rewrite fold_left_app.
    - rewrite plains_app, take_app_le by (rewrite plains_len; lia). exact Hdec.
    - intros i c Hc. destruct (Hgen i c Hc) as [p Hp]. exists p. cbn [ch_out]. by apply lookup_app_l_Some.
    - rewrite drop_app_le by lia. rewrite omap_app, Hq. f_equal. cbn. unfold written. cbn. by destruct (is_ok r).
  Qed.

  Lemma crel_read h q m h' : crel h q -> chan_read h = RdGot m h' -> genuine h' ->
    exists q', q = m :: q' /\ crel h' q'.
  Proof.
    intros [st Hcip Henc Hdec Hgen Hq] Hr Hg'. unfold chan_read, crypt_recv in Hr.
    destruct (frame_recv (ch_in h)) as [c cs|e|] eqn:Ef; [|destruct (_ && _); discriminate Hr|discriminate Hr].
    destruct (Nat.ltb (length c) ABYTES); [discriminate Hr|].
    destruct (ss_pull C (ch_dec h) c) as [[[t m'] dec]|] eqn:Ep; [|destruct (_ && _); discriminate Hr].
    injection Hr as -> <-.
    assert (Efr : frame_of (ch_in h) = c) by (unfold frame_of; by rewrite Ef). rewrite Efr in *.
    destruct (Hg' (length (ch_got h)) c) as [p Hp]; [cbn [ch_got]; by rewrite lookup_app_r, Nat.sub_diag|].
    cbn [ch_out] in Hp. pose proof (Hcip _ _ _ _ Hp) as Ec. rewrite <- Hdec in Ec.
    rewrite Ec, (ss_ok C HC) in Ep. injection Ep as _ <- <-.
    assert (Ht : take (S (length (ch_got h))) (plains (ch_out h)) = take (length (ch_got h)) (plains (ch_out h)) ++ [p]).
    { apply take_S_r. unfold plains. by rewrite list_lookup_fmap, Hp. }
    exists (omap written (drop (S (length (ch_got h))) (ch_out h))). split.
    - rewrite Hq, (drop_S _ _ _ Hp). done.
    - split with st; cbn [ch_out ch_snd ch_dec ch_got]; try done.
      + rewrite app_length, Nat.add_1_r, Ht. unfold after. rewrite fold_left_app. cbn. unfold after in Hdec. by rewrite <- Hdec.
      + by rewrite app_length, Nat.add_1_r.
  Qed.

  Lemma crel_deliver h q b : crel h q -> crel (chan_deliver h b) q.
  Proof. unfold chan_deliver. by destruct (ch_eof h); intros [st ? ? ? ? ?]; split with st. Qed.
  Lemma crel_eof h q : crel h q -> crel (chan_eof h) q.
  Proof. by intros [st ? ? ? ? ?]; split with st. Qed.
  Lemma crel_new st : crel (new_chan g st st) [].
  Proof. split with st; try done. Qed.
End Chan.

Section Sim.
  Variable S : store_impl.
  Hypothesis SO : StoreOk S.
  Variable g : genv.
  Hypothesis HC : CryptoOk (g_crypto g).
  Notation C := (g_crypto g).

  Record lrel (x : nlink g) (l : link) : Prop := LRel {
    lr_cli : l_cli l = x_cli x;
    lr_enc : l_enc l = x_enc x;
    lr_dec : l_dec l = x_dec x;
    lr_up : crel g (x_up x) (l_up l);
    lr_down : crel g (x_down x) (l_down l);
    lr_ul : l_up_lost l = false;
    lr_dl : l_down_lost l = false;
    lr_put : l_put l = x_put x;
    lr_res : forall k, k ∈ x_put x <-> x_res x !! k = Some true
  }.

  Definition orel (x : option (nlink g)) (l : option link) : Prop :=
    match x, l with Some x, Some l => lrel x l | None, None => True | _, _ => False end.

  Record nrel (n : net S g) (w : joined S) : Prop := NRel {
    nr_srv : w_srv w = n_srv n;
    nr_evs : w_evs w = n_evs n;
    nr_links : forall cid, orel (n_links n !! cid) (w_links w !! cid)
  }.

  Definition clean (n : net S g) : Prop :=
    forall cid x, n_links n !! cid = Some x -> genuine g (x_up x) /\ genuine g (x_down x).

  Lemma nrel_set n w cid x l : nrel n w -> lrel x l -> nrel (set_nlink n cid x) (set_link S w cid l).
  Proof.
    intros [H1 H2 H3] Hl. split; [done|done|]. intros cid'. cbn.
    destruct (decide (cid = cid')) as [->|]; [by rewrite !lookup_insert|]. by rewrite !lookup_insert_ne.
  Qed.
  Lemma nrel_srv n w e : nrel n w -> nrel (srv_does n e) (srv_step S g w e).
  Proof. intros [H1 H2 H3]. split; cbn; [by rewrite H1|by rewrite H2|done]. Qed.

  Lemma nrel_link n w cid x : nrel n w -> n_links n !! cid = Some x -> exists l, w_links w !! cid = Some l /\ lrel x l.
  Proof.
    intros [_ _ H] Hx. specialize (H cid). rewrite Hx in H. destruct (w_links w !! cid) as [l|]; [|done]. by exists l.
  Qed.
  Lemma nrel_none n w cid : nrel n w -> n_links n !! cid = None -> w_links w !! cid = None.
  Proof. intros [_ _ H] Hx. specialize (H cid). rewrite Hx in H. by destruct (w_links w !! cid). Qed.

  Lemma own_own x l e : lrel x l -> n_own x e = true -> own l e = true.
  Proof.
    intros L. destruct e; cbn; try done. rewrite bool_decide_eq_true. destruct ok; [|done].
    intros H. apply (lr_res _ _ L) in H. rewrite <- (lr_put _ _ L) in H. by apply bool_decide_eq_true.
  Qed.

  Lemma lrel_cli x l e : lrel x l -> lrel (with_cli x (cstep (x_cli x) e)) (cli_step l e).
  Proof. intros [H1 H2 H3 H4 H5 H6 H7 H8 H9]. split; cbn; try done. by rewrite H1. Qed.

  Lemma shake_ok id h : eph_ok id h = true -> exists c s, shake g id h = Some (c, s)
    /\ h_tx c = h_rx s /\ h_rx c = h_tx s /\ h_enc c = h_dec s /\ h_dec c = h_enc s
    /\ length (h_rx s) = 32 /\ length (h_tx s) = 32.
  Proof.
    unfold eph_ok. intros Ho. apply andb_prop in Ho as [Ho H6]. apply andb_prop in Ho as [Ho H5].
    cbn in Ho. repeat (apply andb_prop in Ho as [?H Ho]).
    apply Nat.eqb_eq in H, H0, H1, H2, H5, H6.
    destruct h as [bk ck rc hc sk rs hs]. cbn [e_bk e_ck e_sk e_hc e_hs e_rc e_rs] in *. unfold shake. cbn [e_bk e_ck e_sk e_hc e_hs e_rc e_rs].
    set (a := (s3_server C (x_base C id) id sk rs hs [(s3_client C (x_base C id) bk ck rc hc []).1]).1).
    pose (b := (s3_client C (x_base C id) bk ck rc hc [a]).1).
    destruct (client_first C HC id bk ck rc hc [] H H0 H1) as (out & r1 & E1 & L1 & S1 & O1 & _).
    destruct (client_first C HC id bk ck rc hc [a] H H0 H1) as (out' & r2 & E2 & L2 & S2 & O2 & _).
    rewrite S1 in S2. injection S2 as <-.
    assert (Ea : a = (s3_server C (x_base C id) id sk rs hs [b]).1).
    { destruct (server_after C HC id bk ck sk rs hs [(s3_client C (x_base C id) bk ck rc hc []).1] out r1)
        as (rep & k1 & k2 & cs & A1 & _ & _ & _ & _ & _ & A2); try done; [cbn; by rewrite app_nil_r|].
      destruct (server_after C HC id bk ck sk rs hs [b] out r2)
        as (rep' & k1' & k2' & cs' & B1 & _ & _ & _ & _ & _ & B2); try done; [cbn; by rewrite app_nil_r|].
      rewrite A1 in B1. injection B1 as <-. unfold a. by rewrite A2, B2. }
    destruct (handshake_agrees C HC id bk ck sk rc rs hc hs [a] [b] [] [])
      as (c & s & F1 & F2 & F3 & F4 & F5 & F6 & F7 & F8 & _ & _); try done.
    { cbn. rewrite !app_nil_r. exact Ea. }
    exists c, s. unfold b in F2.
    destruct (s3_client C (x_base C id) bk ck rc hc [a]) as [b' r']. cbn [fst snd] in *. subst r'.
    destruct (s3_server C (x_base C id) id sk rs hs [b']) as [a' r']. cbn [fst snd] in *. subst r'.
    rewrite <- F3, <- F4. by auto 10.
  Qed.

  Lemma sent_ok h m o : (chan_send (g := g) h m o).1
    = fits m && negb (t_dead (ch_snd h)) && match o with None => true | Some _ => false end.
  Proof.
    unfold chan_send, api_send, crypt_send, fits. pose proof (ss_push_len C HC (t_enc (ch_snd h)) TagMessage (encode_api m)) as L.
    destruct (ss_push C (t_enc (ch_snd h)) TagMessage (encode_api m)) as [c enc]. cbn [fst] in L.
    unfold frame_send. rewrite L.
    destruct (N.ltb_spec MAX_FRAME (N.of_nat (length (encode_api m) + ABYTES)));
      destruct (N.leb_spec (N.of_nat (length (encode_api m) + ABYTES)) MAX_FRAME); try lia; try done.
    unfold write_all. cbn [t_dead]. destruct (t_dead (ch_snd h)); [done|]. by destruct o.
  Qed.

  Lemma step1_out {A} sh unl (p : prog A) o m b :
    r_out S (step1 S g sh unl p o) = Some (m, b) -> b = fits m && o_send o.
  Proof.
    destruct p; cbn; try done.
    - by destruct (o_fail o); [|destruct (st_write _ _ _)].
    - by destruct (o_fail o).
    - by destruct (o_fail o).
    - by destruct (cache_get S sh q).
    - destruct (o_cert o); [by destruct (_ && _)|done].
    - intros H. pose proof (f_equal (fun x => match x with Some (m, _) => m | None => m0 end) H) as E1.
      pose proof (f_equal (fun x => match x with Some (_, b) => b | None => b end) H) as E2. cbn in E1, E2. by subst.
  Qed.

  Lemma step_log (s : sys S) cid tid o c c' : s_conns S s !! cid = Some c ->
    s_conns S (step S g s (EvStep cid tid o)) !! cid = Some c' ->
    c_log S c' = c_log S c \/ exists m, c_log S c' = c_log S c ++ [(tid, m, fits m && o_send o)].
  Proof.
    intros Hc. cbn [step]. rewrite Hc.
    destruct (step_thread S g (s_sh S s) c tid o) as [sh c1] eqn:Es. cbn [s_conns]. rewrite lookup_insert.
    intros E. apply (f_equal (fun x => match x with Some x => x | None => c1 end)) in E. cbn in E. subst c'.
    apply (f_equal snd) in Es. cbn [snd] in Es. subst c1. unfold step_thread.
    destruct (c_thr S c !! tid) as [[p|er]|]; [| |by left].
    - destruct (r_prog S _) as [p'|] eqn:Ep; cbn [snd c_log]; [|by left].
      unfold log_add. destruct (r_out S _) as [[m b]|] eqn:Eo; [|by left]. apply step1_out in Eo as ->. right. by exists m.
    - destruct (c_reqs S c !! tid); cbn [snd c_log]; [|by left]. right. by eexists.
  Qed.

  (** One event of the system is none or one of the system with queues. *)
  Definition wok (e : nevent) (x : wevent) : Prop :=
    typed x /\ (x = WServer EvRestart -> exists j, e = NServer EvRestart j).
  Ltac ok := first [by apply Forall_nil_2
                   |apply Forall_cons_2; [split; [done|intros E; first [discriminate E|by eexists]]|by apply Forall_nil_2]].

  Lemma sim_step n w e : nrel n w -> ntyped e -> clean (nstep S g n e) ->
    exists es, Forall (wok e) es /\ nrel (nstep S g n e) (fold_left (wstep S g) es w).
  Proof.
    intros R Ht Hcl.
    assert (Hno : nstep S g n e = n -> exists es, Forall (wok e) es /\ nrel (nstep S g n e) (fold_left (wstep S g) es w)).
    { intros ->. by exists []. }
    destruct e as [cid id h|cid d a|cid e|cid k o|ev j|cid up b|cid up|cid|cid]; cbn [nstep ntyped] in *.
    - destruct (n_links n !! cid) as [x|] eqn:Ex; [by apply Hno|].
      destruct (eph_ok id h && beq (x_base C id) (g_id_pk g)) eqn:Eo; [|by apply Hno].
      apply andb_prop in Eo as [Eo _]. destruct (shake_ok id h Eo) as (c & s & -> & E1 & E2 & E3 & E4 & E5 & E6).
      exists [WConnect cid (h_rx s) (h_tx s)]. split; [ok|]. cbn.
      rewrite (nrel_none _ _ _ R Ex), E5, E6. cbn. apply nrel_set; [by apply nrel_srv|].
      split; cbn; try done.
      + unfold client_enc_ctx. by rewrite E1.
      + unfold client_dec_ctx. by rewrite E2.
      + rewrite E3. apply crel_new.
      + rewrite E4. apply crel_new.
      + intros k. rewrite lookup_empty. split; [by intros ?%elem_of_nil|done].
    - destruct (n_links n !! cid) as [x|] eqn:Ex; [|by apply Hno].
      destruct (nrel_link _ _ _ _ R Ex) as (l & El & L).
      exists [WAsk cid d a]. split; [ok|]. cbn [fold_left wstep]. rewrite El. apply nrel_set; [done|].
      rewrite (lr_enc _ _ L). by apply lrel_cli.
    - destruct (n_links n !! cid) as [x|] eqn:Ex; [|by apply Hno].
      destruct (n_own x e) eqn:Eo; [|by apply Hno].
      destruct (nrel_link _ _ _ _ R Ex) as (l & El & L).
      exists [WClient cid e]. split; [ok|]. cbn [fold_left wstep]. rewrite El, (own_own _ _ _ L Eo). apply nrel_set; [done|].
      by apply lrel_cli.
    - destruct (n_links n !! cid) as [x|] eqn:Ex; [|by apply Hno].
      destruct (k_calls (x_cli x) !! k) as [[req st ml]|] eqn:Ek; [|by apply Hno].
      destruct st; try (by apply Hno). destruct (x_res x !! k) eqn:Er; [by apply Hno|].
      destruct (nrel_link _ _ _ _ R Ex) as (l & El & L).
      pose proof (crel_send g (x_up x) (l_up l) req o (lr_up _ _ L)) as Hup.
      pose proof (sent_ok (x_up x) req o) as Hok.
      destruct (chan_send (x_up x) req o) as [ok h]. cbn [fst snd] in *.
      destruct ok.
      + exists [WPut cid k]. split; [ok|]. cbn [fold_left wstep]. rewrite El. unfold may_put. rewrite (lr_cli _ _ L), Ek.
        symmetry in Hok. apply andb_prop in Hok as [Hok _]. apply andb_prop in Hok as [Hok _]. rewrite Hok.
        rewrite bool_decide_eq_false_2; cbn [negb andb].
        2: { rewrite (lr_put _ _ L), (lr_res _ _ L). congruence. }
        apply nrel_set; [done|]. destruct L as [H1 H2 H3 H4 H5 H6 H7 H8 H9]. split; cbn; try done.
        * by rewrite H6.
        * by rewrite H8.
        * intros k'. rewrite elem_of_app, elem_of_list_singleton, H9. destruct (decide (k = k')) as [->|Hne].
          -- rewrite lookup_insert. split; auto.
          -- rewrite lookup_insert_ne by done. split; [intros [|]; [done|congruence]|by left].
      + exists []. split; [ok|]. cbn.
        rewrite app_nil_r in Hup.
        assert (w = set_link S w cid l) as ->.
        { destruct w. unfold set_link. cbn in *. by rewrite insert_id. }
        apply nrel_set; [done|]. destruct L as [H1 H2 H3 H4 H5 H6 H7 H8 H9]. split; cbn; try done.
        intros k'. rewrite H9. destruct (decide (k = k')) as [->|Hne].
        * rewrite lookup_insert. split; congruence.
        * by rewrite lookup_insert_ne by done.
    - destruct ev as [cid2 rx tx|cid2 raw|cid2 tid2 o|cid2 tid2 e|cid2|d os|]; try (by apply Hno).
      + destruct (n_links n !! cid2) as [x|] eqn:Ex; [|by apply Hno].
        destruct (x_task x) eqn:Et; [|by apply Hno].
        destruct (nrel_link _ _ _ _ R Ex) as (l & El & L).
        set (o' := line_oracle (t_dead (ch_snd (x_down x))) o) in *.
        exists [WServer (EvStep cid2 tid2 o')]. split; [ok|].
        cbn [fold_left wstep]. rewrite El, (nr_srv _ _ R).
        assert (R' : nrel (srv_does n (EvStep cid2 tid2 o')) (srv_step S g w (EvStep cid2 tid2 o'))) by (by apply nrel_srv).
        rewrite (nr_srv _ _ R').
        destruct (s_conns S (n_srv n) !! cid2) as [c|] eqn:Ec; [|exact R'].
        destruct (s_conns S (n_srv (srv_does n (EvStep cid2 tid2 o'))) !! cid2) as [c'|] eqn:Ec'; [|exact R'].
        apply nrel_set; [done|].
        pose proof (nr_srv _ _ R') as Es. clear Es.
        destruct (step_log (n_srv n) cid2 tid2 o' c c' Ec Ec') as [Elog|(m & Elog)]; rewrite Elog.
        * unfold news. rewrite Elog, drop_all. cbn [send_news omap list_omap].
          destruct L as [H1 H2 H3 H4 H5 H6 H7 H8 H9]. rewrite H7, app_nil_r. by split.
        * unfold news. rewrite Elog, drop_app_alt by done. cbn [send_news omap list_omap].
          set (tr := if o_send o' then None else Some j).
          pose proof (crel_send g (x_down x) (l_down l) m tr (lr_down _ _ L)) as Hdn.
          assert (Hok : (chan_send (x_down x) m tr).1 = fits m && o_send o').
          { rewrite sent_ok. unfold tr. destruct (o_send o') eqn:Eo'; [|by rewrite !andb_false_r].
            assert (t_dead (ch_snd (x_down x)) = false) as ->.
            { unfold o' in Eo'. cbn in Eo'. apply andb_prop in Eo' as [_ Eo']. by apply negb_true_iff in Eo'. }
            by rewrite !andb_true_r. }
          rewrite Hok in Hdn.
          destruct L as [H1 H2 H3 H4 H5 H6 H7 H8 H9]. rewrite H7. split; cbn [x_cli x_enc x_dec x_up x_down x_res x_task x_put with_down l_cli l_enc l_dec l_up l_down l_up_lost l_down_lost l_put]; try done.
          destruct (fits m && o_send o'); exact Hdn.
      + exists [WServer (EvAbort cid2 tid2 e)]. split; [ok|]. by apply nrel_srv.
      + exists [WServer (EvHangup cid2)]. split; [ok|]. by apply nrel_srv.
      + exists [WServer (EvDirect d os)]. split; [ok|]. by apply nrel_srv.
      + exists [WServer EvRestart]. split; [ok|]. by apply nrel_srv.
    - destruct (n_links n !! cid) as [x|] eqn:Ex; [|by apply Hno].
      destruct (nrel_link _ _ _ _ R Ex) as (l & El & L).
      exists []. split; [ok|]. cbn.
      assert (w = set_link S w cid l) as ->.
      { destruct w. unfold set_link. cbn in *. by rewrite insert_id. }
      apply nrel_set; [done|]. destruct L as [H1 H2 H3 H4 H5 H6 H7 H8 H9].
      destruct up; split; cbn; try done; by apply crel_deliver.
    - destruct (n_links n !! cid) as [x|] eqn:Ex; [|by apply Hno].
      destruct (nrel_link _ _ _ _ R Ex) as (l & El & L).
      exists []. split; [ok|]. cbn.
      assert (w = set_link S w cid l) as ->.
      { destruct w. unfold set_link. cbn in *. by rewrite insert_id. }
      apply nrel_set; [done|]. destruct L as [H1 H2 H3 H4 H5 H6 H7 H8 H9].
      destruct up; split; cbn; try done; by apply crel_eof.
    - destruct (n_links n !! cid) as [x|] eqn:Ex; [|by apply Hno].
      destruct (s_conns S (n_srv n) !! cid) as [c|] eqn:Ec; [|by apply Hno].
      destruct (takes_more S c) eqn:Etk; [|by apply Hno].
      destruct (nrel_link _ _ _ _ R Ex) as (l & El & L).
      destruct (chan_read (x_up x)) as [|m h| |] eqn:Erd; [by apply Hno| | |].
      + destruct (Hcl cid (with_up x h)) as [Hg _]; [cbn; by rewrite lookup_insert|].
        destruct (crel_read g HC _ _ _ _ (lr_up _ _ L) Erd Hg) as (q & Eq & Hq).
        exists [WServe cid]. split; [ok|]. cbn [fold_left wstep]. rewrite El, (nr_srv _ _ R), Ec.
        destruct l as [cl en de up down ul dl put ce]. cbn in Eq. subst up. unfold takes. unfold takes_more in Etk. rewrite Etk.
        apply nrel_set; [by apply nrel_srv|].
        destruct L as [H1 H2 H3 H4 H5 H6 H7 H8 H9]. by split.
      + exists [WServer (EvHangup cid)]. split; [ok|]. by apply nrel_srv.
      + exists [WServer (EvHangup cid)]. split; [ok|]. cbn [fold_left wstep].
        assert (srv_step S g w (EvHangup cid) = set_link S (srv_step S g w (EvHangup cid)) cid l) as ->.
        { destruct w. unfold set_link, srv_step. cbn in *. by rewrite insert_id. }
        apply nrel_set; [by apply nrel_srv|]. destruct L as [H1 H2 H3 H4 H5 H6 H7 H8 H9]. by split.
    - destruct (n_links n !! cid) as [x|] eqn:Ex; [|by apply Hno].
      destruct (nrel_link _ _ _ _ R Ex) as (l & El & L).
      destruct (k_recv (x_cli x)) eqn:Ek; try (by apply Hno).
      destruct (chan_read (x_down x)) as [|m h| |] eqn:Erd; [by apply Hno| | |].
      + destruct (Hcl cid _ ltac:(cbn; by rewrite lookup_insert)) as [_ Hg]. cbn in Hg.
        destruct (crel_read g HC _ _ _ _ (lr_down _ _ L) Erd Hg) as (q & Eq & Hq).
        exists [WTake cid]. split; [ok|]. cbn [fold_left wstep]. rewrite El.
        destruct L as [H1 H2 H3 H4 H5 H6 H7 H8 H9].
        destruct l as [cl en de up down ul dl put ce]. cbn [l_cli l_enc l_dec l_up l_down l_up_lost l_down_lost l_put] in *.
        subst cl down. rewrite Ek.
        apply nrel_set; [done|]. destruct (decode_api m) as [am|] eqn:Edm; by split.
      + exists [WClient cid RecvEnd]. split; [ok|]. cbn [fold_left wstep own]. rewrite El. apply nrel_set; [done|]. by apply lrel_cli.
      + exists [WClient cid RecvPanic]. split; [ok|]. cbn [fold_left wstep own]. rewrite El. apply nrel_set; [done|]. by apply lrel_cli.
  Qed.

  (** *** Runs *)

  Lemma nrun_snoc evs e : nrun S g (evs ++ [e]) = nstep S g (nrun S g evs) e.
  Proof. unfold nrun. by rewrite fold_left_app. Qed.

  Lemma forged_app evs more : forged S g evs -> forged S g (evs ++ more).
  Proof.
    intros (pre & cid & l & Hp & H). exists pre, cid, l. split; [|done]. etransitivity; [exact Hp|]. by eexists.
  Qed.

  Lemma clean_run evs : ~ forged S g evs -> clean (nrun S g evs).
  Proof.
    intros Hf cid x Hx. split; apply genuine_dec; intros Hm; apply Hf; exists evs, cid, x; by auto.
  Qed.

  Lemma sim_more evs more wevs : nrel (nrun S g evs) (wrun S g wevs) -> Forall ntyped more -> ~ forged S g (evs ++ more) ->
    exists wmore, Forall typed wmore /\ nrel (nrun S g (evs ++ more)) (wrun S g (wevs ++ wmore))
      /\ (WServer EvRestart ∈ wmore -> exists j, NServer EvRestart j ∈ more).
  Proof.
    intros R. induction more as [|e more IH] using rev_ind; intros Ht Hf.
    - exists []. rewrite !app_nil_r. split; [by apply Forall_nil_2|]. split; [done|]. by intros ?%elem_of_nil.
    - rewrite app_assoc in *. apply Forall_app in Ht as [Ht Ht1]. apply Forall_inv in Ht1.
      destruct IH as (wm & Hm & R' & Hr); [done|by intros ?%(forged_app _ [e])|].
      destruct (sim_step _ _ e R' Ht1) as (es & He & R2).
      { rewrite <- nrun_snoc. by apply clean_run. }
      exists (wm ++ es). split; [|split].
      + apply Forall_app. split; [done|]. eapply Forall_impl; [exact He|]. by intros x [? _].
      + rewrite nrun_snoc, app_assoc. unfold wrun in *. by rewrite (fold_left_app _ _ es).
      + rewrite elem_of_app. intros [Hin|Hin].
        * destruct (Hr Hin) as [j Hj]. exists j. apply elem_of_app. by left.
        * rewrite Forall_forall in He. destruct (He _ Hin) as [_ Hx]. destruct (Hx eq_refl) as [j ->].
          exists j. apply elem_of_app. right. by apply elem_of_list_singleton.
  Qed.

  Lemma nrel_init : nrel (nrun S g []) (wrun S g []).
  Proof. split; [done|done|]. intros cid. cbn. by rewrite !lookup_empty. Qed.

  Lemma sim_run evs : Forall ntyped evs -> ~ forged S g evs ->
    exists wevs, Forall typed wevs /\ nrel (nrun S g evs) (wrun S g wevs)
      /\ (WServer EvRestart ∈ wevs -> exists j, NServer EvRestart j ∈ evs).
  Proof. intros Ht Hf. apply (sim_more [] evs [] nrel_init Ht Hf). Qed.
End Sim.
