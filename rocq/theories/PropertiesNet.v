(** * PropertiesNet: clients and a keystore over a network that may do anything (C62, C63)

    Executions are those of [Net]: what arrives at either end of a connection, when, and in what
    pieces, is up to the network.  The words are those of [NetVocab]. *)

From Verif Require Import Base Utf8 Crypto Toy Types Codec Secret Store StoreProofs Lru Server System ServerSpec
  ServerVocab ServerTheorems Wire WireVocab Handshake Client Asks World WorldVocab WorldProofs WorldProofs2 WorldProofs3 Net NetVocab
  NetProofs NetProofs2.
From Verif Require PropertiesWorld Demo DemoWorld.
From Verif Require Import DemoNet.

(** ** C62: an attacker on the line can only lose messages *)

(** Whatever the network does to the bytes, unless an end accepts a ciphertext that the other
    end did not send in that place, the server and every client are in a state, and have a history,
    that they can also have when connections are queues of messages that at worst lose what is sent. *)
Theorem C62_only_loses :
  forall S (SO : StoreOk S) g, CryptoOk (g_crypto g) ->
  forall evs, Forall ntyped evs -> ~ forged S g evs ->
    exists wevs, Forall typed wevs
      /\ w_srv (wrun S g wevs) = n_srv (nrun S g evs) /\ server_evs S g wevs = nserver_evs S g evs
      /\ (forall cid x, nlink_at S g evs cid x -> exists l, link_at S g wevs cid l
            /\ l_cli l = x_cli x /\ l_enc l = x_enc x /\ l_dec l = x_dec x /\ l_put l = x_put x)
      /\ (forall cid l, link_at S g wevs cid l -> exists x, nlink_at S g evs cid x).
Proof.
  intros S SO g HC evs Ht Hf. destruct (sim_run S g HC evs Ht Hf) as (wevs & Hw & R & _). exists wevs.
  split; [done|]. split; [apply (nr_srv _ _ _ _ R)|]. split; [apply (nr_evs _ _ _ _ R)|]. split.
  - intros cid x Hx. destruct (tr_link _ _ _ _ R cid x Hx) as (l & Hl & [? ? ? ? ? ? ? ? ?]). by exists l.
  - intros cid l Hl. destruct (tr_link' _ _ _ _ R cid l Hl) as (x & Hx & _). by exists x.
Qed.
Print Assumptions C62_only_loses.

(** The network changes an answer and repeats a request; the client's call fails, the server hangs up. *)
Example C62_only_loses_ex :
  Forall ntyped (one ++ two ++ tamper) /\ ~ forged sql_store env (one ++ two ++ tamper)
  /\ link_is (one ++ two ++ tamper) 2 (fun l => match k_recv (x_cli l) with RRun => false | _ => true end) = true
  /\ Demo.check sql_store env (nserver_evs sql_store env (one ++ two ++ tamper)) 2 (fun c => negb (c_open sql_store c)) = true.
Proof.
  split; [apply typedb_ok; vm_compute; reflexivity|]. split; [apply not_forged; vm_compute; reflexivity|].
  split; vm_compute; reflexivity.
Qed.

(** The message that ends a call is the server's answer to this call's request. *)
Theorem C62_own_answer :
  forall S (SO : StoreOk S) g, CryptoOk (g_crypto g) ->
  forall evs, Forall ntyped evs -> ~ forged S g evs -> nids_differ S g evs ->
  forall cid k l c n m, ncall_at S g evs cid k l c -> c_st c = CEnd (Answer n m) ->
    exists pre conn tid rq, pre `prefix_of` nserver_evs S g evs /\ conn_at S g pre cid conn
      /\ received S conn tid rq /\ rq_msg S rq = c_req c /\ delivered S conn tid m.
Proof.
  intros S SO g HC evs Ht Hf Hd cid k l c n m Hc Hst. destruct (sim_run S g HC evs Ht Hf) as (wevs & Hw & R & _).
  destruct (tr_call _ _ _ _ R _ _ _ _ Hc) as (l' & Hl' & _). rewrite <- (tr_evs _ _ _ _ R).
  eapply (PropertiesWorld.C58_own_answer S SO g HC wevs cid k l' c n m); [done|by eapply tr_ids|done|done].
Qed.
Print Assumptions C62_own_answer.

Example C62_own_answer_ex :
  nids_differ sql_store env (one ++ two ++ tamper)
  /\ link_is (one ++ two ++ tamper) 2
       (fun l => match k_calls (x_cli l) !! 2 with
                 | Some c => match c_st c with CEnd (Answer _ (ResSign _ _)) => true | _ => false end
                 | None => false end) = true.
Proof. split; [apply napart_ids; vm_compute; reflexivity|]. vm_compute. reflexivity. Qed.

(** The server handles the request of a call at most once, and the requests of a connection in the order in
    which they were written: repeating or reordering bytes gains an attacker nothing. *)
Theorem C62_once_in_order :
  forall S (SO : StoreOk S) g, CryptoOk (g_crypto g) ->
  forall evs, Forall ntyped evs -> ~ forged S g evs ->
  forall cid l conn tid rq, nlink_at S g evs cid l -> nhandled S g evs cid conn tid rq ->
    NoDup (x_put l)
    /\ exists k c, x_put l !! tid = Some k /\ k_calls (x_cli l) !! k = Some c /\ rq_msg S rq = c_req c.
Proof.
  intros S SO g HC evs Ht Hf cid l conn tid rq Hl Hh. destruct (sim_run S g HC evs Ht Hf) as (wevs & Hw & R & _).
  destruct (tr_link _ _ _ _ R cid l Hl) as (l' & Hl' & L). destruct (tr_handled' _ _ _ _ R _ _ _ _ Hh) as (pre & Hp & Hc & Hq).
  pose proof (wi_link _ _ _ (winv_run S SO g HC wevs Hw) cid l' Hl') as H.
  rewrite <- (lr_put _ _ _ L), <- (lr_cli _ _ _ L). split; [apply (li_nodup _ _ _ _ _ H)|].
  destruct (li_up _ _ _ _ _ H pre conn Hp Hc) as [z Hz].
  assert (Ha : asked_for l' !! tid = Some (rq_msg S rq)).
  { rewrite Hz, lookup_app_l.
    - unfold msgs. rewrite list_lookup_fmap. unfold received in Hq. by rewrite Hq.
    - unfold msgs. rewrite map_length. by eapply lookup_lt_Some. }
  apply (asked_lookup S g _ _ _ _ _ H) in Ha as (k & c & H1 & H2 & H3). by exists k, c.
Qed.
Print Assumptions C62_once_in_order.

Example C62_once_in_order_ex :
  link_is (one ++ two ++ tamper) 2 (fun l => bool_decide (x_put l = [0; 1; 2; 3])) = true
  /\ Demo.check sql_store env (nserver_evs sql_store env (one ++ two ++ tamper)) 2
       (fun c => Nat.eqb (length (c_reqs sql_store c)) 4) = true.
Proof. split; vm_compute; reflexivity. Qed.

(** Nobody gets anything over a connection on which the client has not sent the right passphrase. *)
Theorem C62_locked :
  forall S (SO : StoreOk S) g, CryptoOk (g_crypto g) ->
  forall evs, Forall ntyped evs -> ~ forged S g evs -> nids_differ S g evs ->
  forall cid k a v, ngives S g evs cid k a (Ok v) -> (forall key, a <> AHello key) ->
    exists l k0 c0 id s digest, ncall_at S g evs cid k0 l c0 /\ c_req c0 = ReqUnlock id s
      /\ sec_open (g_crypto g) 64 (x_enc l) s = Ok digest /\ opens g digest.
Proof.
  intros S SO g HC evs Ht Hf Hd cid k a v Hg Ha. destruct (sim_run S g HC evs Ht Hf) as (wevs & Hw & R & _).
  destruct (PropertiesWorld.C60_locked S SO g HC wevs Hw (tr_ids _ _ _ _ R Hd) cid k a v (tr_gives _ _ _ _ R _ _ _ _ Hg) Ha)
    as (l & k0 & c0 & id & s & dg & Hc & H1 & H2 & H3).
  destruct (tr_call' _ _ _ _ R _ _ _ _ Hc) as (x & Hx & L). exists x, k0, c0, id, s, dg.
  rewrite <- (lr_enc _ _ _ L). done.
Qed.
Print Assumptions C62_locked.

Example C62_locked_ex :
  ngives sql_store env (one ++ two ++ tamper) 2 1 (AGet (str "s")) (Ok (VInfo (ISeed (str "s") DemoWorld.infoS))).
Proof. apply (ngave_gives _ 2 1 "b1"); [DemoWorld.txt|]. vm_compute. reflexivity. Qed.

(** What one client was told it has created, every client finds. *)
Theorem C62_get :
  forall S (SO : StoreOk S) g, CryptoOk (g_crypto g) ->
  forall evs more, Forall ntyped (evs ++ more) -> ~ forged S g (evs ++ more) -> nids_differ S g (evs ++ more) ->
    nkeeps S SO (evs ++ more) ->
  forall cid k a v i cid' k' r,
    ngives S g evs cid k a (Ok v) -> creates a v = Some i ->
    nunlocked S g evs cid' -> nnot_made S g evs cid' k' ->
    nwell S g (evs ++ more) cid' k' (AGet (info_tag i)) r -> r = Ok (VInfo i).
Proof.
  intros S SO g HC evs more Ht Hf Hd Hk cid k a v i cid' k' r Hg Hcr Hu Hn Hw.
  destruct (sim_both S g HC evs more Ht Hf) as (wevs & wmore & Wt & R1 & R2 & Kr).
  eapply (PropertiesWorld.C59_get S SO g HC wevs wmore Wt (tr_ids _ _ _ _ R2 Hd) (tr_keeps _ _ _ SO Kr Hk)).
  - by apply (tr_gives _ _ _ _ R1 _ _ _ _ Hg).
  - done.
  - by apply (tr_unlocked _ _ _ _ R1 _ Hu).
  - by apply (tr_not_made _ _ _ _ R1 _ _ Hn).
  - by apply (tr_well _ _ _ _ R2 _ _ _ _ Hw).
Qed.
Print Assumptions C62_get.

Example C62_get_ex :
  ngives sql_store env one 1 1 (ANewSeed (str "s") None true) (Ok (VSeed DemoWorld.infoS))
  /\ nunlocked sql_store env one 2 /\ nnot_made sql_store env one 2 1
  /\ nwell sql_store env (one ++ two) 2 1 (AGet (str "s")) (Ok (VInfo (ISeed (str "s") DemoWorld.infoS))).
Proof.
  split; [apply (ngave_gives _ 1 1 "a1"); [DemoWorld.txt|]; vm_compute; reflexivity|].
  split; [exists 0, DemoWorld.pass; apply (ngave_gives _ 2 0 "b0"); [DemoWorld.txt|]; vm_compute; reflexivity|].
  split; [apply nabsent; vm_compute; reflexivity|].
  apply (ngave_well _ 2 1 "b1"); [DemoWorld.txt| |]; vm_compute; reflexivity.
Qed.

(** And can sign with. *)
Theorem C62_sign :
  forall S (SO : StoreOk S) g, CryptoOk (g_crypto g) ->
  forall evs more, Forall ntyped (evs ++ more) -> ~ forged S g (evs ++ more) -> nids_differ S g (evs ++ more) ->
    nkeeps S SO (evs ++ more) ->
  forall cid k a v t si cid' k' p data r,
    ngives S g evs cid k a (Ok v) -> creates a v = Some (ISeed t si) ->
    nunlocked S g evs cid' -> nnot_made S g evs cid' k' ->
    nwell S g (evs ++ more) cid' k' (ASign (si_ed si) p data) r ->
    exists sig, r = Ok (VBytes sig) /\ sign_verify (g_crypto g) (si_ed si) sig data = true.
Proof.
  intros S SO g HC evs more Ht Hf Hd Hk cid k a v t si cid' k' p data r Hg Hcr Hu Hn Hw.
  destruct (sim_both S g HC evs more Ht Hf) as (wevs & wmore & Wt & R1 & R2 & Kr).
  eapply (PropertiesWorld.C59_sign S SO g HC wevs wmore Wt (tr_ids _ _ _ _ R2 Hd) (tr_keeps _ _ _ SO Kr Hk)).
  - by apply (tr_gives _ _ _ _ R1 _ _ _ _ Hg).
  - done.
  - by apply (tr_unlocked _ _ _ _ R1 _ Hu).
  - by apply (tr_not_made _ _ _ _ R1 _ _ Hn).
  - by apply (tr_well _ _ _ _ R2 _ _ _ _ Hw).
Qed.
Print Assumptions C62_sign.

Example C62_sign_ex :
  nnot_made sql_store env one 2 2
  /\ exists sig, nwell sql_store env (one ++ two) 2 2 (ASign (si_ed DemoWorld.infoS) None (str "data")) (Ok (VBytes sig))
       /\ length sig = 64.
Proof.
  split; [apply nabsent; vm_compute; reflexivity|]. eexists. split.
  - apply (ngave_well _ 2 2 "b2"); [DemoWorld.txt| |]; vm_compute; reflexivity.
  - vm_compute. reflexivity.
Qed.

(** ** C63: over a faithful line nothing is lost *)

(** If what arrives is always the beginning of what was written, in pieces of any size, and messages fit
    frames, nothing is accepted that was not sent. *)
Theorem C63_no_forgery :
  forall S (SO : StoreOk S) g, CryptoOk (g_crypto g) ->
  forall evs, Forall ntyped evs -> faithful S g evs -> ~ forged S g evs.
Proof. intros S SO g HC evs Ht Hf. by apply (faithful_clean S g HC). Qed.
Print Assumptions C63_no_forgery.

Example C63_no_forgery_ex : Forall ntyped (one ++ two ++ pending) /\ faithful sql_store env (one ++ two ++ pending).
Proof.
  split; [apply typedb_ok; vm_compute; reflexivity|]. apply faithful_ok. vm_compute. reflexivity.
Qed.

(** Reading never fails but at the end of the stream. *)
Theorem C63_reading :
  forall S (SO : StoreOk S) g, CryptoOk (g_crypto g) ->
  forall evs, Forall ntyped evs -> faithful S g evs ->
  forall cid l h, nlink_at S g evs cid l -> h = x_up l \/ h = x_down l ->
    chan_read h <> RdPanic /\ (chan_read h = RdStop -> ch_eof h = true).
Proof.
  intros S SO g HC evs Ht Hf cid l h Hl Hh. pose proof (faithful_clean S g HC evs Ht Hf) as Hn.
  destruct (sim_run S g HC evs Ht Hn) as (wevs & Hw & R & _). destruct (tr_link _ _ _ _ R cid l Hl) as (l' & _ & L).
  destruct (binv_run S g evs cid l Hl) as [B1 B2]. destruct (Hf evs cid l ltac:(done) Hl) as [F1 F2].
  assert (H : exists q, crel g h q /\ binv g h /\ honest g h).
  { destruct Hh as [-> | ->]; [exists (l_up l')|exists (l_down l')]; repeat split; try apply L; try apply B1; try apply B2; try apply F1; try apply F2. }
  destruct H as (q & H1 & H2 & H3).
  destruct (honest_read g HC h q H1 H2 (honest_small _ _ H3) (proj1 H3)) as [(m & h' & -> & _)|[-> _]]; [done|].
  by destruct (ch_eof h).
Qed.
Print Assumptions C63_reading.

Example C63_reading_ex :
  link_is (one ++ two ++ pending) 2 (fun l => match chan_read (x_down l) with RdGot _ _ => true | _ => false end) = true.
Proof. vm_compute. reflexivity. Qed.

(** When all bytes are there, the server, reading, gets the next request. *)
Theorem C63_next_request :
  forall S (SO : StoreOk S) g, CryptoOk (g_crypto g) ->
  forall evs, Forall ntyped evs -> faithful S g evs ->
  forall cid l conn k c, nlink_at S g evs cid l -> all_here g (x_up l) ->
    conn_at S g (nserver_evs S g evs) cid conn -> takes_more S conn = true ->
    x_put l !! length (c_reqs S conn) = Some k -> k_calls (x_cli l) !! k = Some c ->
    exists conn' rq, conn_at S g (nserver_evs S g (evs ++ [NServe cid])) cid conn'
      /\ received S conn' (length (c_reqs S conn)) rq /\ rq_msg S rq = c_req c.
Proof.
  intros S SO g HC evs Ht Hf cid l conn k c Hl Hall Hconn Htk Hk Hc. pose proof (faithful_clean S g HC evs Ht Hf) as Hn.
  destruct (sim_run S g HC evs Ht Hn) as (wevs & Hw & R & _). destruct (tr_link _ _ _ _ R cid l Hl) as (l' & Hl' & L).
  destruct (binv_run S g evs cid l Hl) as [B _]. destruct (Hf evs cid l ltac:(done) Hl) as [F _].
  pose proof (winv_run S SO g HC wevs Hw) as W. pose proof (wi_link _ _ _ W cid l' Hl') as H.
  pose proof Hconn as Hconn'. rewrite <- (tr_evs _ _ _ _ R) in Hconn'.
  destruct (li_up_now _ _ _ _ _ H conn Hconn') as (ups & rest & E1 & E2 & E3).
  rewrite (E3 (lr_ul _ _ _ L)), app_nil_r in E1.
  assert (Ha : asked_for l' !! length (msgs S conn) = Some (c_req c)).
  { apply (asked_lookup S g _ _ _ _ _ H). exists k, c. unfold msgs. rewrite map_length, (lr_put _ _ _ L), (lr_cli _ _ _ L). done. }
  rewrite E1, lookup_app_r, Nat.sub_diag in Ha by done. destruct ups as [|r ups]; [done|]. injection Ha as ->.
  cbn [map] in E2. pose proof (lr_up _ _ _ L) as Hq. rewrite E2 in Hq.
  destruct (honest_read g HC _ _ Hq B (honest_small _ _ F) (proj1 F)) as [(m & h' & Er & Hg)|[_ Hx]]; [|by specialize (Hx Hall)].
  destruct (crel_read g HC _ _ _ _ Hq Er Hg) as (q' & Eq & _). injection Eq as Em _. subst m.
  assert (Esrv : s_conns S (n_srv (nrun S g evs)) !! cid = Some conn).
  { rewrite <- (nr_srv _ _ _ _ R), (wi_srv _ _ _ W). exact Hconn'. }
  assert (Ev : nserver_evs S g (evs ++ [NServe cid]) = nserver_evs S g evs ++ [EvReceive cid (encode_api (c_req c))]).
  { unfold nserver_evs. rewrite nrun_snoc. cbn [nstep]. unfold nlink_at in Hl. by rewrite Hl, Esrv, Htk, Er. }
  rewrite Ev.
  assert (Hok : decode_api (encode_api (c_req c)) = Ok (c_req c)).
  { rewrite <- (app_nil_r (encode_api _)). apply CodecProofs2.decode_encode_api. eapply (li_calls _ _ _ _ _ H k). by rewrite (lr_cli _ _ _ L). }
  assert (Hin : exists conn', conn_at S g (nserver_evs S g evs ++ [EvReceive cid (encode_api (c_req c))]) cid conn').
  { unfold conn_at, run. rewrite fold_left_app. unfold conn_at, run in Hconn. cbn [fold_left step]. rewrite Hconn.
    eexists. cbn [s_conns]. by rewrite lookup_insert. }
  destruct Hin as [conn' Hin]. exists conn'.
  assert (Hm : msgs S conn' = msgs S conn ++ [c_req c]).
  { destruct (conn_grows S g _ _ _ _ Hin) as [(c0 & Hc0 & Hgr)|(_ & ? & ? & ? & _)]; [|done].
    unfold conn_at in Hconn, Hc0. rewrite Hconn in Hc0. injection Hc0 as <-.
    destruct Hgr as (_ & _ & [(raw & a & Ee & _ & Ed & Emm & _)|[(_ & _ & Hno)|(_ & ? & ? & ? & ? & ? & _)]]); [| |done].
    - injection Ee as <-. rewrite Hok in Ed. injection Ed as <-. done.
    - exfalso. by apply (Hno _ _ eq_refl Htk Hok). }
  assert (Hrq : msgs S conn' !! length (c_reqs S conn) = Some (c_req c)).
  { rewrite Hm, lookup_app_r by (unfold msgs; by rewrite map_length). unfold msgs. by rewrite map_length, Nat.sub_diag. }
  unfold msgs in Hrq. rewrite list_lookup_fmap in Hrq. destruct (c_reqs S conn' !! length (c_reqs S conn)) as [rq|] eqn:Eq2; [|done].
  injection Hrq as Hrq. by exists rq.
Qed.
Print Assumptions C63_next_request.

(** A request that has arrived and has not been read: the moment before the server reads it. *)
Definition arrived : list nevent := one ++ two ++ take 6 pending.
Example C63_next_request_ex :
  link_is arrived 2 (fun l => bool_decide (ch_fed (x_up l) = t_wire (ch_snd (x_up l)))
                              && bool_decide (x_put l !! 3 = Some 3)) = true
  /\ Demo.check sql_store env (nserver_evs sql_store env arrived) 2
       (fun c => takes_more sql_store c && Nat.eqb (length (c_reqs sql_store c)) 3) = true.
Proof. split; vm_compute; reflexivity. Qed.

Lemma omap_length {A B} (f : A -> option B) l : length (omap f l) <= length l.
Proof. induction l as [|x l IH]; [done|]. cbn. destruct (f x); cbn; lia. Qed.

(** And the client, reading, gets the next answer that the server sent. *)
Theorem C63_next_answer :
  forall S (SO : StoreOk S) g, CryptoOk (g_crypto g) ->
  forall evs, Forall ntyped evs -> faithful S g evs ->
  forall cid l conn, nlink_at S g evs cid l -> all_here g (x_down l) -> k_recv (x_cli l) = RRun ->
    conn_at S g (nserver_evs S g evs) cid conn ->
    length (ch_got (x_down l)) < length (omap written (ch_out (x_down l))) ->
    exists tid m l', delivered S conn tid m /\ nlink_at S g (evs ++ [NTake cid]) cid l'
      /\ (api_ok m -> x_cli l' = cstep (x_cli l) (Incoming m)).
Proof.
  intros S SO g HC evs Ht Hf cid l conn Hl Hall Hrun Hconn Hlt. pose proof (faithful_clean S g HC evs Ht Hf) as Hn.
  destruct (sim_run S g HC evs Ht Hn) as (wevs & Hw & R & _). destruct (tr_link _ _ _ _ R cid l Hl) as (l' & Hl' & L).
  destruct (binv_run S g evs cid l Hl) as [_ B]. destruct (Hf evs cid l ltac:(done) Hl) as [_ F].
  pose proof (winv_run S SO g HC wevs Hw) as W. pose proof (wi_link _ _ _ W cid l' Hl') as H.
  pose proof (lr_down _ _ _ L) as Hq.
  assert (Hne : l_down l' <> []).
  { destruct Hq as [st _ _ _ Hgen ->]. intros E.
    rewrite <- (take_drop (length (ch_got (x_down l))) (ch_out (x_down l))), omap_app, E, app_nil_r in Hlt.
    pose proof (omap_length written (take (length (ch_got (x_down l))) (ch_out (x_down l)))) as Hle.
    rewrite take_length in Hle. lia. }
  destruct (honest_read g HC _ _ Hq B (honest_small _ _ F) (proj1 F)) as [(m & h' & Er & Hg)|[_ Hx]]; [|by specialize (Hx Hall)].
  destruct (crel_read g HC _ _ _ _ Hq Er Hg) as (q' & Eq & _).
  destruct (li_down _ _ _ _ _ H) as (dl & downs & tail & D1 & D2 & _ & D4 & _ & D6).
  rewrite Eq in D2. destruct downs as [|d downs]; [done|]. cbn [map] in D2. injection D2 as Em _.
  rewrite (lr_cli _ _ _ L) in D4. destruct (D4 Hrun) as [D4a _].
  assert (Hd : d ∈ (snd <$> dl)) by (rewrite D4a; set_solver).
  apply elem_of_list_fmap in Hd as ([tid d'] & -> & Hd). cbn [snd] in *.
  pose proof Hconn as Hconn'. rewrite <- (tr_evs _ _ _ _ R) in Hconn'.
  rewrite (D6 conn Hconn') in Hd. apply in_dels in Hd.
  assert (Hok : api_ok d' -> decode_api m = Ok d').
  { intros Hd'. rewrite Em, <- (app_nil_r (encode_api d')). by apply CodecProofs2.decode_encode_api. }
  exists tid, d'. unfold nlink_at in *. rewrite nrun_snoc. cbn [nstep]. rewrite Hl, Hrun, Er.
  eexists. split; [done|]. cbn [set_nlink n_links]. rewrite lookup_insert. split; [done|].
  intros Hd'. by rewrite (Hok Hd').
Qed.
Print Assumptions C63_next_answer.

(** The answer has arrived, the client has not read it. *)
Example C63_next_answer_ex :
  link_is (one ++ two ++ pending) 2
    (fun l => bool_decide (ch_fed (x_down l) = t_wire (ch_snd (x_down l)))
              && match k_recv (x_cli l) with RRun => true | _ => false end
              && Nat.ltb (length (ch_got (x_down l))) (length (omap written (ch_out (x_down l))))) = true.
Proof. vm_compute. reflexivity. Qed.

(** A call that waits is answered: when all that was written has arrived and been read,
    the server has its request; and when the server is done with it, and nothing failed, the next
    poll of the call returns the server's one answer. *)
Theorem C63_answered :
  forall S (SO : StoreOk S) g, CryptoOk (g_crypto g) ->
  forall evs, Forall ntyped evs -> faithful S g evs -> nids_differ S g evs ->
  forall cid k l c conn, ncall_at S g evs cid k l c -> c_st c = CWait ->
    conn_at S g (nserver_evs S g evs) cid conn -> k_recv (x_cli l) = RRun ->
    all_here g (x_up l) -> chan_read (x_up l) = RdMore ->
    all_here g (x_down l) -> chan_read (x_down l) = RdMore ->
    exists tid rq, received S conn tid rq /\ rq_msg S rq = c_req c
      /\ (finished S conn tid -> undisturbed S rq ->
          exists n m, ServerVocab.answers S conn tid = [(m, true)]
            /\ forall l', nlink_at S g (evs ++ [NClient cid (Poll k)]) cid l' ->
                 exists c', k_calls (x_cli l') !! k = Some c' /\ c_st c' = CEnd (Answer n m)).
Proof.
  intros S SO g HC evs Ht Hf Hd cid k l c conn Hcall Hst Hconn Hrun U1 U2 D1 D2.
  pose proof (faithful_clean S g HC evs Ht Hf) as Hn.
  destruct (sim_run S g HC evs Ht Hn) as (wevs & Hw & R & _). destruct (tr_call _ _ _ _ R _ _ _ _ Hcall) as (l' & Hl' & L).
  pose proof Hcall as [Hl _]. destruct (binv_run S g evs cid l Hl) as [B1 B2]. destruct (Hf evs cid l ltac:(done) Hl) as [F1 F2].
  assert (E1 : l_up l' = []).
  { destruct (honest_read g HC _ _ (lr_up _ _ _ L) B1 (honest_small _ _ F1) (proj1 F1)) as [(m & h' & Er & _)|[_ Hx]]; [congruence|by apply Hx]. }
  assert (E2 : l_down l' = []).
  { destruct (honest_read g HC _ _ (lr_down _ _ _ L) B2 (honest_small _ _ F2) (proj1 F2)) as [(m & h' & Er & _)|[_ Hx]]; [congruence|by apply Hx]. }
  rewrite <- (lr_cli _ _ _ L) in Hrun. rewrite <- (tr_evs _ _ _ _ R) in Hconn.
  destruct (PropertiesWorld.C58_answered S SO g HC wevs cid k l' c conn Hw (tr_ids _ _ _ _ R Hd) Hl' Hst Hconn E1
    (lr_ul _ _ _ L) E2 (lr_dl _ _ _ L) Hrun) as (tid & rq & H1 & H2 & H3).
  exists tid, rq. split; [done|]. split; [done|]. intros Hfin Hund. destruct (H3 Hfin Hund) as (n & m & H4 & H5).
  exists n, m. split; [done|]. intros x Hx.
  destruct Hl' as [Hl' _]. unfold nlink_at in *. rewrite nrun_snoc in Hx. cbn [nstep] in Hx. rewrite Hl in Hx. cbn [n_own set_nlink n_links] in Hx.
  rewrite lookup_insert in Hx. injection Hx as <-. cbn [with_cli x_cli]. rewrite <- (lr_cli _ _ _ L).
  apply (H5 (cli_step l' (Poll k))). unfold link_at in *. rewrite (wrun_snoc S g). cbn [wstep]. rewrite Hl'. cbn [own set_link w_links].
  by rewrite lookup_insert.
Qed.
Print Assumptions C63_answered.

(** The client has read the answer; its call has not been polled. *)
Example C63_answered_ex :
  link_is (one ++ two ++ pending ++ [NTake 2]) 2
    (fun l => bool_decide (ch_fed (x_up l) = t_wire (ch_snd (x_up l)))
              && bool_decide (ch_fed (x_down l) = t_wire (ch_snd (x_down l)))
              && match chan_read (x_up l), chan_read (x_down l), k_recv (x_cli l), k_calls (x_cli l) !! 3 with
                 | RdMore, RdMore, RRun, Some (Call _ CWait _) => true
                 | _, _, _, _ => false end) = true
  /\ Demo.check sql_store env (nserver_evs sql_store env (one ++ two ++ pending ++ [NTake 2])) 2
       (fun c => match c_thr sql_store c !! 3, c_reqs sql_store c !! 3 with
                 | None, Some rq => negb (rq_fail sql_store rq) | _, _ => false end) = true.
Proof. split; vm_compute; reflexivity. Qed.
