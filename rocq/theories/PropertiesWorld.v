(** * PropertiesWorld: clients and a keystore together (C58 to C61)

    Statements about the functions a program calls ([Asks.ask]) and what they give back, in any execution
    ([World.wevent]) of any number of clients and one server, with all their failures.  The words are
    those of [WorldVocab]. *)

From Verif Require Import Base Utf8 Crypto Toy Types Codec Secret Store StoreProofs Lru Server System ServerSpec
  ServerVocab ServerTheorems Client Asks World WorldVocab WorldProofs WorldProofs2 WorldProofs3.
From Verif Require PropertiesClient PropertiesServer1 PropertiesServer2 PropertiesServer3 Demo.
From Verif Require Import DemoWorld.

(** ** C58: every call gets its own answer *)

(** The server and the clients, joined, do what they do on their own: what is proved of
    the server ([System]) and of a client ([Client]) holds of them here. *)
Theorem C58_parts :
  forall S (SO : StoreOk S) g, CryptoOk (g_crypto g) ->
  forall evs, Forall typed evs ->
    w_srv (wrun S g evs) = run S g (server_evs S g evs)
    /\ forall cid l, link_at S g evs cid l -> l_cli l = crun new_client (l_evs l).
Proof.
  intros S SO g HC evs Ht. pose proof (winv_run S SO g HC evs Ht) as W.
  split; [apply (wi_srv _ _ _ W)|]. intros cid l Hl. apply (li_cli _ _ _ _ _ (wi_link _ _ _ W cid l Hl)).
Qed.
Print Assumptions C58_parts.

Example C58_parts_ex :
  Forall typed (first ++ second) /\ Nat.ltb 20 (length (server_evs sql_store env (first ++ second))) = true.
Proof.
  split; [apply Forall_app; split; [apply first_typed|apply second_typed]|]. vm_compute. reflexivity.
Qed.

(** The message that ended a call is the server's answer to exactly this call's request, received over
    this call's connection, whatever else is going on. *)
Theorem C58_own_answer :
  forall S (SO : StoreOk S) g, CryptoOk (g_crypto g) ->
  forall evs cid k l c n m, Forall typed evs -> ids_differ S g evs ->
    call_at S g evs cid k l c -> c_st c = CEnd (Answer n m) ->
    exists pre conn tid rq, pre `prefix_of` server_evs S g evs /\ conn_at S g pre cid conn
      /\ received S conn tid rq /\ rq_msg S rq = c_req c /\ delivered S conn tid m.
Proof.
  intros S SO g HC evs cid k l c n m Ht Hd Hc Hst.
  destruct (answer_from S SO g HC evs cid l k c n m Ht Hd Hc Hst) as (pre & conn & tid & rq & H1 & H2 & H3 & H4 & H5 & _).
  by exists pre, conn, tid, rq.
Qed.
Print Assumptions C58_own_answer.

(** In the session of [DemoWorld]: the second client's call 3 was ended by an answer. *)
Example C58_own_answer_ex :
  Forall typed (first ++ second) /\ ids_differ sql_store env (first ++ second)
  /\ match w_links (wrun sql_store env (first ++ second)) !! 2 with
     | Some l => match k_calls (l_cli l) !! 3 with
                 | Some c => match c_st c with CEnd (Answer _ (ResSign _ _)) => true | _ => false end
                 | None => false end
     | None => false end = true.
Proof.
  split; [apply Forall_app; split; [apply first_typed|apply second_typed]|]. split; [apply both_ids|].
  vm_compute. reflexivity.
Qed.

(** The server handles the request of a call at most once. *)
Theorem C58_once :
  forall S (SO : StoreOk S) g, CryptoOk (g_crypto g) ->
  forall evs cid k l c c1 tid1 rq1 c2 tid2 rq2, Forall typed evs -> ids_differ S g evs ->
    call_at S g evs cid k l c ->
    handled S g evs cid c1 tid1 rq1 -> rq_msg S rq1 = c_req c ->
    handled S g evs cid c2 tid2 rq2 -> rq_msg S rq2 = c_req c ->
    tid1 = tid2.
Proof.
  intros S SO g HC evs cid k l c c1 tid1 rq1 c2 tid2 rq2 Ht Hd Hc H1 E1 H2 E2.
  destruct (handled_call S SO g HC evs cid l c1 k c tid1 rq1 Ht Hd Hc H1 ltac:(by rewrite E1)) as [P1 _].
  destruct (handled_call S SO g HC evs cid l c2 k c tid2 rq2 Ht Hd Hc H2 ltac:(by rewrite E2)) as [P2 _].
  destruct Hc as [Hl _]. pose proof (wi_link _ _ _ (winv_run S SO g HC evs Ht) cid l Hl) as H.
  by eapply NoDup_lookup; [apply (li_nodup _ _ _ _ _ H)|exact P1|exact P2].
Qed.
Print Assumptions C58_once.

(** The request of that call was handled, once. *)
Example C58_once_ex :
  match s_conns sql_store (w_srv (wrun sql_store env (first ++ second))) !! 2 with
  | Some c => match c_reqs sql_store c !! 3 with
              | Some rq => match rq_msg sql_store rq with ReqSign i _ _ _ => beq i (str "b3") | _ => false end
              | None => false end
  | None => false end = true.
Proof. vm_compute. reflexivity. Qed.

(** A call that waits is answered: once everything sent has arrived (nothing lost on the way, nothing under
    way, the client still receiving) the server has its request; and when the server is done with it, and
    nothing failed, the next poll of the call returns the server's one answer. *)
Theorem C58_answered :
  forall S (SO : StoreOk S) g, CryptoOk (g_crypto g) ->
  forall evs cid k l c conn, Forall typed evs -> ids_differ S g evs ->
    call_at S g evs cid k l c -> c_st c = CWait ->
    conn_at S g (server_evs S g evs) cid conn ->
    l_up l = [] -> l_up_lost l = false -> l_down l = [] -> l_down_lost l = false -> k_recv (l_cli l) = RRun ->
    exists tid rq, received S conn tid rq /\ rq_msg S rq = c_req c
      /\ (finished S conn tid -> undisturbed S rq ->
          exists n m, ServerVocab.answers S conn tid = [(m, true)]
            /\ forall l', link_at S g (evs ++ [WClient cid (Poll k)]) cid l' ->
                 exists c', k_calls (l_cli l') !! k = Some c' /\ c_st c' = CEnd (Answer n m)).
Proof.
  intros S SO g HC evs cid k l c conn Ht Hd [Hl Hc] Hst Hconn Hup Hul Hdown Hdl Hrun.
  pose proof (winv_run S SO g HC evs Ht) as W. pose proof (wi_link _ _ _ W cid l Hl) as H.
  destruct (li_up_now _ _ _ _ _ H conn Hconn) as (ups & rest & Ea & Eu & Er).
  rewrite Hup in Eu. symmetry in Eu. apply fmap_nil_inv in Eu as ->. rewrite (Er Hul), !app_nil_r in Ea.
  pose proof (li_wait _ _ _ _ _ H k c Hc Hst) as Hput. apply elem_of_list_lookup in Hput as [tid Htid].
  assert (Ha : asked_for l !! tid = Some (c_req c)).
  { apply (asked_lookup S g _ _ _ _ _ H). by exists k, c. }
  rewrite Ea in Ha. unfold msgs in Ha. rewrite list_lookup_fmap in Ha.
  destruct (c_reqs S conn !! tid) as [rq|] eqn:Erq; [|done]. injection Ha as Hmsg.
  exists tid, rq. split; [done|]. split; [done|]. intros Hfin Hund.
  destruct (PropertiesServer1.C04_exactly_one S SO g HC _ cid conn tid rq Hconn Erq Hfin Hund) as [m Hm].
  assert (Hdel : delivered S conn tid m).
  { unfold delivered. unfold ServerVocab.answers in Hm. assert (Hi : (m, true) ∈ [(m, true)]) by (by left).
    rewrite <- Hm in Hi. apply elem_of_list_omap in Hi as ([[t m'] b] & Hi & Hx).
    destruct (Nat.eqb_spec t tid) as [->|]; [|done]. by injection Hx as -> ->. }
  destruct (li_down _ _ _ _ _ H) as (dl & downs & tail & D1 & D2 & _ & D4 & _ & D6).
  rewrite Hdown in D2. symmetry in D2. apply fmap_nil_inv in D2 as ->.
  destruct (D4 Hrun) as [D4a D4b]. rewrite (D4b Hdl) in D4a. cbn [app] in D4a. rewrite app_nil_r in D4a.
  rewrite (D6 conn Hconn) in D4a.
  assert (Hrec : m ∈ PropertiesClient.received (l_evs l)).
  { rewrite <- D4a. apply elem_of_list_fmap. exists (tid, m). split; [done|].
    by apply in_dels. }
  destruct (answer_meaning S SO g HC _ cid conn tid rq m Hconn Erq ltac:(by exists true)) as (L0 & w & M).
  assert (Hid : msg_id m = msg_id (c_req c)).
  { rewrite <- Hmsg. destruct (me_good _ _ _ _ _ _ _ _ M) as [[E _]|(er & -> & _)]; done. }
  pose proof (li_cli _ _ _ _ _ H) as Ecli.
  pose proof Hc as Hc'. rewrite Ecli in Hc', Hrun.
  assert (Hdist : PropertiesClient.distinct (l_evs l)).
  { unfold PropertiesClient.distinct. specialize (Hd cid l Hl). rewrite Ecli in Hd.
    replace (msg_id <$> PropertiesClient.requests (l_evs l))
      with (map (fun c => msg_id (c_req c)) (k_calls (crun new_client (l_evs l)))); [done|].
    apply list_eq. intros i. rewrite !list_lookup_fmap.
    destruct (k_calls (crun new_client (l_evs l)) !! i) as [c1|] eqn:E1.
    - by rewrite (call_request _ _ _ E1).
    - destruct (PropertiesClient.requests (l_evs l) !! i) as [r|] eqn:E2; [|done].
      pose proof (PropertiesClient.h_len _ _ (PropertiesClient.hinv_run (l_evs l))) as Elen.
      apply lookup_ge_None in E1. apply lookup_lt_Some in E2. lia. }
  destruct (mail_of (l_evs l) k c Hdist (li_tidy _ _ _ _ _ H) Hrun Hc') as (n & m' & Hmail).
  { unfold PropertiesClient.live. by rewrite Hst. }
  { by exists m. }
  assert (m' = m) as ->.
  { destruct (PropertiesClient.h_call _ _ (PropertiesClient.hinv_run (l_evs l)) k c Hc') as (b & a & _ & _ & Hx).
    destruct (Hx n m' Hmail) as (Hn & Hid' & _).
    (* both answer the same request *)
    assert (Hin' : m' ∈ (snd <$> dels S conn)) by (rewrite D4a; by eapply elem_of_list_lookup_2).
    apply elem_of_list_fmap in Hin' as ([t' m''] & -> & Hin'). cbn [snd] in *.
    apply in_dels in Hin'.
    destruct (sent_received S SO g HC _ cid conn t' m'' Hconn ltac:(by exists true)) as [rq' Hq'].
    destruct (answer_meaning S SO g HC _ cid conn t' rq' m'' Hconn Hq' ltac:(by exists true)) as (L1 & w1 & M1).
    assert (Hid2 : msg_id (rq_msg S rq') = msg_id (c_req c)).
    { rewrite <- Hid'. destruct (me_good _ _ _ _ _ _ _ _ M1) as [[E _]|(er & -> & _)]; done. }
    assert (Hh : forall t r, received S conn t r -> handled S g evs cid conn t r).
    { intros t r Hr. exists (server_evs S g evs). done. }
    destruct (handled_call S SO g HC evs cid l conn k c t' rq' Ht Hd (conj Hl Hc) (Hh _ _ Hq') Hid2) as [P1 _].
    destruct (handled_call S SO g HC evs cid l conn k c tid rq Ht Hd (conj Hl Hc) (Hh _ _ Erq) ltac:(by rewrite Hmsg)) as [P2 _].
    assert (t' = tid) as -> by (by eapply NoDup_lookup; [apply (li_nodup _ _ _ _ _ H)|exact P1|exact P2]).
    assert (Hi : (m'', true) ∈ ServerVocab.answers S conn tid).
    { unfold ServerVocab.answers. apply elem_of_list_omap. exists (tid, m'', true). split; [done|]. by rewrite Nat.eqb_refl. }
    rewrite Hm in Hi. apply elem_of_list_singleton in Hi. by injection Hi as ->. }
  exists n, m. split; [done|]. intros l' Hl'. unfold link_at in Hl, Hl'.
  rewrite (wrun_snoc S g) in Hl'. cbn [wstep] in Hl'. rewrite Hl in Hl'. cbn [own set_link w_links] in Hl'.
  rewrite lookup_insert in Hl'. injection Hl' as <-. cbn [cli_step l_cli cstep].
  destruct c as [rq0 st0 ml0]. cbn [c_st c_mail] in Hst, Hmail. subst st0 ml0. rewrite Hc.
  assert (I : PropertiesClient.pinv (l_cli l)) by (rewrite Ecli; apply PropertiesClient.pinv_run).
  destruct (PropertiesClient.ended_finish (l_cli l) k (Answer n m) _ I Hc) as (c' & Hc2 & Hst2).
  by exists c'.
Qed.
Print Assumptions C58_answered.

(** A call that waits, all that was sent has arrived, and the server is done with it. *)
Definition waiting : list wevent :=
  first ++ take (5 + 15 + 1) (call 2 1 "b1" (AGet (str "s")) x00).
Example C58_answered_ex :
  match w_links (wrun sql_store env waiting) !! 2, s_conns sql_store (w_srv (wrun sql_store env waiting)) !! 2 with
  | Some l, Some conn =>
      match k_calls (l_cli l) !! 1, c_thr sql_store conn !! 1, c_reqs sql_store conn !! 1 with
      | Some c, None, Some rq =>
          match c_st c, l_up l, l_down l, k_recv (l_cli l) with
          | CWait, [], [], RRun => negb (l_up_lost l) && negb (l_down_lost l) && negb (rq_fail sql_store rq)
          | _, _, _, _ => false
          end
      | _, _, _ => false
      end
  | _, _ => false
  end = true.
Proof. vm_compute. reflexivity. Qed.

(** What a call has given back is final: it never gives back anything else. *)
Theorem C58_final :
  forall S (SO : StoreOk S) g, CryptoOk (g_crypto g) ->
  forall evs more cid k a r, Forall typed (evs ++ more) -> gives S g evs cid k a r ->
    forall r', gives S g (evs ++ more) cid k a r' <-> r' = r.
Proof.
  intros S SO g HC evs more cid k a r Ht Hg r'. pose proof (gives_more S SO g HC _ _ _ _ _ _ Ht Hg) as H.
  split; [|by intros ->]. destruct H as (l & c & d & o & [Hl Hc] & _ & _ & Ho & Hr).
  intros (l' & c' & d' & o' & [Hl' Hc'] & _ & _ & Ho' & Hr'). unfold link_at in *.
  rewrite Hl in Hl'. injection Hl' as <-. rewrite Hc in Hc'. injection Hc' as <-. rewrite Ho in Ho'. injection Ho' as <-.
  congruence.
Qed.
Print Assumptions C58_final.

Example C58_final_ex :
  Forall typed (first ++ second) /\ gives sql_store env first 1 2 (ANewSeed (str "s") None true) (Ok (VSeed infoS)).
Proof.
  split; [apply Forall_app; split; [apply first_typed|apply second_typed]|]. apply gave_s.
Qed.

(** ** C59: what was created can be used, by every client *)

(** What a client has created, any client finds under its tag. *)
Theorem C59_get :
  forall S (SO : StoreOk S) g, CryptoOk (g_crypto g) ->
  forall evs more, Forall typed (evs ++ more) -> ids_differ S g (evs ++ more) -> keeps S SO (evs ++ more) ->
  forall cid k a v i cid' k' r,
    gives S g evs cid k a (Ok v) -> creates a v = Some i ->
    unlocked S g evs cid' -> not_made S g evs cid' k' ->
    well S g (evs ++ more) cid' k' (AGet (info_tag i)) r -> r = Ok (VInfo i).
Proof.
  intros S SO g HC evs more Ht Hd Hk cid k a v i cid' k' r Hg Hcr Hu Hn Hw.
  destruct (created S SO g HC evs cid k a v i) as (e & He & Hi); try done;
    [by apply Forall_app in Ht as [? _]|by eapply (ids_app S SO g HC)|by eapply keeps_app|].
  destruct (later_call S SO g HC evs more cid' k' _ r Ht Hd Hk Hu Hn Hw)
    as (pre & c & tid & rq & d & m & [H1 H2 H3 H4 H5 H6 H7] & Hq & Hcu & Hheld & Ho).
  cbn [request_of] in H4.
  destruct (PropertiesServer1.C08_get_entry S SO g HC pre cid' c tid rq m _ _ H2 H3 H6 H4) as [Hx _].
  rewrite (Hx e (Hheld e He) ltac:(by destruct e; rewrite <- Hi) Hcu Hq) in Ho.
  unfold outcome_is in Ho. rewrite H4 in Ho. cbn in Ho. rewrite Hi in Ho. by injection Ho as <-.
Qed.
Print Assumptions C59_get.

Example C59_get_ex :
  gives sql_store env first 1 2 (ANewSeed (str "s") None true) (Ok (VSeed infoS))
  /\ unlocked sql_store env first 2 /\ not_made sql_store env first 2 1
  /\ well sql_store env (first ++ second) 2 1 (AGet (str "s")) (Ok (VInfo (ISeed (str "s") infoS))).
Proof.
  split; [apply gave_s|]. split; [apply unlocked2|]. split; [by apply not_made2|].
  apply (gave_well "b1"); [txt|]. vm_compute. reflexivity.
Qed.

(** And lists it. *)
Theorem C59_list :
  forall S (SO : StoreOk S) g, CryptoOk (g_crypto g) ->
  forall evs more, Forall typed (evs ++ more) -> ids_differ S g (evs ++ more) -> keeps S SO (evs ++ more) ->
  forall cid k a v i cid' k' r,
    gives S g evs cid k a (Ok v) -> creates a v = Some i ->
    unlocked S g evs cid' -> not_made S g evs cid' k' ->
    well S g (evs ++ more) cid' k' AList r -> exists l, r = Ok (VInfos l) /\ i ∈ l.
Proof.
  intros S SO g HC evs more Ht Hd Hk cid k a v i cid' k' r Hg Hcr Hu Hn Hw.
  destruct (created S SO g HC evs cid k a v i) as (e & He & Hi); try done;
    [by apply Forall_app in Ht as [? _]|by eapply (ids_app S SO g HC)|by eapply keeps_app|].
  destruct (later_call S SO g HC evs more cid' k' _ r Ht Hd Hk Hu Hn Hw)
    as (pre & c & tid & rq & d & m & [H1 H2 H3 H4 H5 H6 H7] & Hq & Hcu & Hheld & Ho).
  cbn [request_of] in H4.
  destruct (PropertiesServer1.C09_list_succeeds S SO g HC pre cid' c tid rq m _ H2 H3 H6 H4 Hcu Hq) as [l ->].
  destruct (PropertiesServer1.C09_list_answer S SO g HC pre cid' c tid rq _ l H2 H3 H4 H6) as [Hx _].
  unfold outcome_is in Ho. rewrite H4 in Ho. cbn in Ho. injection Ho as <-. exists l. split; [done|].
  rewrite <- Hi. apply Hx. by apply Hheld.
Qed.
Print Assumptions C59_list.

Example C59_list_ex :
  not_made sql_store env first 2 2
  /\ exists l, well sql_store env (first ++ second) 2 2 AList (Ok (VInfos l))
       /\ bool_decide (ISeed (str "s") infoS ∈ l) = true /\ length l = 3.
Proof.
  split; [by apply not_made2|]. eexists. split; [apply (gave_well "b2"); [txt|]; vm_compute; reflexivity|].
  split; vm_compute; reflexivity.
Qed.

(** With a seed that is not deep locked every client can sign, and the signature
    verifies under the public key that its creator was given. *)
Theorem C59_sign :
  forall S (SO : StoreOk S) g, CryptoOk (g_crypto g) ->
  forall evs more, Forall typed (evs ++ more) -> ids_differ S g (evs ++ more) -> keeps S SO (evs ++ more) ->
  forall cid k a v t si cid' k' p data r,
    gives S g evs cid k a (Ok v) -> creates a v = Some (ISeed t si) ->
    unlocked S g evs cid' -> not_made S g evs cid' k' ->
    well S g (evs ++ more) cid' k' (ASign (si_ed si) p data) r ->
    exists sig, r = Ok (VBytes sig) /\ sign_verify (g_crypto g) (si_ed si) sig data = true.
Proof.
  intros S SO g HC evs more Ht Hd Hk cid k a v t si cid' k' p data r Hg Hcr Hu Hn Hw.
  destruct (created S SO g HC evs cid k a v (ISeed t si)) as (e & He & Hi); try done;
    [by apply Forall_app in Ht as [? _]|by eapply (ids_app S SO g HC)|by eapply keeps_app|].
  destruct (stored_info_seed S SO g HC _ e t si He Hi) as (Htag & Hdeep & Hsi & seed & Hp).
  destruct (later_call S SO g HC evs more cid' k' _ r Ht Hd Hk Hu Hn Hw)
    as (pre & c & tid & rq & d & m & [H1 H2 H3 H4 H5 H6 H7] & Hq & Hcu & Hheld & Ho).
  cbn [request_of] in H4.
  assert (Hed : ed_of e = Some (si_ed si)) by (unfold ed_of; by rewrite Hsi).
  rewrite (PropertiesServer3.C18_sign_succeeds S SO g HC pre cid' c tid rq m _ _ _ _ e seed
    H2 H3 H4 H6 Hcu Hq (Hheld e He) Hed Hp) in Ho.
  unfold outcome_is in Ho. rewrite H4 in Ho. cbn in Ho. injection Ho as <-. eexists. split; [done|].
  rewrite (plain_ed_of g e seed Hp) in Hed. injection Hed as <-.
  apply (sign_ok _ HC). exact (plain_seed_len g _ _ Hp).
Qed.
Print Assumptions C59_sign.

Example C59_sign_ex :
  not_made sql_store env first 2 3
  /\ exists sig, well sql_store env (first ++ second) 2 3 (ASign (si_ed infoS) None (str "data")) (Ok (VBytes sig))
       /\ length sig = 64.
Proof.
  split; [by apply not_made2|]. eexists. split; [apply (gave_well "b3"); [txt|]; vm_compute; reflexivity|].
  vm_compute. reflexivity.
Qed.

(** Without a fallback signer every signature given back verifies, whatever
    has happened, if the key belongs to a seed that was created and not deep locked. *)
Theorem C59_signature :
  forall S (SO : StoreOk S) g, CryptoOk (g_crypto g) -> g_fallback g = false ->
  forall evs, Forall typed evs -> ids_differ S g evs -> keeps S SO evs ->
  forall cid k a v t si cid' k' p data sig,
    gives S g evs cid k a (Ok v) -> creates a v = Some (ISeed t si) ->
    gives S g evs cid' k' (ASign (si_ed si) p data) (Ok (VBytes sig)) ->
    sign_verify (g_crypto g) (si_ed si) sig data = true.
Proof.
  intros S SO g HC Hfb evs Ht Hd Hk cid k a v t si cid' k' p data sig Hg Hcr Hs.
  destruct (created S SO g HC evs cid k a v _ Ht Hd Hk Hg Hcr) as (e & He & Hi).
  destruct (stored_info_seed S SO g HC _ e t si He Hi) as (Htag & Hdeep & Hsi & seed & Hp).
  destruct (ok_served S SO g HC evs cid' k' _ _ Ht Hd Hs) as (pre & c & tid & rq & d & m & Hsv & Her & Hv).
  destruct (served_right S SO g HC _ _ _ _ _ _ _ _ _ _ Hsv Her) as (L0 & w & M & [_ R]).
  cbn [request_of] in R. destruct m; try done. cbn [value_of] in Hv. injection Hv as ->.
  destruct R as (_ & [(e1 & seed1 & H1 & H2 & H3 & ->)|(H & _)]); [|congruence].
  assert (Hed : ed_of e = Some (si_ed si)) by (unfold ed_of; by rewrite Hsi).
  assert (e1 = e) as ->.
  { eapply (same_ed S SO g HC (server_evs S g evs)); [|done| |done].
    - eapply (served_stored S SO g HC); try done. by apply (me_now _ _ _ _ _ _ _ _ M).
    - by apply ed_key. }
  destruct e as [t' si' sec| |]; try done. rewrite (plain_ed_of g _ _ H3) in Hed. injection Hed as <-.
  apply (sign_ok _ HC). exact (plain_seed_len g _ _ H3).
Qed.
Print Assumptions C59_signature.

Example C59_signature_ex :
  g_fallback env = false
  /\ gives sql_store env first 1 2 (ANewSeed (str "s") None true) (Ok (VSeed infoS))
  /\ exists sig, gives sql_store env (first ++ second) 2 3 (ASign (si_ed infoS) None (str "data")) (Ok (VBytes sig)).
Proof.
  split; [done|]. split; [apply gave_s|]. eexists.
  apply (gave_gives sql_store (first ++ second) 2 3 "b3"); [txt|]. vm_compute. reflexivity.
Qed.

(** What one client encrypts for the public key of a seed, to be found in the same or
    another keystore, a client of that keystore reads. *)
Theorem C59_box :
  forall S1 (SO1 : StoreOk S1) g1 S2 (SO2 : StoreOk S2) g2,
  CryptoOk (g_crypto g1) -> g_crypto g2 = g_crypto g1 ->
  forall evs1, Forall typed evs1 -> ids_differ S1 g1 evs1 ->
  forall evs2 more, Forall typed (evs2 ++ more) -> ids_differ S2 g2 (evs2 ++ more) -> keeps S2 SO2 (evs2 ++ more) ->
  forall cid2 k2 a v t si, gives S2 g2 evs2 cid2 k2 a (Ok v) -> creates a v = Some (ISeed t si) ->
  forall cid1 k1 s p data n cipher,
    gives S1 g1 evs1 cid1 k1 (ABox s (si_x si) p data) (Ok (VBox n cipher)) ->
  forall cid k p' r,
    unlocked S2 g2 evs2 cid -> not_made S2 g2 evs2 cid k ->
    well S2 g2 (evs2 ++ more) cid k (ABoxOpen s (si_x si) p' n cipher) r -> r = Ok (VBytes data).
Proof.
  intros S1 SO1 g1 S2 SO2 g2 HC EC evs1 Ht1 Hd1 evs2 more Ht2 Hd2 Hk2 cid2 k2 a v t si Hg Hcr
    cid1 k1 s p data n cipher Hb cid k p' r Hu Hn Hw.
  pose proof HC as HC2. rewrite <- EC in HC2.
  destruct (created S2 SO2 g2 HC2 evs2 cid2 k2 a v (ISeed t si)) as (e & He & Hi); try done;
    [by apply Forall_app in Ht2 as [? _]|by eapply (ids_app S2 SO2 g2 HC2)|by eapply keeps_app|].
  destruct (stored_info_seed S2 SO2 g2 HC2 _ e t si He Hi) as (Htag & Hdeep & Hsi & seed & Hp).
  destruct (ok_served S1 SO1 g1 HC evs1 cid1 k1 _ _ Ht1 Hd1 Hb) as (pre1 & c1 & tid1 & rq1 & d1 & m1 & Hsv & Her & Hv).
  destruct (served_right S1 SO1 g1 HC _ _ _ _ _ _ _ _ _ _ Hsv Her) as (L1 & w1 & M1 & [Hid1 R1]).
  cbn [request_of] in R1. destruct m1; try done. cbn [value_of] in Hv. injection Hv as -> ->. cbn in Hid1. subst.
  destruct Hsv as [A1 A2 A3 A4 A5 A6 A7]. cbn [request_of] in A4.
  destruct (later_call S2 SO2 g2 HC2 evs2 more cid k _ r Ht2 Hd2 Hk2 Hu Hn Hw)
    as (pre & c & tid & rq & d & m & [H1 H2 H3 H4 H5 H6 H7] & Hq & Hcu & Hheld & Ho).
  cbn [request_of] in H4.
  assert (Hx : x_of e = Some (si_x si)) by (unfold x_of; by rewrite Hsi).
  rewrite (PropertiesServer3.C21_box_open S1 SO1 g1 S2 SO2 g2 HC EC pre1 cid1 c1 tid1 rq1 _ s (si_x si) _ data n cipher
    A2 A3 A4 A6 pre cid c tid rq _ _ m e H2 H3 H4 H6 Hcu Hq (Hheld e He) Hdeep Hx) in Ho.
  unfold outcome_is in Ho. rewrite H4 in Ho. cbn in Ho. by injection Ho as <-.
Qed.
Print Assumptions C59_box.

Example C59_box_ex :
  gives sql_store env first 1 6 (ABox xS xS None (str "hi")) (Ok (VBox nonce box_cipher))
  /\ not_made sql_store env first 2 7
  /\ well sql_store env (first ++ second) 2 7 (ABoxOpen xS xS None nonce box_cipher) (Ok (VBytes (str "hi"))).
Proof.
  split; [apply (gave_gives sql_store first 1 6 "a6"); [txt|]; vm_compute; reflexivity|]. split; [by apply not_made2|].
  apply (gave_well "b7"); [txt|]. vm_compute. reflexivity.
Qed.

(** The same for the functions that take signing keys. *)
Theorem C59_box_by_sign :
  forall S1 (SO1 : StoreOk S1) g1 S2 (SO2 : StoreOk S2) g2,
  CryptoOk (g_crypto g1) -> g_crypto g2 = g_crypto g1 ->
  forall evs1, Forall typed evs1 -> ids_differ S1 g1 evs1 ->
  forall evs2 more, Forall typed (evs2 ++ more) -> ids_differ S2 g2 (evs2 ++ more) -> keeps S2 SO2 (evs2 ++ more) ->
  forall cid2 k2 a v t si, gives S2 g2 evs2 cid2 k2 a (Ok v) -> creates a v = Some (ISeed t si) ->
  forall cid1 k1 s p data n cipher,
    gives S1 g1 evs1 cid1 k1 (ABoxSign s (si_ed si) p data) (Ok (VBox n cipher)) ->
  forall cid k p' r,
    unlocked S2 g2 evs2 cid -> not_made S2 g2 evs2 cid k ->
    well S2 g2 (evs2 ++ more) cid k (ABoxSignOpen s (si_ed si) p' n cipher) r -> r = Ok (VBytes data).
Proof.
  intros S1 SO1 g1 S2 SO2 g2 HC EC evs1 Ht1 Hd1 evs2 more Ht2 Hd2 Hk2 cid2 k2 a v t si Hg Hcr
    cid1 k1 s p data n cipher Hb cid k p' r Hu Hn Hw.
  pose proof HC as HC2. rewrite <- EC in HC2.
  destruct (created S2 SO2 g2 HC2 evs2 cid2 k2 a v (ISeed t si)) as (e & He & Hi); try done;
    [by apply Forall_app in Ht2 as [? _]|by eapply (ids_app S2 SO2 g2 HC2)|by eapply keeps_app|].
  destruct (stored_info_seed S2 SO2 g2 HC2 _ e t si He Hi) as (Htag & Hdeep & Hsi & seed & Hp).
  destruct (ok_served S1 SO1 g1 HC evs1 cid1 k1 _ _ Ht1 Hd1 Hb) as (pre1 & c1 & tid1 & rq1 & d1 & m1 & Hsv & Her & Hv).
  destruct (served_right S1 SO1 g1 HC _ _ _ _ _ _ _ _ _ _ Hsv Her) as (L1 & w1 & M1 & [Hid1 R1]).
  cbn [request_of] in R1. destruct m1; try done. cbn [value_of] in Hv. injection Hv as -> ->. cbn in Hid1. subst.
  destruct Hsv as [A1 A2 A3 A4 A5 A6 A7]. cbn [request_of] in A4.
  destruct (later_call S2 SO2 g2 HC2 evs2 more cid k _ r Ht2 Hd2 Hk2 Hu Hn Hw)
    as (pre & c & tid & rq & d & m & [H1 H2 H3 H4 H5 H6 H7] & Hq & Hcu & Hheld & Ho).
  cbn [request_of] in H4.
  assert (Hed : ed_of e = Some (si_ed si)) by (unfold ed_of; by rewrite Hsi).
  rewrite (PropertiesServer3.C21_box_sign_open S1 SO1 g1 S2 SO2 g2 HC EC pre1 cid1 c1 tid1 rq1 _ s (si_ed si) _ data n cipher
    A2 A3 A4 A6 pre cid c tid rq _ _ m e H2 H3 H4 H6 Hcu Hq (Hheld e He) Hdeep Hed) in Ho.
  unfold outcome_is in Ho. rewrite H4 in Ho. cbn in Ho. by injection Ho as <-.
Qed.
Print Assumptions C59_box_by_sign.

Example C59_box_by_sign_ex :
  gives sql_store env first 1 7 (ABoxSign (si_ed infoS) (si_ed infoS) None (str "hi")) (Ok (VBox nonce sign_cipher))
  /\ not_made sql_store env first 2 8
  /\ well sql_store env (first ++ second) 2 8 (ABoxSignOpen (si_ed infoS) (si_ed infoS) None nonce sign_cipher)
       (Ok (VBytes (str "hi"))).
Proof.
  split; [apply (gave_gives sql_store first 1 7 "a7"); [txt|]; vm_compute; reflexivity|]. split; [by apply not_made2|].
  apply (gave_well "b8"); [txt|]. vm_compute. reflexivity.
Qed.

(** What one client encrypts with a seed, named by its tag, every client
    reads who names the same tag. *)
Theorem C59_secret_box :
  forall S (SO : StoreOk S) g, CryptoOk (g_crypto g) ->
  forall evs more, Forall typed (evs ++ more) -> ids_differ S g (evs ++ more) -> keeps S SO (evs ++ more) ->
  forall cid k t p data n cipher cid' k' p' r,
    gives S g evs cid k (ASecretBox t p data) (Ok (VBox n cipher)) ->
    unlocked S g evs cid' -> not_made S g evs cid' k' ->
    well S g (evs ++ more) cid' k' (ASecretBoxOpen t p' n cipher) r -> r = Ok (VBytes data).
Proof.
  intros S SO g HC evs more Ht Hd Hk cid k t p data n cipher cid' k' p' r Hg Hu Hn Hw.
  assert (Ht0 : Forall typed evs) by (by apply Forall_app in Ht as [? _]).
  pose proof (ids_app S SO g HC _ _ Ht Hd) as Hd0. pose proof (keeps_app S SO _ _ Hk) as Hk0.
  destruct (ok_served S SO g HC evs cid k _ _ Ht0 Hd0 Hg) as (pre1 & c1 & tid1 & rq1 & d1 & m1 & Hsv & Her & Hv).
  destruct (served_right S SO g HC _ _ _ _ _ _ _ _ _ _ Hsv Her) as (L1 & w1 & M1 & [_ R1]).
  cbn [request_of] in R1. destruct m1; try done. cbn [value_of] in Hv. injection Hv as -> ->.
  destruct R1 as (_ & Hn1 & e & seed & H1 & H2 & Hp & ->).
  assert (He : stored S g (server_evs S g evs) e).
  { eapply (served_stored S SO g HC); try done. by apply (me_now _ _ _ _ _ _ _ _ M1). }
  destruct (later_call S SO g HC evs more cid' k' _ r Ht Hd Hk Hu Hn Hw)
    as (pre & c & tid & rq & d & m & [B1 B2 B3 B4 B5 B6 B7] & Hq & Hcu & Hheld & Ho).
  cbn [request_of] in B4.
  destruct (fine_answer S SO g HC pre cid' c tid rq m B2 B3 B6 Hq Hcu) as (L0 & w & M & [[_ R]|(er & -> & R)]);
    rewrite B4 in R.
  - destruct m; try done. destruct R as (_ & e' & seed' & A1 & A2 & A3 & A4).
    assert (e' = e) as ->.
    { eapply (same_tag S SO g HC pre); [by apply (me_now _ _ _ _ _ _ _ _ M)|by eapply before_now; eauto|congruence]. }
    rewrite (plain_seed_det g e seed' seed A3 Hp) in A4.
    rewrite (sbox_ok _ HC) in A4; [|done|by eapply plain_seed_len]. injection A4 as <-.
    unfold outcome_is in Ho. rewrite B4 in Ho. cbn in Ho. by injection Ho as <-.
  - exfalso. cbn [own_excuse] in R. eapply (R e seed); [by apply (me_before _ _ _ _ _ _ _ _ M), Hheld|done|done|].
    apply (sbox_ok _ HC); [done|by eapply plain_seed_len].
Qed.
Print Assumptions C59_secret_box.

Example C59_secret_box_ex :
  gives sql_store env first 1 5 (ASecretBox (str "s") None (str "hi")) (Ok (VBox nonce secret_cipher))
  /\ not_made sql_store env first 2 6
  /\ well sql_store env (first ++ second) 2 6 (ASecretBoxOpen (str "s") None nonce secret_cipher) (Ok (VBytes (str "hi"))).
Proof.
  split; [apply (gave_gives sql_store first 1 5 "a5"); [txt|]; vm_compute; reflexivity|]. split; [by apply not_made2|].
  apply (gave_well "b6"); [txt|]. vm_compute. reflexivity.
Qed.

(** A seed exported by one client and imported by another, into the same or
    another keystore, has the public keys it had. *)
Theorem C59_export_import :
  forall S1 (SO1 : StoreOk S1) g1 S2 (SO2 : StoreOk S2) g2,
  CryptoOk (g_crypto g1) -> g_crypto g2 = g_crypto g1 ->
  forall evs1, Forall typed evs1 -> ids_differ S1 g1 evs1 -> keeps S1 SO1 evs1 ->
  forall evs2, Forall typed evs2 -> ids_differ S2 g2 evs2 ->
  forall cid1 k1 a v i cid k p n cipher s r cid2 k2 p' t' x si,
    gives S1 g1 evs1 cid1 k1 a (Ok v) -> creates a v = Some i ->
    gives S1 g1 evs1 cid k (AExport (info_tag i) s r p) (Ok (VBox n cipher)) ->
    gives S2 g2 evs2 cid2 k2 (AImport s r p' n cipher t' x) (Ok (VSeed si)) ->
    info_ed i = Some (si_ed si) /\ info_x i = Some (si_x si) /\ si_exportable si = x.
Proof.
  intros S1 SO1 g1 S2 SO2 g2 HC EC evs1 Ht1 Hd1 Hk1 evs2 Ht2 Hd2 cid1 k1 a v i cid k p n cipher s r
    cid2 k2 p' t' x si Hg Hcr Hexp Himp.
  pose proof HC as HC2. rewrite <- EC in HC2.
  destruct (created S1 SO1 g1 HC evs1 cid1 k1 a v i Ht1 Hd1 Hk1 Hg Hcr) as (e & He & Hi).
  destruct (ok_served S1 SO1 g1 HC evs1 cid k _ _ Ht1 Hd1 Hexp) as (pre1 & c1 & tid1 & rq1 & d1 & m1 & Hsv & Her & Hv).
  destruct (served_right S1 SO1 g1 HC _ _ _ _ _ _ _ _ _ _ Hsv Her) as (L1 & w1 & M1 & [_ R1]).
  cbn [request_of] in R1. destruct m1; try done. cbn [value_of] in Hv. injection Hv as -> ->.
  destruct R1 as (_ & Hn1 & e1 & seed & e2 & seed2 & A1 & A2 & A3 & A4 & A5 & A6 & -> & A7).
  assert (e1 = e) as ->.
  { eapply (same_tag S1 SO1 g1 HC (server_evs S1 g1 evs1)); [|done|].
    - eapply (served_stored S1 SO1 g1 HC); try done. by apply (me_now _ _ _ _ _ _ _ _ M1).
    - rewrite A2, <- Hi. by destruct e. }
  destruct (ok_served S2 SO2 g2 HC2 evs2 cid2 k2 _ _ Ht2 Hd2 Himp) as (pre & c & tid & rq & d & m & Hsv2 & Her2 & Hv2).
  destruct (served_right S2 SO2 g2 HC2 _ _ _ _ _ _ _ _ _ _ Hsv2 Her2) as (L2 & w2 & M2 & [_ R2]).
  cbn [request_of] in R2. destruct m; try done. cbn [value_of] in Hv2. injection Hv2 as ->.
  destruct R2 as (_ & _ & Hx & e3 & seed3 & e4 & seed4 & B1 & B2 & -> & B4 & B5 & B6). rewrite EC in *.
  assert (L2' : length seed2 = 32) by (by eapply plain_seed_len).
  assert (L4 : length seed4 = 32) by (by eapply plain_seed_len).
  unfold box_pk in A7, B4. 
  destruct (box_ok _ HC n seed (box_sk (g_crypto g1) seed2) (box_sk (g_crypto g1) seed4)) as (c' & E1 & _ & E2);
    [done|by apply (box_sk_len _ HC)|by apply (box_sk_len _ HC)|].
  assert (c' = cipher) as -> by congruence. assert (seed3 = seed) as -> by congruence.
  assert (Hkm : keys_match g1 si seed).
  { destruct p' as [p'|]; cbn [option_map holds_seed] in B6.
    - destruct B6 as (pass & salt & sec & _ & -> & (kk & _ & _ & Hm)). unfold keys_match in *. by rewrite EC in Hm.
    - destruct B6 as (sec & -> & (_ & Hm)). unfold keys_match in *. by rewrite EC in Hm. }
  destruct Hkm as (_ & E3 & E4). rewrite E3, E4, <- Hi.
  pose proof (plain_ed_of g1 e seed A3) as E5. pose proof (plain_x_of g1 e seed A3) as E6.
  split; [|split; [|done]].
  - destruct e; try done; exact E5.
  - destruct e; try done; exact E6.
Qed.
Print Assumptions C59_export_import.

Example C59_export_import_ex :
  Forall typed first /\ ids_differ sql_store env first /\ Forall typed other /\ ids_differ sql_store env other
  /\ gives sql_store env first 1 8 (AExport (str "s") xS xO None) (Ok (VBox nonce export_cipher))
  /\ gives sql_store env other 1 2 (AImport xS xO None nonce export_cipher (str "s2") false)
       (Ok (VSeed (SeedInfo (si_ed infoS) (si_x infoS) false))).
Proof.
  split; [apply first_typed|]. split; [apply first_ids|]. split; [apply other_typed|]. split; [apply other_ids|].
  split; [apply (gave_gives sql_store first 1 8 "a8"); [txt|]; vm_compute; reflexivity|].
  apply (gave_gives sql_store other 1 2 "a3"); [txt|]; vm_compute; reflexivity.
Qed.

(** The private key given for a certificate is the one generated with it. *)
Theorem C59_cert :
  forall S (SO : StoreOk S) g, CryptoOk (g_crypto g) ->
  forall evs, Forall typed evs -> ids_differ S g evs -> keeps S SO evs ->
  forall cid k t ci, gives S g evs cid k (ANewCert t) (Ok (VCert ci)) ->
    exists gc, g_rcgen g gc = true /\ ci = cert_of g gc
      /\ (forall cid' k' key, gives S g evs cid' k' (ACertKey t) (Ok (VBytes key)) -> key = gc_priv gc)
      /\ (forall more cid' k' r, Forall typed (evs ++ more) -> ids_differ S g (evs ++ more) ->
            keeps S SO (evs ++ more) -> unlocked S g evs cid' -> not_made S g evs cid' k' ->
            well S g (evs ++ more) cid' k' (ACertKey t) r -> r = Ok (VBytes (gc_priv gc))).
Proof.
  intros S SO g HC evs Ht Hd Hk cid k t ci Hg.
  destruct (ok_served S SO g HC evs cid k _ _ Ht Hd Hg) as (pre1 & c1 & tid1 & rq1 & d1 & m1 & Hsv & Her & Hv).
  destruct (served_right S SO g HC _ _ _ _ _ _ _ _ _ _ Hsv Her) as (L1 & w1 & M1 & [_ R1]).
  cbn [request_of] in R1. destruct m1; try done. cbn [value_of] in Hv. injection Hv as ->.
  destruct R1 as (_ & _ & gc & sec & H1 & -> & H3 & H4).
  assert (He : stored S g (server_evs S g evs) (ECert t (cert_of g gc) sec)).
  { eapply (served_stored S SO g HC); try done. by apply (me_now _ _ _ _ _ _ _ _ M1). }
  exists gc. split; [done|]. split; [done|]. split.
  - intros cid' k' key Hkey.
    destruct (ok_served S SO g HC evs cid' k' _ _ Ht Hd Hkey) as (pre & c & tid & rq & d & m & Hs2 & Her2 & Hv2).
    destruct (served_right S SO g HC _ _ _ _ _ _ _ _ _ _ Hs2 Her2) as (L2 & w2 & M2 & [_ R2]).
    cbn [request_of] in R2. destruct m; try done. cbn [value_of] in Hv2.
    destruct R2 as (_ & e & priv & hdr & A1 & A2 & A3 & A4 & ->).
    assert (e = ECert t (cert_of g gc) sec) as ->.
    { eapply (same_tag S SO g HC (server_evs S g evs)); [|done|done].
      eapply (served_stored S SO g HC); try done. by apply (me_now _ _ _ _ _ _ _ _ M2). }
    cbn [cert_priv] in A3, H4. rewrite A3 in H4. injection H4 as ->.
    rewrite (sec_open_any_encrypt (g_crypto g) HC) in Hv2. by injection Hv2 as <-.
  - intros more cid' k' r Ht' Hd' Hk' Hu Hn Hw.
    destruct (later_call S SO g HC evs more cid' k' _ r Ht' Hd' Hk' Hu Hn Hw)
      as (pre & c & tid & rq & d & m & [B1 B2 B3 B4 B5 B6 B7] & Hq & Hcu & Hheld & Ho).
    cbn [request_of] in B4.
    destruct (fine_answer S SO g HC pre cid' c tid rq m B2 B3 B6 Hq Hcu) as (L0 & w & M & [[_ R]|(er & -> & R)]);
      rewrite B4 in R.
    + destruct m; try done. destruct R as (_ & e & priv & hdr & A1 & A2 & A3 & A4 & ->).
      assert (e = ECert t (cert_of g gc) sec) as ->.
      { eapply (same_tag S SO g HC pre); [by apply (me_now _ _ _ _ _ _ _ _ M)|by eapply before_now; eauto|by rewrite A2]. }
      cbn [cert_priv] in A3, H4. rewrite A3 in H4. injection H4 as ->.
      unfold outcome_is in Ho. rewrite B4 in Ho. cbn [Client.answers value_of] in Ho.
      rewrite (sec_open_any_encrypt (g_crypto g) HC) in Ho. by injection Ho as <-.
    + exfalso. cbn [own_excuse] in R. eapply (R (ECert t (cert_of g gc) sec)); [by apply (me_before _ _ _ _ _ _ _ _ M), Hheld|done|exact H4].
Qed.
Print Assumptions C59_cert.

Example C59_cert_ex :
  gives sql_store env first 1 4 (ANewCert (str "c")) (Ok (VCert certificate))
  /\ not_made sql_store env first 2 9
  /\ well sql_store env (first ++ second) 2 9 (ACertKey (str "c")) (Ok (VBytes (str "sni"))).
Proof.
  split; [apply (gave_gives sql_store first 1 4 "a4"); [txt|]; vm_compute; reflexivity|]. split; [by apply not_made2|].
  apply (gave_well "b9"); [txt|]. vm_compute. reflexivity.
Qed.

(** ** C60: passphrases *)

(** Unlocking succeeds exactly with the right passphrase. *)
Theorem C60_unlock :
  forall S (SO : StoreOk S) g, CryptoOk (g_crypto g) ->
  forall evs, Forall typed evs -> ids_differ S g evs ->
  forall cid k pass,
    (forall v, gives S g evs cid k (AUnlock pass) (Ok v) -> right_pass g pass)
    /\ (forall r, well S g evs cid k (AUnlock pass) r -> right_pass g pass -> r = Ok VUnit).
Proof.
  intros S SO g HC evs Ht Hd cid k pass.
  assert (Hrp : forall c hdr, right_passphrase S g c (hide (g_crypto g) (c_dec S c) hdr pass) <-> right_pass g pass).
  { intros c hdr. unfold right_passphrase, right_pass, opens. split.
    - intros (pw & pre & seed & E & H). rewrite (hide_opens g HC) in E. injection E as <-. by exists pre, seed.
    - intros (pre & seed & H). exists (blake2b (g_crypto g) 64 pass), pre, seed. split; [apply (hide_opens g HC)|done]. }
  split.
  - intros v Hg. destruct (ok_served S SO g HC evs cid k _ _ Ht Hd Hg) as (pre & c & tid & rq & d & m & Hs & Her & Hv).
    destruct (served_right S SO g HC _ _ _ _ _ _ _ _ _ _ Hs Her) as (L0 & w & M & [_ R]).
    cbn [request_of] in R. destruct m; try done. destruct R as [R _]. apply unlock_pk_right in R.
    by apply (Hrp c (d_hdr d)).
  - intros r Hw Hr. destruct (well_served S SO g HC _ _ _ _ _ Ht Hd Hw) as (pre & c & tid & rq & d & m & [H1 H2 H3 H4 H5 H6 H7] & Hq & Ho).
    cbn [request_of] in H4.
    destruct (PropertiesServer1.C02_unlock_answer S SO g HC pre cid c tid rq m _ _ H2 H3 H6 H4) as [Hx _].
    destruct (Hx (proj2 (Hrp c (d_hdr d)) Hr) Hq) as [-> _].
    unfold outcome_is in Ho. rewrite H4 in Ho. cbn in Ho. by injection Ho as <-.
Qed.
Print Assumptions C60_unlock.

Example C60_unlock_ex : right_pass env pass /\ ~ right_pass env (str "guess").
Proof.
  split.
  - exists pre, Demo.demo_seed. split; [vm_compute; reflexivity|]. split; vm_compute; reflexivity.
  - intros (p & seed & E1 & E2 & _).
    assert (H : match argon2id toy (blake2b toy 64 (str "guess")) (g_salt env) (g_ops env) (g_mem env) with
                | Ok p => is_ok (sec_open toy 32 (kdf toy 142 (str "IdnSecKy") p) (g_id_seed env))
                | Err _ => false end = false) by (vm_compute; reflexivity).
    change (g_crypto env) with toy in *. rewrite E1, E2 in H. discriminate H.
Qed.

(** No function but hello gives back anything but an error over a connection on which the
    right passphrase has not been sent. *)
Theorem C60_locked :
  forall S (SO : StoreOk S) g, CryptoOk (g_crypto g) ->
  forall evs, Forall typed evs -> ids_differ S g evs ->
  forall cid k a v, gives S g evs cid k a (Ok v) -> (forall key, a <> AHello key) ->
    exists l k0 c0 id s digest, call_at S g evs cid k0 l c0 /\ c_req c0 = ReqUnlock id s
      /\ sec_open (g_crypto g) 64 (l_enc l) s = Ok digest /\ opens g digest.
Proof.
  intros S SO g HC evs Ht Hd cid k a v Hg Ha.
  destruct (ok_served S SO g HC evs cid k _ _ Ht Hd Hg) as (pre & c & tid & rq & d & m & Hs & Her & Hv).
  destruct (served_right S SO g HC _ _ _ _ _ _ _ _ _ _ Hs Her) as (L0 & w & M & R).
  assert (Hu : c_unl S c = true).
  { apply (me_unl _ _ _ _ _ _ _ _ M). destruct (right_unlocked g _ _ _ _ _ _ R) as [H|(id & H & _)]; [done|].
    destruct a; try done. by destruct (Ha expected). }
  destruct Hs as [H1 H2 H3 H4 H5 H6 (l & cl & [Hl Hcl] & H8)].
  destruct (unlocked_by S SO g HC pre cid c H2 Hu) as (t0 & rq0 & id & s & Hq0 & Hm0 & (pw & pre0 & seed & E0 & E1)).
  pose proof (wi_link _ _ _ (winv_run S SO g HC evs Ht) cid l Hl) as H.
  destruct (li_keys _ _ _ _ _ H pre c H1 H2) as [K1 _].
  destruct (li_up _ _ _ _ _ H pre c H1 H2) as [x Ex].
  assert (Hask : asked_for l !! t0 = Some (rq_msg S rq0)).
  { rewrite Ex, lookup_app_l.
    - unfold msgs. rewrite list_lookup_fmap. unfold received in Hq0. by rewrite Hq0.
    - unfold msgs. rewrite map_length. by eapply lookup_lt_Some. }
  apply (asked_lookup S g _ _ _ _ _ H) in Hask as (k0 & c0 & _ & Hc0 & E).
  exists l, k0, c0, id, s, pw. split; [done|]. split; [congruence|]. split; [by rewrite <- K1|]. by exists pre0, seed.
Qed.
Print Assumptions C60_locked.

(** Before the passphrase is sent: hello is answered, a request for a seed is not. *)
Definition early : list wevent :=
  [WConnect 1 Demo.demo_rx Demo.demo_tx] ++ call 1 0 "a0" (AHello (box_pk toy Demo.demo_seed)) x00
  ++ call 1 1 "a1" (ANewSeed (str "s") None true) x0a ++ call 1 2 "a2" (AUnlock pass) x00
  ++ call 1 3 "a3" (ANewSeed (str "s") None true) x0a.
Example C60_locked_ex :
  (exists v, gives sql_store env early 1 0 (AHello (box_pk toy Demo.demo_seed)) (Ok v))
  /\ (exists er, gives sql_store env early 1 1 (ANewSeed (str "s") None true) (Err er))
  /\ (exists v, gives sql_store env early 1 3 (ANewSeed (str "s") None true) (Ok v)).
Proof.
  split; [|split]; eexists.
  - apply (gave_gives sql_store early 1 0 "a0"); [txt|]. vm_compute. reflexivity.
  - apply (gave_gives sql_store early 1 1 "a1"); [txt|]. vm_compute. reflexivity.
  - apply (gave_gives sql_store early 1 3 "a3"); [txt|]. vm_compute. reflexivity.
Qed.

(** A deep-locked seed signs for whoever knows its passphrase; it does not without. *)
Theorem C60_deep_sign :
  forall S (SO : StoreOk S) g, CryptoOk (g_crypto g) ->
  forall evs more, Forall typed (evs ++ more) -> ids_differ S g (evs ++ more) -> keeps S SO (evs ++ more) ->
  forall cid k t p x si cid' k' data,
    gives S g evs cid k (ANewSeed t (Some p) x) (Ok (VSeed si)) ->
    unlocked S g evs cid' -> not_made S g evs cid' k' ->
    (forall r, well S g (evs ++ more) cid' k' (ASign (si_ed si) (Some p) data) r ->
       exists sig, r = Ok (VBytes sig) /\ sign_verify (g_crypto g) (si_ed si) sig data = true)
    /\ (forall r, well S g (evs ++ more) cid' k' (ASign (si_ed si) None data) r -> exists er, r = Err er).
Proof.
  intros S SO g HC evs more Ht Hd Hk cid k t p x si cid' k' data Hg Hu Hn.
  assert (Ht0 : Forall typed evs) by (by apply Forall_app in Ht as [? _]).
  pose proof (ids_app S SO g HC _ _ Ht Hd) as Hd0. pose proof (keeps_app S SO _ _ Hk) as Hk0.
  destruct (ok_served S SO g HC evs cid k _ _ Ht0 Hd0 Hg) as (pre1 & c1 & tid1 & rq1 & d1 & m1 & Hsv & Her & Hv).
  destruct (served_right S SO g HC _ _ _ _ _ _ _ _ _ _ Hsv Her) as (L1 & w1 & M1 & [_ R1]).
  cbn [request_of] in R1. destruct m1; try done. cbn [value_of] in Hv. injection Hv as ->.
  destruct R1 as (_ & _ & _ & e & seed & Hin & (pw & salt & sec & E & -> & Hls)).
  cbn [option_map dlp_of dl_pass] in E. rewrite (hide_opens g HC) in E. injection E as <-.
  set (e := EDeep _ _ _ _ _ _) in *.
  assert (He : stored S g (server_evs S g evs) e).
  { eapply (served_stored S SO g HC); try done. by apply (me_now _ _ _ _ _ _ _ _ M1). }
  assert (Hed : ed_of e = Some (si_ed si)) by done.
  split; intros r Hw.
  - destruct (later_call S SO g HC evs more cid' k' _ r Ht Hd Hk Hu Hn Hw)
      as (pre & c & tid & rq & d & m & [B1 B2 B3 B4 B5 B6 B7] & Hq & Hcu & Hheld & Ho).
    cbn [request_of option_map] in B4.
    destruct (PropertiesServer3.C20_deep_sign_succeeds S SO g HC pre cid' c tid rq m _ _ _ _ e
      (blake2b (g_crypto g) 64 p) seed B2 B3 B4 B6 Hcu Hq (Hheld e He) Hed Hls (hide_opens g HC _ _ _)) as [-> Hver].
    unfold outcome_is in Ho. rewrite B4 in Ho. cbn in Ho. injection Ho as <-. eexists. done.
  - destruct (later_call S SO g HC evs more cid' k' _ r Ht Hd Hk Hu Hn Hw)
      as (pre & c & tid & rq & d & m & [B1 B2 B3 B4 B5 B6 B7] & Hq & Hcu & Hheld & Ho).
    cbn [request_of option_map] in B4.
    pose proof (PropertiesServer3.C20_no_passphrase S SO g HC pre cid' c tid rq m _ _ _ e
      B2 B3 B4 B6 Hq (Hheld e He) Hed eq_refl) as Hx.
    destruct m; try done. unfold outcome_is in Ho. by eexists.
Qed.
Print Assumptions C60_deep_sign.

Example C60_deep_sign_ex :
  gives sql_store env first 1 3 (ANewSeed (str "d") (Some (str "deep")) false) (Ok (VSeed infoD))
  /\ not_made sql_store env first 2 4 /\ not_made sql_store env first 2 5
  /\ (exists sig, well sql_store env (first ++ second) 2 4 (ASign (si_ed infoD) (Some (str "deep")) (str "data"))
                    (Ok (VBytes sig)))
  /\ (exists er, well sql_store env (first ++ second) 2 5 (ASign (si_ed infoD) None (str "data")) (Err er)).
Proof.
  split; [apply (gave_gives sql_store first 1 3 "a3"); [txt|]; vm_compute; reflexivity|].
  split; [by apply not_made2|]. split; [by apply not_made2|].
  split; eexists.
  - apply (gave_well "b4"); [txt|]. vm_compute. reflexivity.
  - apply (gave_well "b5"); [txt|]. vm_compute. reflexivity.
Qed.

(** ** C61: a connection is usable only with the server that was meant *)

(** Making a connection ready ends with success only if the server has the key, the version (if
    it matters) and the passphrase that were expected; and from then on the connection is unlocked. *)
Theorem C61_usable :
  forall S (SO : StoreOk S) g, CryptoOk (g_crypto g) ->
  forall evs, Forall typed evs -> ids_differ S g evs ->
  forall cid k1 k2 h v1 v2,
    gives S g evs cid k1 (AHello (h_key h)) v1 -> gives S g evs cid k2 (AUnlock (h_pass h)) v2 ->
    proceed h (proceed h ToHello v1) v2 = Usable ->
    g_id_pk g = h_key h /\ (forall w, h_exact h = Some w -> g_version g = w) /\ right_pass g (h_pass h)
    /\ unlocked S g evs cid.
Proof.
  intros S SO g HC evs Ht Hd cid k1 k2 h v1 v2 Hh Hu Hp.
  destruct v1 as [v1|]; [|done].
  destruct (ok_served S SO g HC evs cid k1 _ _ Ht Hd Hh) as (pre & c & tid & rq & d & m & Hs & Her & Hv).
  destruct (served_right S SO g HC _ _ _ _ _ _ _ _ _ _ Hs Her) as (L0 & w & M & [_ R]).
  cbn [request_of] in R. destruct m; try done. destruct R as (-> & -> & ->). cbn [value_of] in Hv.
  destruct (beq (g_id_pk g) (h_key h)) eqn:Eb; [|done]. apply beq_true in Eb. injection Hv as <-.
  assert (Hto : proceed h ToHello (Ok (VText (g_version g))) = ToUnlock /\ (forall w, h_exact h = Some w -> g_version g = w)).
  { cbn [proceed] in *. destruct (h_exact h) as [w0|]; [|done]. destruct (beq (g_version g) w0) eqn:Ew; [|done].
    apply beq_true in Ew. split; [done|]. by intros ? [= <-]. }
  destruct Hto as [Hto Hex]. rewrite Hto in Hp. destruct v2 as [v2|]; [|done].
  destruct (C60_unlock S SO g HC evs Ht Hd cid k2 (h_pass h)) as [Hright _].
  split; [done|]. split; [done|]. split; [by eapply Hright|].
  exists k2, (h_pass h). destruct (ok_served S SO g HC evs cid k2 _ _ Ht Hd Hu) as (pre2 & c2 & tid2 & rq2 & d2 & m2 & Hs2 & Her2 & Hv2).
  destruct (served_right S SO g HC _ _ _ _ _ _ _ _ _ _ Hs2 Her2) as (L2 & w2 & M2 & [_ R2]).
  cbn [request_of] in R2. destruct m2; try done. cbn [value_of] in Hv2. by injection Hv2 as <-.
Qed.
Print Assumptions C61_usable.

Example C61_usable_ex :
  exists v1 v2, gives sql_store env first 1 0 (AHello (box_pk toy Demo.demo_seed)) v1
    /\ gives sql_store env first 1 1 (AUnlock pass) v2
    /\ let h := How (box_pk toy Demo.demo_seed) pass (Some (str "0.0.0")) in
       proceed h (proceed h ToHello v1) v2 = Usable.
Proof.
  exists (Ok (VText (str "0.0.0"))), (Ok VUnit).
  split; [apply (gave_gives sql_store first 1 0 "a0"); [txt|]; vm_compute; reflexivity|].
  split; [apply (gave_gives sql_store first 1 1 "a1"); [txt|]; vm_compute; reflexivity|]. vm_compute. reflexivity.
Qed.

(** With all three right, and nothing failing, it does succeed. *)
Theorem C61_succeeds :
  forall S (SO : StoreOk S) g, CryptoOk (g_crypto g) ->
  forall evs, Forall typed evs -> ids_differ S g evs ->
  forall cid k1 k2 h v1 v2,
    well S g evs cid k1 (AHello (h_key h)) v1 -> well S g evs cid k2 (AUnlock (h_pass h)) v2 ->
    g_id_pk g = h_key h -> (forall w, h_exact h = Some w -> g_version g = w) -> right_pass g (h_pass h) ->
    proceed h (proceed h ToHello v1) v2 = Usable.
Proof.
  intros S SO g HC evs Ht Hd cid k1 k2 h v1 v2 Hh Hu Hkey Hver Hpass.
  destruct (C60_unlock S SO g HC evs Ht Hd cid k2 (h_pass h)) as [_ Hx]. rewrite (Hx v2 Hu Hpass).
  destruct (well_served S SO g HC _ _ _ _ _ Ht Hd Hh) as (pre & c & tid & rq & d & m & [H1 H2 H3 H4 H5 H6 H7] & Hq & Ho).
  cbn [request_of] in H4.
  destruct (answer_meaning S SO g HC pre cid c tid rq m H2 H3 H6) as (L0 & w & M).
  destruct (me_good _ _ _ _ _ _ _ _ M) as [[_ R]|(er & -> & R)]; rewrite H4 in R.
  - destruct m; try done. destruct R as (-> & -> & ->). unfold outcome_is in Ho. rewrite H4 in Ho. cbn in Ho.
    rewrite Hkey, beq_refl in Ho. injection Ho as <-. cbn [proceed].
    destruct (h_exact h) as [w0|]; [|done]. by rewrite (Hver w0 eq_refl), beq_refl.
  - exfalso. destruct R as [R|[[R _]|R]]; [|done|done].
    apply (me_fail _ _ _ _ _ _ _ _ M) in R. unfold undisturbed in Hq. congruence.
Qed.
Print Assumptions C61_succeeds.

Example C61_succeeds_ex :
  right_pass env pass /\ g_id_pk env = box_pk toy Demo.demo_seed /\ g_version env = str "0.0.0"
  /\ smooth sql_store env first 1 0 /\ smooth sql_store env first 1 1.
Proof.
  split; [apply C60_unlock_ex|]. split; [vm_compute; reflexivity|]. split; [vm_compute; reflexivity|].
  split; apply calm_smooth; vm_compute; reflexivity.
Qed.

(** The passphrase is never sent to a server with another key, or another version if
    that matters. *)
Theorem C61_passphrase_withheld :
  forall S (SO : StoreOk S) g, CryptoOk (g_crypto g) ->
  forall evs, Forall typed evs -> ids_differ S g evs ->
  forall cid k h v,
    gives S g evs cid k (AHello (h_key h)) v ->
    g_id_pk g <> h_key h \/ (exists w, h_exact h = Some w /\ g_version g <> w) ->
    next_ask h (proceed h ToHello v) = None.
Proof.
  intros S SO g HC evs Ht Hd cid k h v Hh Hw. destruct v as [v|]; [|done].
  destruct (ok_served S SO g HC evs cid k _ _ Ht Hd Hh) as (pre & c & tid & rq & d & m & Hs & Her & Hv).
  destruct (served_right S SO g HC _ _ _ _ _ _ _ _ _ _ Hs Her) as (L0 & w & M & [_ R]).
  cbn [request_of] in R. destruct m; try done. destruct R as (-> & -> & ->). cbn [value_of] in Hv.
  destruct (beq (g_id_pk g) (h_key h)) eqn:Eb; [|done]. apply beq_true in Eb. injection Hv as <-.
  destruct Hw as [Hw|(w0 & Ew & Hw)]; [done|]. cbn [proceed]. rewrite Ew.
  destruct (beq (g_version g) w0) eqn:E; [|done]. by apply beq_true in E.
Qed.
Print Assumptions C61_passphrase_withheld.

(** A client that expects another key. *)
Definition misled : list wevent :=
  [WConnect 1 Demo.demo_rx Demo.demo_tx] ++ call 1 0 "a0" (AHello kS) x00.
Example C61_withheld_ex :
  exists er, gives sql_store env misled 1 0 (AHello kS) (Err er) /\ g_id_pk env <> kS.
Proof.
  eexists. split; [apply (gave_gives sql_store misled 1 0 "a0"); [txt|]; vm_compute; reflexivity|].
  intros E. apply (f_equal (fun x => beq x kS)) in E. vm_compute in E. discriminate E.
Qed.
