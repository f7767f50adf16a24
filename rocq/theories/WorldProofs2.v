(** * WorldProofs2: the invariant of clients and server joined *)

From Verif Require Import Base Utf8 Crypto Types Codec CodecProofs CodecProofs2 Secret Store StoreProofs Lru
  Server System ServerSpec ServerVocab ServerProofs ServerProofs2 SystemProofs AnswerProofs ServerTheorems
  Client Asks EchoProofs World WorldVocab WorldProofs.
From Verif Require PropertiesClient PropertiesCodec.

Section Joined.
  Variable S : store_impl.
  Variable SO : StoreOk S.
  Variable g : genv.
  Hypothesis HC : CryptoOk (g_crypto g).

  Notation run := (System.run S g).
  Notation conn_at := (ServerVocab.conn_at S g).
  Notation msgs := (msgs S).
  Notation dels := (dels S).

  (** The requests written to a connection, in order. *)
  Definition asked_for (l : link) : list api :=
    omap (fun k => option_map c_req (k_calls (l_cli l) !! k)) (l_put l).

  (** An answer the server gave on a connection. *)
  Definition said (evs : list event) (cid : nat) (x : nat * api) : Prop :=
    exists pre c, pre `prefix_of` evs /\ conn_at pre cid c /\ ServerVocab.delivered S c x.1 x.2.

  Record linv (evs : list event) (cid : nat) (l : link) : Prop := {
    li_cli : l_cli l = crun new_client (l_evs l);
    li_calls : forall k c, k_calls (l_cli l) !! k = Some c -> api_ok (c_req c);
    li_put : forall k, k ∈ l_put l -> exists c, k_calls (l_cli l) !! k = Some c;
    li_nodup : NoDup (l_put l);
    li_wait : forall k c, k_calls (l_cli l) !! k = Some c -> c_st c = CWait -> k ∈ l_put l;
    li_keys : forall pre c, pre `prefix_of` evs -> conn_at pre cid c ->
      c_dec S c = l_enc l /\ c_enc S c = l_dec l;
    li_up : forall pre c, pre `prefix_of` evs -> conn_at pre cid c -> msgs c `prefix_of` asked_for l;
    li_up_now : forall c, conn_at evs cid c -> exists ups rest,
      asked_for l = msgs c ++ ups ++ rest /\ l_up l = map encode_api ups
      /\ (l_up_lost l = false -> rest = []);
    li_down : exists dl downs tail,
      Forall (said evs cid) dl /\ l_down l = map encode_api downs
      /\ PropertiesClient.received (l_evs l) `prefix_of` (snd <$> dl)
      /\ (k_recv (l_cli l) = RRun ->
            (snd <$> dl) = PropertiesClient.received (l_evs l) ++ downs ++ tail
            /\ (l_down_lost l = false -> tail = []))
      /\ NoDup (fst <$> dl)
      /\ (forall c, conn_at evs cid c -> dl = dels c);
    li_tidy : tidy (l_evs l)
  }.

  Lemma prefix_none (l : list api) : l `prefix_of` [] -> l = [].
  Proof. intros [k E]. by destruct l. Qed.

  Lemma said_mono evs ev cid x : said evs cid x -> said (evs ++ [ev]) cid x.
  Proof.
    intros (pre & c & Hp & H). exists pre, c. split; [|done].
    etransitivity; [exact Hp|]. by eexists.
  Qed.

  Lemma said_about evs cid l x : linv evs cid l -> said evs cid x ->
    exists pre c rq, pre `prefix_of` evs /\ conn_at pre cid c /\ ServerVocab.delivered S c x.1 x.2
      /\ ServerVocab.received S c x.1 rq
      /\ asked_for l !! x.1 = Some (rq_msg S rq) /\ msg_id x.2 = msg_id (rq_msg S rq)
      /\ is_request x.2 = false /\ System.fits x.2 = true.
  Proof.
    intros H (pre & c & Hp & Hc & Hd).
    destruct (sent_received S SO g HC pre cid c x.1 x.2 Hc) as [rq Hq]; [by exists true|].
    exists pre, c, rq. split; [done|]. split; [done|]. split; [done|]. split; [done|].
    destruct (li_up _ _ _ H pre c Hp Hc) as [k Ek].
    split.
    { rewrite Ek. rewrite lookup_app_l.
      - unfold msgs. rewrite list_lookup_fmap. unfold ServerVocab.received in Hq. by rewrite Hq.
      - unfold msgs. rewrite map_length. by eapply lookup_lt_Some. }
    split.
    { destruct (answer_meaning S SO g HC pre cid c x.1 rq x.2 Hc Hq) as (L0 & w & M); [by exists true|].
      destruct (me_good _ _ _ _ _ _ _ _ M) as [Hr|(er & -> & _)]; [|done].
      by destruct (right_kind g _ _ _ _ _ _ Hr) as (? & _). }
    split; [by eapply (log_answer S SO g HC pre cid c x.1); [|exists true]|by eapply (log_fits S g pre cid c x.1)].
  Qed.

  (** *** Steps of the client *)

  Lemma asked_step l e : l_cli l = crun new_client (l_evs l)
      /\ (forall k, k ∈ l_put l -> exists c, k_calls (l_cli l) !! k = Some c) ->
    asked_for (cli_step l e) = asked_for l.
  Proof.
    intros [Hcli Hput]. unfold asked_for. cbn [cli_step l_cli l_put]. revert Hput. generalize (l_put l) as ks.
    induction ks as [|k ks IH]; intros Hput; [done|]. cbn [omap list_omap].
    destruct (Hput k) as [c Hc]; [by left|].
    destruct (PropertiesClient.change_step (l_cli l) e) with (j := k) (c := c) as (c' & Hc' & Er & _); [|done|].
    { rewrite Hcli. apply PropertiesClient.pinv_run. }
    rewrite Hc, Hc'. cbn [option_map]. rewrite Er. f_equal. apply IH. intros k' Hk'. apply Hput. by right.
  Qed.

  Lemma wait_step w e k c' : PropertiesClient.pinv w -> k_calls (cstep w e) !! k = Some c' -> c_st c' = CWait ->
    (exists c, k_calls w !! k = Some c /\ c_st c = CWait) \/ e = Sent k true.
  Proof.
    intros I H Hw.
    assert (Hid : k_calls w !! k = Some c' -> (exists c, k_calls w !! k = Some c /\ c_st c = CWait) \/ e = Sent k true).
    { intros E. left. by exists c'. }
    assert (Hlost : forall o, lost_mail <$> o = Some c' -> exists c, o = Some c /\ c_st c = CWait).
    { intros [c|] E; [|done]. injection E as <-. exists c. split; [done|]. by rewrite PropertiesClient.lost_st in Hw. }
    assert (Hfin : forall j o c0, k_calls w !! j = Some c0 -> k_calls (finish w j o) !! k = Some c' ->
      (exists c, k_calls w !! k = Some c /\ c_st c = CWait) \/ e = Sent k true).
    { intros j o c0 Hj Hf. rewrite (PropertiesClient.finish_calls _ _ _ _ _ I Hj) in Hf.
      destruct (decide (k = j)) as [->|].
      - injection Hf as <-. destruct (decide _); rewrite ?PropertiesClient.lost_st in Hw; done.
      - destruct (decide _); [left; by apply Hlost|auto]. }
    assert (Hset : forall j c0 c1, k_calls w !! j = Some c0 -> (c_st c1 = CWait -> e = Sent j true) ->
      k_calls (set_call w j c1) !! k = Some c' ->
      (exists c, k_calls w !! k = Some c /\ c_st c = CWait) \/ e = Sent k true).
    { intros j c0 c1 Hj H1 Hs. rewrite (PropertiesClient.set_calls _ _ _ _ _ Hj) in Hs.
      destruct (decide (k = j)) as [->|]; [|auto]. injection Hs as ->. right. auto. }
    destruct e as [r|j|j ok|x|j|j|j| | | | |]; cbn [cstep] in H.
    - unfold register in H. cbn [set_pending k_calls] in H. rewrite PropertiesClient.unregister_calls in H.
      cbn [k_pending k_calls] in H.
      assert (forall c, (k_calls w ++ [Call r CSend MEmpty]) !! k = Some c -> c_st c = CWait -> k_calls w !! k = Some c) as Hx.
      { intros c Hc Hs. apply lookup_app_Some in Hc as [Hc|[_ Hc]]; [done|].
        apply list_lookup_singleton_Some in Hc as [_ <-]. done. }
      left. destruct (decide _).
      + destruct (Hlost _ H) as (c & Hc & Hs). exists c. split; [by apply Hx|done].
      + exists c'. split; [by apply Hx|done].
    - destruct (k_calls w !! j) as [[r [] ml]|] eqn:E; try (by auto). destruct (k_closed w); [by eapply Hfin|].
      eapply Hset; [exact E| |exact H]. done.
    - destruct (k_calls w !! j) as [[r [] ml]|] eqn:E; try (by auto). destruct ok; [|by eapply Hfin].
      eapply Hset; [exact E| |exact H]. done.
    - destruct (k_recv w); try (by auto). destruct (k_pending w !! msg_id x) as [j|]; [|by auto].
      destruct (k_calls w !! j) as [[r st []]|] eqn:E; try (by auto). cbn [set_call set_pending k_calls] in H.
      destruct (decide (j = k)) as [->|].
      + rewrite list_lookup_insert in H by (by eapply lookup_lt_Some). injection H as <-.
        left. eexists. split; [exact E|]. exact Hw.
      + rewrite list_lookup_insert_ne in H by done. auto.
    - destruct (k_calls w !! j) as [[r [] []]|] eqn:E; try (by auto); by eapply Hfin.
    - destruct (k_calls w !! j) as [[r [] []]|] eqn:E; try (by auto); by eapply Hfin.
    - destruct (k_calls w !! j) as [[r [] ml]|] eqn:E; try (by auto); by eapply Hfin.
    - destruct (k_recv w); auto.
    - destruct (k_recv w); auto.
    - destruct (k_recv w); try (by auto). unfold clear in H. cbn [set_recv k_calls k_pending] in H.
      rewrite list_lookup_imap in H. destruct (k_calls w !! k) as [c1|] eqn:E; [|done]. cbn in H.
      left. exists c1. split; [done|]. destruct (bool_decide _); injection H as <-; [by rewrite PropertiesClient.lost_st in Hw|done].
    - auto.
    - destruct (k_recv w); auto.
  Qed.

  (** What a step of the client keeps, whatever it is; [down] is what is left in the queue. *)
  Definition with_down (l : link) (down : list bytes) : link :=
    Link (l_cli l) (l_enc l) (l_dec l) (l_up l) down (l_up_lost l) (l_down_lost l) (l_put l) (l_evs l).

  Lemma linv_client evs cid l down e : linv evs cid l ->
    (forall r, e = NewCall r -> api_ok r) -> (forall k, e = Sent k true -> k ∈ l_put l) ->
    (forall m, e = Incoming m -> exists r, r ∈ PropertiesClient.requests (l_evs l) /\ msg_id m = msg_id r) ->
    (exists dl downs tail,
      Forall (said evs cid) dl /\ down = map encode_api downs
      /\ PropertiesClient.received (l_evs l ++ [e]) `prefix_of` (snd <$> dl)
      /\ (k_recv (cstep (l_cli l) e) = RRun ->
            (snd <$> dl) = PropertiesClient.received (l_evs l ++ [e]) ++ downs ++ tail
            /\ (l_down_lost l = false -> tail = []))
      /\ NoDup (fst <$> dl)
      /\ (forall c, conn_at evs cid c -> dl = dels c)) ->
    linv evs cid (cli_step (with_down l down) e).
  Proof.
    intros H H1 H2 H3 H4.
    assert (I : PropertiesClient.pinv (l_cli l)) by (rewrite (li_cli _ _ _ H); apply PropertiesClient.pinv_run).
    assert (Ea : asked_for (cli_step (with_down l down) e) = asked_for l).
    { rewrite asked_step; [done|]. split; apply H. }
    split; cbn [cli_step with_down l_cli l_evs l_put l_enc l_dec l_up l_down l_up_lost l_down_lost].
    - rewrite (li_cli _ _ _ H). by rewrite PropertiesClient.crun_snoc.
    - intros k c Hc. destruct (PropertiesClient.step_inv _ _ I _ _ Hc) as [(c0 & Hc0 & Er & _)|(r & -> & _ & ->)].
      + rewrite Er. by eapply (li_calls _ _ _ H).
      + by apply H1.
    - intros k Hk. destruct (li_put _ _ _ H k Hk) as [c Hc].
      destruct (PropertiesClient.change_step _ e I k c Hc) as (c' & Hc' & _). by exists c'.
    - apply H.
    - intros k c Hc Hs. destruct (wait_step _ _ _ _ I Hc Hs) as [(c0 & Hc0 & Hs0)|E]; [|by apply H2].
      by eapply (li_wait _ _ _ H).
    - apply H.
    - rewrite Ea. apply H.
    - rewrite Ea. apply H.
    - done.
    - apply tidy_snoc; [apply H|done].
  Qed.

  Lemma linv_own evs cid l e : linv evs cid l ->
    (forall r, e = NewCall r -> api_ok r) -> (forall k, e = Sent k true -> k ∈ l_put l) ->
    (forall m, e <> Incoming m) -> linv evs cid (cli_step l e).
  Proof.
    intros H H1 H2 H3. destruct l as [cl en de up down ul dwl put ce].
    apply (linv_client evs cid _ down e H); try done; [by intros m E; destruct (H3 m)|].
    set (l := Link cl en de up down ul dwl put ce) in *. change down with (l_down l).
    destruct (li_down _ _ _ H) as (dl & downs & tail & D1 & D2 & D3 & D4 & D5 & D6).
    assert (Er : PropertiesClient.received (l_evs l ++ [e]) = PropertiesClient.received (l_evs l)).
    { rewrite PropertiesClient.received_app. destruct e; cbn; rewrite ?app_nil_r; try done. by destruct (H3 m). }
    exists dl, downs, tail. rewrite Er. split; [done|]. split; [done|]. split; [done|].
    split; [|done]. intros Hr. apply D4. by eapply PropertiesClient.recv_run.
  Qed.

  Lemma asked_request evs cid l r : linv evs cid l -> r ∈ asked_for l ->
    r ∈ PropertiesClient.requests (l_evs l) /\ api_ok r.
  Proof.
    intros H Hr. unfold asked_for in Hr. apply elem_of_list_omap in Hr as (k & Hk & E).
    destruct (k_calls (l_cli l) !! k) as [c|] eqn:Ec; [|done]. injection E as <-.
    split; [|by eapply (li_calls _ _ _ H)]. rewrite (li_cli _ _ _ H) in Ec. apply call_request in Ec.
    by eapply elem_of_list_lookup_2.
  Qed.

  (** The client takes a message. *)
  Lemma linv_take evs cid cl en de up raw down ul dl put ce :
    linv evs cid (Link cl en de up (raw :: down) ul dl put ce) -> k_recv cl = RRun ->
    linv evs cid (cli_step (Link cl en de up down ul dl put ce)
      (match decode_api raw with Ok m => Incoming m | Err _ => RecvEnd end)).
  Proof.
    intros H Hr. destruct (li_down _ _ _ H) as (ds & downs & tail & D1 & D2 & D3 & D4 & D5 & D6).
    cbn [l_down l_evs l_cli l_down_lost] in *. destruct (D4 Hr) as [D7 D8].
    destruct downs as [|d downs]; [done|]. cbn [map] in D2. injection D2 as -> D2.
    assert (Hd : exists t, (t, d) ∈ ds).
    { assert (Hin : d ∈ (snd <$> ds)).
      { rewrite D7. apply elem_of_app. right. apply elem_of_app. left. by left. }
      apply elem_of_list_fmap in Hin as ([t d'] & -> & Hin). by exists t. }
    destruct Hd as [t Hd].
    assert (Hsaid : said evs cid (t, d)) by (rewrite Forall_forall in D1; by apply D1).
    destruct (said_about _ _ _ _ H Hsaid) as (pre & c & rq & _ & _ & _ & _ & Hask & Hid & Hres & Hfit).
    cbn [fst snd] in *.
    apply (linv_client evs cid _ down _ H).
    - by destruct (decode_api _).
    - by destruct (decode_api _).
    - intros m. destruct (decode_api _) as [b|] eqn:E; [|done]. intros [= <-].
      apply (echo d b Hres Hfit) in E as ->. exists (rq_msg S rq). split; [|done].
      eapply asked_request; [exact H|]. by eapply elem_of_list_lookup_2.
    - destruct (decode_api _) as [b|] eqn:E.
      + apply (echo d b Hres Hfit) in E as ->. exists ds, downs, tail. cbn [l_evs l_cli l_down_lost].
        rewrite PropertiesClient.received_app. cbn [PropertiesClient.received omap list_omap].
        split; [done|]. split; [done|]. split; [|split; [|done]].
        * rewrite D7. exists (downs ++ tail). by rewrite <- app_assoc.
        * intros _. split; [|done]. rewrite D7. by rewrite <- !app_assoc.
      + exists ds, downs, tail. cbn [l_evs l_cli l_down_lost].
        rewrite PropertiesClient.received_app. cbn [PropertiesClient.received omap list_omap]. rewrite app_nil_r.
        split; [done|]. split; [done|]. split; [done|]. split; [|done]. cbn [cstep]. rewrite Hr. done.
  Qed.

  (** A request is written. *)
  Lemma linv_write evs cid l k req : linv evs cid l -> may_put l k = Some req ->
    linv evs cid (Link (l_cli l) (l_enc l) (l_dec l)
      (if l_up_lost l then l_up l else l_up l ++ [encode_api req]) (l_down l)
      (l_up_lost l) (l_down_lost l) (l_put l ++ [k]) (l_evs l)).
  Proof.
    intros H Hm. unfold may_put in Hm. destruct (k_calls (l_cli l) !! k) as [[r st ml]|] eqn:Ek; [|done].
    destruct st; try done. destruct (_ && _) eqn:E; [|done]. injection Hm as ->.
    apply andb_prop in E as [_ E]. apply negb_true_iff, bool_decide_eq_false in E.
    assert (Ea : omap (fun k => option_map c_req (k_calls (l_cli l) !! k)) (l_put l ++ [k]) = asked_for l ++ [req]).
    { rewrite omap_app. cbn [omap list_omap]. by rewrite Ek. }
    split; unfold asked_for; cbn [l_cli l_evs l_put l_enc l_dec l_up l_down l_up_lost l_down_lost]; try apply H.
    - intros j Hj. apply elem_of_app in Hj as [Hj|Hj]; [by apply (li_put _ _ _ H)|].
      apply elem_of_list_singleton in Hj as ->. by eexists.
    - apply NoDup_app. split; [apply H|]. split; [|apply NoDup_singleton].
      intros x Hx Hin. apply elem_of_list_singleton in Hin as ->. done.
    - intros j c Hc Hs. apply elem_of_app. left. by eapply (li_wait _ _ _ H).
    - intros pre c Hp Hc. rewrite Ea. etransitivity; [by eapply (li_up _ _ _ H)|]. by eexists.
    - intros c Hc. rewrite Ea. destruct (li_up_now _ _ _ H c Hc) as (ups & rest & U1 & U2 & U3).
      destruct (l_up_lost l) eqn:El.
      + exists ups, (rest ++ [req]). rewrite U1. split; [by rewrite <- !app_assoc|]. done.
      + rewrite (U3 eq_refl), app_nil_r in U1. exists (ups ++ [req]), []. rewrite U1, U2.
        split; [by rewrite app_nil_r, <- app_assoc|]. split; [|done]. by rewrite map_app.
  Qed.

  (** What is under way is lost. *)
  Lemma linv_lose evs cid l up : linv evs cid l ->
    linv evs cid
      (if up : bool
       then Link (l_cli l) (l_enc l) (l_dec l) [] (l_down l) true (l_down_lost l) (l_put l) (l_evs l)
       else Link (l_cli l) (l_enc l) (l_dec l) (l_up l) [] (l_up_lost l) true (l_put l) (l_evs l)).
  Proof.
    intros H. destruct up.
    - split; unfold asked_for; cbn [l_cli l_evs l_put l_enc l_dec l_up l_down l_up_lost l_down_lost]; try apply H.
      intros c Hc. destruct (li_up_now _ _ _ H c Hc) as (ups & rest & U1 & U2 & U3).
      exists [], (ups ++ rest). split; [done|]. done.
    - split; unfold asked_for; cbn [l_cli l_evs l_put l_enc l_dec l_up l_down l_up_lost l_down_lost]; try apply H.
      destruct (li_down _ _ _ H) as (dl & downs & tail & D1 & D2 & D3 & D4 & D5 & D6).
      exists dl, [], (downs ++ tail). split; [done|]. split; [done|]. split; [done|]. split; [|done].
      intros Hr. split; [|done]. by destruct (D4 Hr) as [-> _].
  Qed.

  (** *** Steps of the server *)

  Lemma dels_news c c' l : c_log S c' = c_log S c ++ l ->
    exists extra, dels c' = dels c ++ extra /\ news S c c' = map encode_api (snd <$> extra).
  Proof.
    intros E. exists (omap (fun x => match x with (t, m, true) => Some (t, m) | _ => None end) l).
    unfold WorldProofs.dels, news. rewrite E, omap_app. split; [done|].
    rewrite drop_app. clear E. induction l as [|[[t m] []] l IH]; [done| |]; cbn; [by rewrite IH|done].
  Qed.

  Definition moved (l : link) (up down : list bytes) : link :=
    Link (l_cli l) (l_enc l) (l_dec l) up down (l_up_lost l) (l_down_lost l) (l_put l) (l_evs l).

  Lemma linv_server evs ev cid l up down : linv evs cid l ->
    (forall rx tx, ev <> EvConnect cid rx tx) ->
    ((up = l_up l /\ forall c raw, conn_at evs cid c -> takes S c = true -> ev <> EvReceive cid raw)
     \/ exists raw c, conn_at evs cid c /\ takes S c = true /\ ev = EvReceive cid raw /\ l_up l = raw :: up) ->
    (forall c c', conn_at evs cid c -> conn_at (evs ++ [ev]) cid c' ->
      down = if l_down_lost l then l_down l else l_down l ++ news S c c') ->
    ((forall c', ~ conn_at (evs ++ [ev]) cid c') -> down = l_down l) ->
    linv (evs ++ [ev]) cid (moved l up down).
  Proof.
    intros H Hnc Hup Hdown Hnone.
    assert (Hold : forall c', conn_at (evs ++ [ev]) cid c' -> exists c, conn_at evs cid c /\ grown S ev cid c c').
    { intros c' Hc'. apply conn_grows in Hc' as [Hc'|(_ & rx & tx & E & _)]; [done|]. by destruct (Hnc rx tx). }
    assert (Hnow : forall c', conn_at (evs ++ [ev]) cid c' ->
      exists ups rest, asked_for l = msgs c' ++ ups ++ rest /\ up = map encode_api ups
        /\ (l_up_lost l = false -> rest = [])).
    { intros c' Hc'. destruct (Hold c' Hc') as (c & Hc & _ & _ & G).
      destruct (li_up_now _ _ _ H c Hc) as (ups & rest & U1 & U2 & U3).
      destruct Hup as [[-> Hn]|(raw & c0 & Hc0 & Ht & -> & E)].
      - exists ups, rest. split; [|done].
        destruct G as [(raw & a & E & Et & _)|[(-> & _)|(-> & _)]]; [|done|done]. by destruct (Hn c raw Hc Et).
      - assert (c0 = c) as -> by (unfold ServerVocab.conn_at in *; congruence).
        rewrite E in U2. destruct ups as [|a ups]; [done|]. cbn [map] in U2. injection U2 as -> ->.
        assert (Ha : decode_api (encode_api a) = Ok a).
        { apply PropertiesCodec.C39_message_round_trip. eapply (asked_request evs cid l); [done|]. rewrite U1.
          apply elem_of_app. right. by left. }
        exists ups, rest. split; [|done].
        destruct G as [(raw & b & [= <-] & _ & Hb & -> & _)|[(_ & _ & Hx)|(_ & tid & o & m & b & E2 & _)]]; [| |done].
        + rewrite Ha in Hb. injection Hb as <-. rewrite U1. by rewrite <- app_assoc.
        + by destruct (Hx (encode_api a) a). }
    split; unfold asked_for; cbn [moved l_cli l_evs l_put l_enc l_dec l_up l_down l_up_lost l_down_lost];
      fold (asked_for l); try apply H.
    - intros pre c' Hp Hc'. apply prefix_snoc in Hp as [Hp| ->]; [by eapply (li_keys _ _ _ H)|].
      destruct (Hold c' Hc') as (c & Hc & -> & -> & _). by eapply (li_keys _ _ _ H evs c).
    - intros pre c' Hp Hc'. apply prefix_snoc in Hp as [Hp| ->]; [by eapply (li_up _ _ _ H)|].
      destruct (Hnow c' Hc') as (ups & rest & -> & _). by eexists.
    - exact Hnow.
    - destruct (li_down _ _ _ H) as (dl & downs & tail & D1 & D2 & D3 & D4 & D5 & D6).
      destruct (s_conns S (run (evs ++ [ev])) !! cid) as [c'|] eqn:Ec'.
      + destruct (Hold c' Ec') as (c & Hc & _ & _ & G). specialize (Hdown c c' Hc Ec').
        assert (Hl : exists l, c_log S c' = c_log S c ++ l).
        { destruct G as [(_ & _ & _ & _ & _ & _ & ->)|[(_ & -> & _)|(_ & tid & o & m & b & _ & -> & _)]];
            [exists []; by rewrite app_nil_r|exists []; by rewrite app_nil_r|by eexists]. }
        destruct Hl as [lg Hl]. destruct (dels_news c c' lg Hl) as (extra & E1 & E2).
        pose proof (D6 c Hc) as Edl. subst dl.
        exists (dels c'), (if l_down_lost l then downs else downs ++ (snd <$> extra)),
          (if l_down_lost l then tail ++ (snd <$> extra) else []).
        split.
        { rewrite Forall_forall. intros [t m] Hin. exists (evs ++ [ev]), c'. split; [done|]. split; [done|].
          by apply in_dels. }
        split; [rewrite Hdown; destruct (l_down_lost l); [done|]; by rewrite D2, E2, map_app|].
        split; [rewrite E1, fmap_app; etransitivity; [exact D3|]; by eexists|].
        split.
        { intros Hr. destruct (D4 Hr) as [D7 D8]. rewrite E1, fmap_app, D7.
          destruct (l_down_lost l).
          - split; [|done]. by rewrite <- !app_assoc.
          - rewrite (D8 eq_refl), !app_nil_r. split; [|done]. by rewrite <- !app_assoc. }
        split; [by eapply (dels_nodup S SO g HC (evs ++ [ev]) cid c')|].
        intros c2 Hc2. unfold ServerVocab.conn_at in Hc2. by assert (c2 = c') as -> by congruence.
      + assert (Hno : forall c', ~ conn_at (evs ++ [ev]) cid c').
        { intros c' Hc'. unfold ServerVocab.conn_at in Hc'. congruence. }
        rewrite (Hnone Hno). exists dl, downs, tail.
        split; [eapply Forall_impl; [exact D1|]; intros x; apply said_mono|].
        split; [done|]. split; [done|]. split; [done|]. split; [done|].
        intros c' Hc'. by destruct (Hno c').
  Qed.

  Lemma moved_id l : moved l (l_up l) (l_down l) = l.
  Proof. by destruct l. Qed.

  (** A step of the server that has nothing to do with the connection. *)
  Lemma linv_quiet evs ev cid l : linv evs cid l ->
    (forall rx tx, ev <> EvConnect cid rx tx) -> (forall raw, ev <> EvReceive cid raw) ->
    (forall tid o, ev <> EvStep cid tid o) -> linv (evs ++ [ev]) cid l.
  Proof.
    intros H H1 H2 H3. rewrite <- (moved_id l). apply linv_server; try done.
    - left. split; [done|]. intros c raw _ _. apply H2.
    - intros c c' Hc Hc'. apply conn_grows in Hc' as [(c0 & Hc0 & _ & _ & G)|(E & _)].
      2:{ unfold ServerVocab.conn_at in Hc. congruence. }
      assert (c0 = c) as -> by (unfold ServerVocab.conn_at in *; congruence).
      assert (E : c_log S c' = c_log S c).
      { destruct G as [(raw & a & E & _)|[(_ & E & _)|(_ & tid & o & m & b & E & _)]]; [|done|].
        - by destruct (H2 raw).
        - by destruct (H3 tid o). }
      unfold news. rewrite E, drop_all. cbn. rewrite app_nil_r. by destruct (l_down_lost l).
  Qed.

  (** ** All together *)

  Record winv (w : joined S) : Prop := {
    wi_srv : w_srv w = run (w_evs w);
    wi_link : forall cid l, w_links w !! cid = Some l -> linv (w_evs w) cid l;
    wi_conn : forall pre cid c, pre `prefix_of` w_evs w -> conn_at pre cid c -> is_Some (w_links w !! cid)
  }.

  Lemma winv_link w cid l0 l : winv w -> w_links w !! cid = Some l0 -> linv (w_evs w) cid l ->
    winv (set_link S w cid l).
  Proof.
    intros [H1 H2 H3] H0 Hl. split; cbn [set_link w_srv w_links w_evs]; [done| |].
    - intros cid' l' Hl'. apply lookup_insert_Some in Hl' as [[<- <-]|[_ Hl']]; [done|by apply H2].
    - intros pre cid' c Hp Hc. destruct (decide (cid' = cid)) as [->|Hne]; [rewrite lookup_insert; by eexists|].
      rewrite lookup_insert_ne by done. by eapply H3.
  Qed.

  (** A step of the server: the links as they are after it. *)
  Lemma winv_server w ev (links : gmap nat link) : winv w ->
    (forall cid, is_Some (w_links w !! cid) -> is_Some (links !! cid)) ->
    (forall cid c', conn_at (w_evs w ++ [ev]) cid c' -> is_Some (links !! cid)) ->
    (forall cid l, links !! cid = Some l -> linv (w_evs w ++ [ev]) cid l) ->
    winv (Joined (step S g (w_srv w) ev) links (w_evs w ++ [ev])).
  Proof.
    intros [H1 H2 H3] Hl Hn Hi. split; cbn [w_srv w_links w_evs].
    - rewrite H1. symmetry. apply run_snoc.
    - done.
    - intros pre cid c Hp Hc. apply prefix_snoc in Hp as [Hp| ->]; [|by eapply Hn]. apply Hl. by eapply H3.
  Qed.

  Lemma winv_step w e : typed e -> winv w -> winv (wstep S g w e).
  Proof.
    intros Ht H. destruct e as [cid rx tx|cid d a|cid e|cid k|cid|ev|cid|cid up]; cbn [wstep].
    - destruct (w_links w !! cid) as [l|] eqn:El; [done|]. destruct (_ && _); [|done].
      unfold set_link, srv_step. cbn [w_srv w_links w_evs].
      assert (Hno : forall pre c, pre `prefix_of` w_evs w -> ~ conn_at pre cid c).
      { intros pre c Hp Hc. destruct (wi_conn _ H pre cid c Hp Hc) as [l E]. congruence. }
      apply winv_server; [done| | |].
      + intros cid' [l' E]. destruct (decide (cid' = cid)) as [->|Hne]; [rewrite lookup_insert; by eexists|].
        rewrite lookup_insert_ne by done. by eexists.
      + intros cid' c' Hc'. destruct (decide (cid' = cid)) as [->|Hne]; [rewrite lookup_insert; by eexists|].
        rewrite lookup_insert_ne by done. apply conn_grows in Hc' as [(c & Hc & _)|(_ & rx' & tx' & [= <- _ _] & _)]; [|done].
        by eapply (wi_conn _ H).
      + intros cid' l' Hl'. apply lookup_insert_Some in Hl' as [[<- <-]|[Hne Hl']].
        2:{ apply linv_quiet; [by apply (wi_link _ H)| |done|done]. by intros ? ? [= <- _ _]. }
        assert (Hnew : forall pre c, pre `prefix_of` (w_evs w ++ [EvConnect cid rx tx]) -> conn_at pre cid c ->
          c = connect S g rx tx).
        { intros pre c Hp Hc. apply prefix_snoc in Hp as [Hp| ->]; [by destruct (Hno pre c)|].
          apply conn_grows in Hc as [(c0 & Hc0 & _)|(_ & rx' & tx' & [= <- <-] & ->)]; [|done].
          by destruct (Hno (w_evs w) c0). }
        split; cbn; try done.
        * intros k Hk. by apply elem_of_nil in Hk.
        * constructor.
        * intros pre c Hp Hc. by rewrite (Hnew pre c Hp Hc).
        * intros pre c Hp Hc. by rewrite (Hnew pre c Hp Hc).
        * intros c Hc. rewrite (Hnew _ c (reflexivity _) Hc). exists [], []. done.
        * exists [], [], []. split; [done|]. split; [done|]. split; [done|]. split; [done|]. split; [constructor|].
          intros c Hc. by rewrite (Hnew _ c (reflexivity _) Hc).
        * intros before m Hp Hm. apply prefix_nil_inv in Hp as ->. by apply elem_of_nil in Hm.
    - destruct (w_links w !! cid) as [l|] eqn:El; [|done]. eapply winv_link; [done|done|].
      apply linv_own; [by apply (wi_link _ H)| |done|done].
      intros r [= <-]. destruct Ht. by apply request_ok.
    - destruct (w_links w !! cid) as [l|] eqn:El; [|done]. destruct (own l e) eqn:Eo; [|done].
      eapply winv_link; [done|done|]. apply linv_own; [by apply (wi_link _ H)| | |].
      + by intros r ->.
      + intros k ->. cbn in Eo. by apply bool_decide_eq_true in Eo.
      + by intros m ->.
    - destruct (w_links w !! cid) as [l|] eqn:El; [|done]. destruct (may_put l k) as [req|] eqn:Em; [|done].
      eapply winv_link; [done|done|]. apply linv_write; [by apply (wi_link _ H)|done].
    - destruct (w_links w !! cid) as [[cl en de [|raw up] down ul dl put ce]|] eqn:El; [done| |done].
      destruct (s_conns S (w_srv w) !! cid) as [c|] eqn:Ec; [|done]. destruct (takes S c) eqn:Et; [|done].
      rewrite (wi_srv _ H) in Ec. unfold set_link, srv_step. cbn [w_srv w_links w_evs].
      apply winv_server; [done| | |].
      + intros cid' [l' E]. destruct (decide (cid' = cid)) as [->|Hne]; [rewrite lookup_insert; by eexists|].
        rewrite lookup_insert_ne by done. by eexists.
      + intros cid' c' Hc'. destruct (decide (cid' = cid)) as [->|Hne]; [rewrite lookup_insert; by eexists|].
        rewrite lookup_insert_ne by done. apply conn_grows in Hc' as [(c0 & Hc0 & _)|(_ & rx' & tx' & E & _)]; [|done].
        by eapply (wi_conn _ H).
      + intros cid' l' Hl'. apply lookup_insert_Some in Hl' as [[<- <-]|[Hne Hl']].
        2:{ apply linv_quiet; [by apply (wi_link _ H)|done| |done]. by intros ? [= <- _]. }
        pose proof (wi_link _ H cid _ El) as HL.
        apply (linv_server _ (EvReceive cid raw) cid _ up down HL); [done| | |].
        * right. exists raw, c. done.
        * intros c1 c' Hc1 Hc'. cbn [l_down l_down_lost].
          apply conn_grows in Hc' as [(c0 & Hc0 & _ & _ & G)|(_ & rx' & tx' & E & _)]; [|done].
          assert (c0 = c1) as -> by (unfold ServerVocab.conn_at in *; congruence).
          assert (E : c_log S c' = c_log S c1).
          { destruct G as [(raw' & a & _ & _ & _ & _ & E)|[(_ & E & _)|(_ & tid & o & m & b & E & _)]]; done. }
          unfold news. rewrite E, drop_all. cbn. rewrite app_nil_r. by destruct dl.
        * done.
    - assert (Hq : forall ev', (forall a b c, ev' <> EvConnect a b c) -> (forall a b, ev' <> EvReceive a b) ->
        (forall cid, is_Some (w_links w !! cid) -> (forall tid o, ev' <> EvStep cid tid o)) -> winv (srv_step S g w ev')).
      { intros ev' N1 N2 N3. unfold srv_step. apply winv_server; [done|done| |].
        - intros cid c' Hc'. apply conn_grows in Hc' as [(c & Hc & _)|(_ & rx & tx & E & _)]; [|by destruct (N1 cid rx tx)].
          by eapply (wi_conn _ H).
        - intros cid l Hl. apply linv_quiet; [by apply (wi_link _ H)|by intros; apply N1|by intros; apply N2|].
          apply N3. by eexists. }
      destruct ev as [| |cid tid o| | | |]; try done; try (by apply Hq).
      destruct (w_links w !! cid) as [l|] eqn:El.
      2:{ apply Hq; [done|done|]. intros cid' [l' E] tid' o' [= <- _ _]. congruence. }
      destruct (s_conns S (w_srv w) !! cid) as [c|] eqn:Ec.
      + assert (Hc' : exists c', s_conns S (step S g (w_srv w) (EvStep cid tid o)) !! cid = Some c').
        { cbn [step]. rewrite Ec. destruct (step_thread S g (s_sh S (w_srv w)) c tid o) as [sh c']. cbn.
          rewrite lookup_insert. by eexists. }
        destruct Hc' as [c' Ec']. cbn [srv_step w_srv]. rewrite Ec'. unfold set_link. cbn [srv_step w_srv w_links w_evs].
        rewrite (wi_srv _ H) in Ec, Ec'. rewrite <- (run_snoc S g) in Ec'.
        apply winv_server; [done| | |].
        * intros cid' [l' E]. destruct (decide (cid' = cid)) as [->|Hne]; [rewrite lookup_insert; by eexists|].
          rewrite lookup_insert_ne by done. by eexists.
        * intros cid' c2 Hc2. destruct (decide (cid' = cid)) as [->|Hne]; [rewrite lookup_insert; by eexists|].
          rewrite lookup_insert_ne by done. apply conn_grows in Hc2 as [(c0 & Hc0 & _)|(_ & rx' & tx' & E & _)]; [|done].
          by eapply (wi_conn _ H).
        * intros cid' l' Hl'. apply lookup_insert_Some in Hl' as [[<- <-]|[Hne Hl']].
          2:{ apply linv_quiet; [by apply (wi_link _ H)|done|done|]. by intros ? ? [= <- _ _]. }
          apply (linv_server _ (EvStep cid tid o) cid l (l_up l)); [by apply (wi_link _ H)|done|by left| |].
          -- intros c1 c2 Hc1 Hc2. assert (c1 = c) as -> by (unfold ServerVocab.conn_at in *; congruence).
             by assert (c2 = c') as -> by (unfold ServerVocab.conn_at in *; congruence).
          -- intros Hno. by destruct (Hno c').
      + assert (winv (srv_step S g w (EvStep cid tid o))) as Hs.
        { unfold srv_step. apply winv_server; [done|done| |].
          - intros cid' c' Hc'. apply conn_grows in Hc' as [(c & Hc & _)|(_ & rx & tx & E & _)]; [|done].
            by eapply (wi_conn _ H).
          - intros cid' l' Hl'. rewrite <- (moved_id l').
            assert (Hno : cid' = cid -> forall c', ~ conn_at (w_evs w ++ [EvStep cid tid o]) cid' c').
            { intros -> c' Hc'. apply conn_grows in Hc' as [(c & Hc & _)|(_ & rx & tx & E & _)]; [|done].
              unfold ServerVocab.conn_at in Hc. rewrite (wi_srv _ H) in Ec. congruence. }
            destruct (decide (cid' = cid)) as [->|Hne].
            + apply linv_server; [by apply (wi_link _ H)|done|by left| |done].
              intros c c' _ Hc'. by destruct (Hno eq_refl c').
            + rewrite moved_id. apply linv_quiet; [by apply (wi_link _ H)|done|done|]. by intros ? ? [= -> _ _]. }
        by destruct (s_conns S (w_srv (srv_step S g w (EvStep cid tid o))) !! cid).
    - destruct (w_links w !! cid) as [[cl en de up [|raw down] ul dl put ce]|] eqn:El; [done| |done].
      destruct (k_recv cl) eqn:Er; try done. eapply winv_link; [done|done|]. apply linv_take; [|done].
      by apply (wi_link _ H).
    - destruct (w_links w !! cid) as [l|] eqn:El; [|done]. eapply winv_link; [done|done|].
      apply linv_lose. by apply (wi_link _ H).
  Qed.

  Lemma winv_run evs : Forall typed evs -> winv (wrun S g evs).
  Proof.
    intros Ht. unfold wrun. assert (H : winv (winit S)).
    { split; [done|done|]. intros pre cid c Hp Hc. cbn in Hp. apply prefix_nil_inv in Hp as ->.
      unfold ServerVocab.conn_at in Hc. cbn in Hc. by rewrite lookup_empty in Hc. }
    revert Ht H. generalize (winit S). induction evs as [|e evs IH]; intros w Ht H; [done|].
    apply Forall_cons in Ht as [T1 T2]. cbn. apply IH; [done|]. by apply winv_step.
  Qed.
End Joined.
