(** * WorldProofs: what joins the calls of a client and their handling *)

From Verif Require Import Base Utf8 Crypto Types Codec CodecProofs CodecProofs2 Secret SeedBundle Store StoreProofs Lru
  Server System ServerSpec ServerVocab ServerProofs ServerProofs2 SystemProofs AnswerProofs ServerTheorems
  Client Asks EchoProofs World WorldVocab.
From Verif Require PropertiesClient.

Lemma limits_ok l : u32_ok (ops_limit l) /\ u32_ok (mem_limit l).
Proof. by destruct l. Qed.

Lemma hide_ok C key hdr pass : CryptoOk C -> length hdr = 24 -> secret_ok 81 (hide C key hdr pass).
Proof.
  intros HC Hh. unfold hide, sec_encrypt, secret_ok. cbn. split; [done|].
  rewrite (ss_push_len C HC), (blake2b_len C HC). done.
Qed.

Lemma request_ok C enc d a : CryptoOk C -> ask_ok a -> draws_ok d -> api_ok (request_of C enc d a).
Proof.
  intros HC Ha (D1 & D2 & D3).
  assert (Ho : forall p, opt_ok (secret_ok 81) (option_map (hide C enc (d_hdr d)) p)).
  { intros [p|]; [|done]. by apply hide_ok. }
  assert (Hd : forall h p, length h = 24 ->
    opt_ok dlp_ok (option_map (fun p => dlp_of (d_limits d) (hide C enc h p)) p)).
  { intros h [p|] Hh; [|done]. cbn. destruct (limits_ok (d_limits d)). split; [done|]. split; [done|].
    by apply hide_ok. }
  destruct a; cbn [request_of ask_ok] in *; split; try (exact D1); try done;
    repeat match goal with H : _ /\ _ |- _ => destruct H end;
    repeat match goal with |- _ /\ _ => split end; try done; try (by apply Ho); try (by apply Hd); try (by apply hide_ok).
Qed.

(** ** How a connection of the server changes *)

Section Srv.
  Variable S : store_impl.
  Variable SO : StoreOk S.
  Variable g : genv.
  Hypothesis HC : CryptoOk (g_crypto g).

  Notation run := (System.run S g).
  Notation conn_at := (ServerVocab.conn_at S g).

  Definition msgs (c : conn S) : list api := map (rq_msg S) (c_reqs S c).
  Definition dels (c : conn S) : list (nat * api) :=
    omap (fun x => match x with (t, m, true) => Some (t, m) | _ => None end) (c_log S c).

  Definition grown (ev : event) (cid : nat) (c c' : conn S) : Prop :=
    c_enc S c' = c_enc S c /\ c_dec S c' = c_dec S c
    /\ ((exists raw a, ev = EvReceive cid raw /\ takes S c = true /\ decode_api raw = Ok a
           /\ msgs c' = msgs c ++ [a] /\ c_log S c' = c_log S c)
        \/ (msgs c' = msgs c /\ c_log S c' = c_log S c
            /\ (forall raw a, ev = EvReceive cid raw -> takes S c = true -> decode_api raw = Ok a -> False))
        \/ (msgs c' = msgs c /\ exists tid o m b, ev = EvStep cid tid o
              /\ c_log S c' = c_log S c ++ [(tid, m, b)] /\ (b = true -> System.fits m = true))).

  Lemma msgs_mark l tid b : map (rq_msg S) (mark_fail S l tid b) = map (rq_msg S) l.
  Proof.
    unfold mark_fail. apply list_eq. intros i. rewrite !list_lookup_fmap.
    destruct (decide (i = tid)) as [->|]; [rewrite list_lookup_alter|by rewrite list_lookup_alter_ne].
    by destruct (l !! tid).
  Qed.

  Lemma grown_refl ev cid c : (forall raw, ev <> EvReceive cid raw) -> grown ev cid c c.
  Proof.
    intros Hn. split; [done|]. split; [done|]. right. left. split; [done|]. split; [done|].
    intros raw a E. by destruct (Hn raw).
  Qed.

  Lemma conn_grows evs ev cid c' : conn_at (evs ++ [ev]) cid c' ->
    (exists c, conn_at evs cid c /\ grown ev cid c c')
    \/ (s_conns S (run evs) !! cid = None /\ exists rx tx, ev = EvConnect cid rx tx /\ c' = connect S g rx tx).
  Proof.
    unfold ServerVocab.conn_at. rewrite (run_snoc S g).
    assert (Hsame : (forall raw, ev <> EvReceive cid raw) -> s_conns S (run evs) !! cid = Some c' ->
      exists c, s_conns S (run evs) !! cid = Some c /\ grown ev cid c c').
    { intros Hn H. exists c'. split; [done|]. by apply grown_refl. }
    destruct ev as [cid2 rx tx|cid2 raw|cid2 tid2 o|cid2 tid2 e|cid2|d os|]; cbn [step].
    - destruct (s_conns S (run evs) !! cid2) as [c0|] eqn:E2; [left; by apply Hsame|].
      destruct (_ && _); [|left; by apply Hsame]. cbn [s_conns].
      destruct (decide (cid2 = cid)) as [->|Hne].
      + rewrite lookup_insert. intros [= <-]. right. split; [done|]. by exists rx, tx.
      + rewrite lookup_insert_ne by done. left. by apply Hsame.
    - destruct (s_conns S (run evs) !! cid2) as [c|] eqn:E2; cbn [s_conns].
      2:{ intros H. left. apply Hsame; [|done]. intros raw2 [= <- <-]. congruence. }
      destruct (decide (cid2 = cid)) as [->|Hne].
      2:{ rewrite lookup_insert_ne by done. intros H. left. apply Hsame; [|done]. by intros raw2 [= <- <-]. }
      rewrite lookup_insert. intros [= <-]. left. exists c. split; [done|]. unfold receive, grown, takes.
      destruct (c_open S c && _) eqn:Et.
      + destruct (decode_api raw) as [a|er] eqn:Ed.
        * split; [done|]. split; [done|]. left. exists raw, a. split; [done|]. split; [done|]. split; [done|].
          split; [|done]. unfold msgs. cbn [c_reqs]. by rewrite map_app.
        * split; [done|]. split; [done|]. right. left. split; [done|]. split; [done|].
          intros raw2 a [= <-] _. congruence.
      + split; [done|]. split; [done|]. right. left. split; [done|]. split; [done|]. done.
    - destruct (s_conns S (run evs) !! cid2) as [c|] eqn:E2; [|intros H; left; by apply Hsame].
      destruct (step_thread S g (s_sh S (run evs)) c tid2 o) as [sh' c2] eqn:Es. cbn [s_conns].
      destruct (decide (cid2 = cid)) as [->|Hne];
        [|rewrite lookup_insert_ne by done; intros H; left; by apply Hsame].
      rewrite lookup_insert. intros [= ->]. left. exists c. split; [done|].
      apply (f_equal snd) in Es. cbn [snd] in Es. subst c'.
      unfold step_thread, grown. destruct (c_thr S c !! tid2) as [[p|er]|].
      + assert (Ho : forall m b, r_out S (step1 S g (s_sh S (run evs)) (c_unl S c) p o) = Some (m, b) ->
          b = true -> System.fits m = true).
        { destruct p; try (cbn [step1]; repeat (case_match; cbn [r_out]; try done); done).
          - cbn [step1 r_out]. intros m' b H Hb. apply (f_equal (fun x => match x with Some y => y | None => (m', true) end)) in H.
            pose proof (f_equal fst H) as H1. pose proof (f_equal snd H) as H2. cbn [fst snd] in H1, H2.
            rewrite <- H1. rewrite Hb in H2. by apply andb_prop in H2 as [? _]. }
        revert Ho. generalize (step1 S g (s_sh S (run evs)) (c_unl S c) p o). intros r Ho.
        destruct (r_prog S r) as [p'|]; cbn [snd c_enc c_dec c_log].
        2:{ split; [done|]. split; [done|]. right. left. done. }
        split; [done|]. split; [done|]. unfold log_add. destruct (r_out S r) as [[m b]|] eqn:Er.
        * right. right. split; [apply msgs_mark|]. exists tid2, o, m, b. split; [done|]. split; [done|]. by apply Ho.
        * right. left. split; [apply msgs_mark|]. done.
      + destruct (c_reqs S c !! tid2) as [rq|] eqn:Eq; cbn [snd c_enc c_dec c_log].
        2:{ split; [done|]. split; [done|]. right. left. done. }
        split; [done|]. split; [done|]. right. right. split; [apply msgs_mark|].
        exists tid2, o, (ResError (msg_id (rq_msg S rq)) er), (System.fits (ResError (msg_id (rq_msg S rq)) er) && o_send o).
        split; [done|]. split; [done|]. intros H. by apply andb_prop in H as [? _].
      + cbn [snd]. split; [done|]. split; [done|]. right. left. done.
    - destruct (s_conns S (run evs) !! cid2) as [c|] eqn:E2; [|intros H; left; by apply Hsame]. cbn [s_conns].
      destruct (decide (cid2 = cid)) as [->|Hne];
        [|rewrite lookup_insert_ne by done; intros H; left; by apply Hsame].
      rewrite lookup_insert. intros [= <-]. left. exists c. split; [done|]. unfold abort_thread, grown.
      destruct (c_thr S c !! tid2) as [[p|er]|]; cbn [c_enc c_dec c_log]; (split; [done|]); (split; [done|]);
        right; left; (split; [|done]); unfold msgs; cbn [c_reqs]; rewrite ?msgs_mark; done.
    - destruct (s_conns S (run evs) !! cid2) as [c|] eqn:E2; [|intros H; left; by apply Hsame]. cbn [s_conns].
      destruct (decide (cid2 = cid)) as [->|Hne];
        [|rewrite lookup_insert_ne by done; intros H; left; by apply Hsame].
      rewrite lookup_insert. intros [= <-]. left. exists c. split; [done|].
      split; [done|]. split; [done|]. right. left. done.
    - destruct (direct_okb d); intros H; left; by apply Hsame.
    - done.
  Qed.

  (** What the transport took fits a frame and is an answer. *)
  Lemma log_fits evs cid c t m : conn_at evs cid c -> (t, m, true) ∈ c_log S c -> System.fits m = true.
  Proof.
    revert cid c t m. induction evs as [|ev evs IH] using rev_ind; intros cid c t m Hc Hm; [done|].
    apply conn_grows in Hc as [(c0 & Hc0 & _ & _ & G)|(_ & rx & tx & -> & ->)]; [|by apply elem_of_nil in Hm].
    destruct G as [(raw & a & _ & _ & _ & _ & E)|[(_ & E & _)|(_ & tid & o & m' & b & _ & E & Hb)]];
      rewrite E in Hm; try (by eapply IH).
    apply elem_of_app in Hm as [Hm|Hm]; [by eapply IH|].
    apply elem_of_list_singleton in Hm. injection Hm as -> -> <-. by apply Hb.
  Qed.

  Lemma log_answer evs cid c t m : conn_at evs cid c -> ServerVocab.sent S c t m -> is_request m = false.
  Proof.
    intros Hc Hm. destruct (sent_received S SO g HC _ _ _ _ _ Hc Hm) as [rq Hq].
    destruct (answer_meaning S SO g HC _ _ _ _ _ _ Hc Hq Hm) as (L0 & w & M).
    destruct (me_good _ _ _ _ _ _ _ _ M) as [H|(er & -> & _)]; [|done].
    destruct (right_kind g _ _ _ _ _ _ H) as (_ & K & _). by destruct (rq_msg S rq), m.
  Qed.

  Lemma in_dels c t m : (t, m) ∈ dels c <-> ServerVocab.delivered S c t m.
  Proof.
    unfold dels, delivered. rewrite elem_of_list_omap. split.
    - intros ([[t' m'] []] & H & E); [|done]. by injection E as -> ->.
    - intros H. exists (t, m, true). done.
  Qed.

  (** No request gets two answers. *)
  Lemma omap_filter c t : map fst (List.filter snd (ServerVocab.answers S c t))
    = map snd (List.filter (fun x => Nat.eqb x.1 t) (dels c)).
  Proof.
    unfold ServerVocab.answers, dels. induction (c_log S c) as [|[[t' m] b] l IH]; [done|].
    cbn [omap list_omap]. destruct (Nat.eqb t' t) eqn:E, b; cbn [List.filter map snd fst omap list_omap]; rewrite ?E; cbn [map snd fst];
      rewrite IH; done.
  Qed.

  Lemma dels_nodup evs cid c : conn_at evs cid c -> NoDup (fst <$> dels c).
  Proof.
    intros Hc.
    assert (H : forall t, length (List.filter (fun x => Nat.eqb x.1 t) (dels c)) <= 1).
    { intros t. destruct (c_reqs S c !! t) as [rq|] eqn:Eq.
      - pose proof (f_equal length (omap_filter c t)) as E. rewrite !map_length in E. rewrite <- E.
        destruct (reach S SO g HC evs) as (L & _ & HA & _). specialize (HA _ _ Hc t rq Eq).
        unfold ans_req in HA. destruct (c_thr S c !! t) as [[p|e]|].
        + destruct HA as [_ ->]. cbn. lia.
        + destruct HA as [->|(m & -> & _)]; cbn; lia.
        + destruct HA as (pre & m & b & -> & _ & [->|(m1 & -> & _)]); destruct b; cbn; lia.
      - destruct (List.filter _ (dels c)) as [|[t' m] l] eqn:E; [cbn; lia|exfalso].
        assert (Hin : In (t', m) (List.filter (fun x => Nat.eqb x.1 t) (dels c))) by (rewrite E; by left).
        apply filter_In in Hin as [Hin Ht]. apply elem_of_list_In, in_dels in Hin. cbn in Ht.
        apply Nat.eqb_eq in Ht. subst t'. destruct (sent_received S SO g HC evs cid c t m Hc) as [rq Hq].
        { by exists true. }
        unfold ServerVocab.received in Hq. congruence. }
    revert H. generalize (dels c) as l. clear.
    induction l as [|[t m] l IH]; intros H; [constructor|]. cbn. constructor.
    - intros Hin. apply elem_of_list_fmap in Hin as ([t' m'] & -> & Hin). specialize (H t'). cbn in H.
      rewrite Nat.eqb_refl in H. cbn in H.
      assert (Hx : In (t', m') (List.filter (fun x => Nat.eqb x.1 t') l)).
      { apply filter_In. split; [by apply elem_of_list_In|]. cbn. by apply Nat.eqb_eq. }
      destruct (List.filter _ l); [done|]. cbn in H. lia.
    - apply IH. intros t'. specialize (H t'). cbn in H. destruct (Nat.eqb t t'); cbn in H; lia.
  Qed.
End Srv.

(** ** What a client holds *)

Lemma prefix_snoc {A} (l l' : list A) x : l `prefix_of` l' ++ [x] -> l `prefix_of` l' \/ l = l' ++ [x].
Proof.
  intros [k E]. destruct k as [|y k _] using rev_ind.
  - right. by rewrite app_nil_r in E.
  - left. rewrite app_assoc in E. apply app_inj_tail in E as [-> _]. by exists k.
Qed.

(** Only answers to requests made come in. *)
Definition tidy (evs : list cevent) : Prop :=
  forall before m, before `prefix_of` evs -> m ∈ PropertiesClient.received before ->
    exists r, r ∈ PropertiesClient.requests before /\ msg_id m = msg_id r.

Lemma tidy_snoc evs e : tidy evs ->
  (forall m, e = Incoming m -> exists r, r ∈ PropertiesClient.requests evs /\ msg_id m = msg_id r) -> tidy (evs ++ [e]).
Proof.
  intros T He before m Hp Hm. apply prefix_snoc in Hp as [Hp| ->]; [by apply T|].
  rewrite PropertiesClient.received_app in Hm. rewrite PropertiesClient.requests_app.
  apply elem_of_app in Hm as [Hm|Hm].
  - destruct (T evs m) as (r & Hr & E); [done|done|]. exists r. split; [|done]. apply elem_of_app. by left.
  - destruct e; cbn in Hm; try (by apply elem_of_nil in Hm). apply elem_of_list_singleton in Hm as ->.
    destruct (He _ eq_refl) as (r & Hr & E). exists r. split; [|done]. apply elem_of_app. by left.
Qed.

Lemma call_request evs k c : k_calls (crun new_client evs) !! k = Some c ->
  PropertiesClient.requests evs !! k = Some (c_req c).
Proof.
  intros Hc. destruct (PropertiesClient.h_call _ _ (PropertiesClient.hinv_run evs) k c Hc) as (b & a & -> & <- & _).
  rewrite PropertiesClient.requests_app, lookup_app_r, Nat.sub_diag by lia. done.
Qed.
Lemma request_call evs k r : PropertiesClient.requests evs !! k = Some r ->
  exists c, k_calls (crun new_client evs) !! k = Some c /\ c_req c = r.
Proof.
  intros Hr. assert (k < length (k_calls (crun new_client evs))) as Hlt.
  { rewrite (PropertiesClient.h_len _ _ (PropertiesClient.hinv_run evs)). by eapply lookup_lt_Some. }
  apply lookup_lt_is_Some in Hlt as [c Hc]. exists c. split; [done|].
  apply call_request in Hc. congruence.
Qed.

Lemma mail_of evs k c : PropertiesClient.distinct evs -> tidy evs -> k_recv (crun new_client evs) = RRun ->
  k_calls (crun new_client evs) !! k = Some c -> PropertiesClient.live c = true ->
  (exists m, m ∈ PropertiesClient.received evs /\ msg_id m = msg_id (c_req c)) ->
  exists n m, c_mail c = MGot n m.
Proof.
  revert k c. induction evs as [|e evs IH] using rev_ind; intros k c Hd Ht Hr Hc Hl (m & Hm & Hid); [done|].
  assert (PropertiesClient.distinct evs) as Hd'.
  { unfold PropertiesClient.distinct in *. rewrite PropertiesClient.requests_app, fmap_app in Hd. by apply NoDup_app in Hd as [? _]. }
  assert (tidy evs) as Ht'.
  { intros b x Hp. apply Ht. etransitivity; [exact Hp|]. by eexists. }
  pose proof (PropertiesClient.registered _ k c Hd Hr Hc Hl) as Hnl.
  rewrite PropertiesClient.crun_snoc in Hr, Hc. pose proof (PropertiesClient.recv_run _ _ Hr) as Hr'.
  pose proof (PropertiesClient.pinv_run evs) as I.
  destruct (PropertiesClient.step_inv _ _ I _ _ Hc) as [(c0 & Hc0 & Er & Hch & Hst)|(req & -> & -> & ->)].
  - assert (PropertiesClient.live c0 = true) as Hl0.
    { unfold PropertiesClient.live in *. destruct Hst as [Hst|[? _]]; [by rewrite Hst in Hl|done]. }
    destruct (c_mail c0) as [|n x|] eqn:Em.
    + rewrite PropertiesClient.received_app in Hm. apply elem_of_app in Hm as [Hm|Hm].
      * destruct (IH k c0 Hd' Ht' Hr' Hc0 Hl0) as (n & x & E); [|congruence].
        exists m. split; [done|]. by rewrite Hid, Er.
      * destruct e; cbn in Hm; try (by apply elem_of_nil in Hm). apply elem_of_list_singleton in Hm as ->.
        pose proof (PropertiesClient.p_full _ I _ _ Hc0 Hl0 Em) as Hp. cbn [cstep] in Hc. rewrite Hr' in Hc.
        rewrite Hid, Er, Hp, Hc0 in Hc. destruct c0 as [r0 s0 ml0]. cbn in Em. subst ml0.
        cbn in Hc. rewrite list_lookup_insert in Hc by (by eapply lookup_lt_Some). injection Hc as <-. by eexists _, _.
    + exists n, x. destruct Hch as [E|[E _]]; congruence.
    + exfalso. apply Hnl. destruct Hch as [E|[E _]]; congruence.
  - exfalso. destruct (Ht evs m) as (r & Hin & E).
    { by eexists. }
    { rewrite PropertiesClient.received_app in Hm. cbn in Hm. by rewrite app_nil_r in Hm. }
    cbn in Hid. unfold PropertiesClient.distinct in Hd. rewrite PropertiesClient.requests_app, fmap_app in Hd. apply NoDup_app in Hd as (_ & Hd & _).
    eapply (Hd (msg_id r)); [by apply elem_of_list_fmap_1|]. rewrite <- E, Hid. by left.
Qed.
