(** * C62 and C63, continued: when a connection ends *)

From Verif Require Import Base Utf8 Crypto Toy Types Codec Secret Store StoreProofs Lru Server System ServerVocab
  Wire Handshake Client Asks WorldVocab Net NetVocab.
From Verif Require Import PropertiesClient.
From Verif Require Demo DemoWorld.
From Verif Require Import DemoNet.

Lemma nrun_app S g evs more : nrun S g (evs ++ more) = fold_left (nstep S g) more (nrun S g evs).
Proof. unfold nrun. by rewrite fold_left_app. Qed.

(** A client over a network is a client. *)
Lemma is_client S g evs cid l : nlink_at S g evs cid l -> exists es, x_cli l = crun new_client es.
Proof.
  revert cid l. induction evs as [|e evs IH] using rev_ind; intros cid l; unfold nlink_at in *.
  { cbn. by rewrite lookup_empty. }
  rewrite nrun_app. cbn [fold_left]. set (n := nrun S g evs) in *.
  assert (Hset : forall (n' : net S g) j l', n_links n' = n_links n -> (exists es, x_cli l' = crun new_client es) ->
    n_links (set_nlink n' j l') !! cid = Some l -> exists es, x_cli l = crun new_client es).
  { intros n' j l' E He Hl. unfold set_nlink in Hl. cbn [n_links] in Hl. rewrite E in Hl.
    apply lookup_insert_Some in Hl as [[_ <-]|[_ Hl]]; [done|by eapply IH]. }
  assert (Hstep : forall j l0 e0, n_links n !! j = Some l0 -> exists es, cstep (x_cli l0) e0 = crun new_client es).
  { intros j l0 e0 H0. destruct (IH j l0 H0) as [es E]. exists (es ++ [e0]). by rewrite crun_snoc, E. }
  destruct e; cbn [nstep].
  - destruct (n_links n !! cid0); [by apply IH|]. destruct (_ && _); [|by apply IH].
    destruct (shake g id h) as [[c s]|]; [|by apply IH]. apply Hset; [done|]. by exists [].
  - destruct (n_links n !! cid0) as [l0|] eqn:E0; [|by apply IH]. apply Hset; [done|]. by eapply Hstep.
  - destruct (n_links n !! cid0) as [l0|] eqn:E0; [|by apply IH]. destruct (n_own l0 e); [|by apply IH].
    apply Hset; [done|]. by eapply Hstep.
  - destruct (n_links n !! cid0) as [l0|] eqn:E0; [|by apply IH].
    destruct (k_calls (x_cli l0) !! k) as [[req [] ml]|]; try (by apply IH). destruct (x_res l0 !! k); [by apply IH|].
    destruct (chan_send (x_up l0) req o) as [ok h]. apply Hset; [done|]. exact (IH cid0 l0 E0).
  - destruct e; try (by apply IH); cbn [srv_does n_links]; try (by apply IH).
    destruct (n_links n !! cid0) as [l0|] eqn:E0; [|by apply IH]. destruct (x_task l0); [|by apply IH].
    destruct (s_conns S (n_srv n) !! cid0); [|by apply IH]. destruct (s_conns S _ !! cid0); [|by apply IH].
    apply Hset; [done|]. exact (IH cid0 l0 E0).
  - destruct (n_links n !! cid0) as [l0|] eqn:E0; [|by apply IH]. apply Hset; [done|]. destruct up; exact (IH cid0 l0 E0).
  - destruct (n_links n !! cid0) as [l0|] eqn:E0; [|by apply IH]. apply Hset; [done|]. destruct up; exact (IH cid0 l0 E0).
  - destruct (n_links n !! cid0) as [l0|] eqn:E0; [|by apply IH]. destruct (s_conns S (n_srv n) !! cid0); [|by apply IH].
    destruct (takes_more S _); [|by apply IH]. destruct (chan_read (x_up l0)); try (by apply IH).
    + apply Hset; [done|]. exact (IH cid0 l0 E0).
    + apply Hset; [done|]. exact (IH cid0 l0 E0).
  - destruct (n_links n !! cid0) as [l0|] eqn:E0; [|by apply IH].
    destruct (k_recv (x_cli l0)); [|by apply IH..].
    destruct (chan_read (x_down l0)); [by apply IH|..]; (apply Hset; [done|]); by eapply Hstep.
Qed.

(** The server over a network is a server. *)
Lemma is_server S g evs : n_srv (nrun S g evs) = run S g (nserver_evs S g evs).
Proof.
  induction evs as [|e evs IH] using rev_ind; [done|]. unfold nserver_evs in *. rewrite nrun_app. cbn [fold_left].
  set (n := nrun S g evs) in *.
  assert (Hd : forall ev, n_srv (srv_does n ev) = run S g (n_evs (srv_does n ev))).
  { intros ev. cbn [srv_does n_srv n_evs]. unfold run. rewrite fold_left_app. cbn [fold_left]. fold (run S g (n_evs n)). by rewrite IH. }
  destruct e; cbn [nstep];
    repeat match goal with
    | |- n_srv (match ?x with _ => _ end) = _ => destruct x; cbn [set_nlink n_srv n_evs]
    | |- n_srv (let (_, _) := ?x in _) = _ => destruct x; cbn [set_nlink n_srv n_evs]
    end; first [apply IH|apply Hd].
Qed.

(** ** C63: the end of the stream *)

(** When the client has read all that is to be read and the stream ends, every call that waits
    ends: its next look for an answer finds one, or that the connection is gone.  This holds over any
    network. *)
Theorem C63_client_told :
  forall S g evs cid k l c,
    ncall_at S g evs cid k l c -> c_st c = CWait -> k_recv (x_cli l) = RRun -> chan_read (x_down l) = RdMore ->
    exists l', nlink_at S g (evs ++ [NEof cid false; NTake cid; NClient cid Shutdown; NClient cid Clear; NClient cid (Poll k)]) cid l'
      /\ exists o, ended (x_cli l') k o /\ (o = Aborted \/ exists n m, c_mail c = MGot n m /\ o = Answer n m).
Proof.
  intros S g evs cid k l c [Hl Hc] Hst Hr Hrd. destruct (is_client S g evs cid l Hl) as [es Ees].
  set (l1 := with_down l (chan_eof (x_down l))).
  assert (Hstop : chan_read (x_down l1) = RdStop).
  { unfold chan_read in Hrd |- *. cbn [l1 with_down x_down chan_eof ch_dec ch_in ch_eof] in *.
    destruct (crypt_recv _ _) as [? [? ?]|e|]; try done. destruct (beq e eof); cbn in Hrd |- *; [|done]. done. }
  set (l2 := with_cli l1 (cstep (x_cli l) RecvEnd)).
  set (l3 := with_cli l2 (cstep (x_cli l2) Shutdown)). set (l4 := with_cli l3 (cstep (x_cli l3) Clear)).
  set (l5 := with_cli l4 (cstep (x_cli l4) (Poll k))).
  exists l5. split.
  - unfold nlink_at. rewrite nrun_app. cbn [fold_left].
    assert (Hs : forall (n : net S g) j x e, n_links n !! j = Some x -> n_own x e = true ->
      nstep S g n (NClient j e) = set_nlink n j (with_cli x (cstep (x_cli x) e))).
    { intros n j x e Hx Ho. cbn [nstep]. by rewrite Hx, Ho. }
    assert (Hi : forall (n : net S g) j x, n_links (set_nlink n j x) !! j = Some x) by (intros; apply lookup_insert).
    assert (E1 : nstep S g (nrun S g evs) (NEof cid false) = set_nlink (nrun S g evs) cid l1).
    { cbn [nstep]. unfold nlink_at in Hl. by rewrite Hl. }
    rewrite E1. set (n1 := set_nlink (nrun S g evs) cid l1).
    assert (H1 : n_links n1 !! cid = Some l1) by apply Hi. clearbody n1.
    assert (E2 : nstep S g n1 (NTake cid) = set_nlink n1 cid l2).
    { cbn [nstep]. rewrite H1, Hstop. change (x_cli l1) with (x_cli l). by rewrite Hr. }
    rewrite E2. set (n2 := set_nlink n1 cid l2). assert (H2 : n_links n2 !! cid = Some l2) by apply Hi. clearbody n2.
    rewrite (Hs n2 cid l2 Shutdown H2 eq_refl).
    set (n3 := set_nlink n2 cid _). assert (H3 : n_links n3 !! cid = Some l3) by apply Hi. clearbody n3.
    rewrite (Hs n3 cid l3 Clear H3 eq_refl).
    set (n4 := set_nlink n3 cid _). assert (H4 : n_links n4 !! cid = Some l4) by apply Hi. clearbody n4.
    rewrite (Hs n4 cid l4 (Poll k) H4 eq_refl). apply Hi.
  - set (w4 := crun new_client (es ++ [RecvEnd; Shutdown; Clear])).
    assert (Ew : x_cli l4 = w4) by (unfold w4; rewrite crun_app; rewrite <- Ees; reflexivity).
    assert (Hend : k_recv w4 = REnded) by (rewrite <- Ew; cbn; rewrite Hr; reflexivity).
    assert (Hk : exists c4, k_calls w4 !! k = Some c4 /\ c_st c4 = CWait /\ (c_mail c4 = c_mail c \/ c_mail c4 = MLost)).
    { rewrite <- Ew. cbn [l4 l3 l2 l1 with_cli with_down x_cli cstep]. rewrite Hr. cbn [set_recv k_recv]. unfold clear. cbn [k_calls k_pending set_recv].
      rewrite list_lookup_imap, Hc. cbn. case_bool_decide; eexists; (split; [reflexivity|]); [|by auto].
      unfold lost_mail. destruct c as [? ? []]; cbn in *; auto. }
    destruct Hk as (c4 & Hc4 & Hst4 & Hm4).
    assert (Hlive : live c4 = true) by (by destruct c4 as [? [] ?]).
    pose proof (C37_ends_with_connection (es ++ [RecvEnd; Shutdown; Clear]) k c4 Hend Hc4 Hlive) as He.
    rewrite Hst4 in He. destruct He as [_ He]. cbn [l5 with_cli x_cli]. rewrite Ew.
    destruct (c_mail c4) as [|n m|] eqn:Em.
    + exists Aborted. split; [apply He; unfold got_none; congruence|by left].
    + exists (Answer n m). split; [|right; exists n, m; split; [by destruct Hm4|done]].
      destruct c4 as [req st ml]. cbn in Hst4, Em. subst. fold w4 in Hc4. cbn [cstep]. rewrite Hc4.
      eapply (ended_finish w4 k (Answer n m)); [apply pinv_run|exact Hc4].
    + exists Aborted. split; [apply He; unfold got_none; congruence|by left].
Qed.
Print Assumptions C63_client_told.

(** The third client of the example asks, and the line ends before its answer. *)
Example C63_client_told_ex :
  link_is (one ++ two ++ play (nrun sql_store env (one ++ two)) (ask_part 2 3 "b3" AList)) 2
    (fun l => match k_calls (x_cli l) !! 3, k_recv (x_cli l), chan_read (x_down l) with
              | Some (Call _ CWait _), RRun, RdMore => true | _, _, _ => false end) = true.
Proof. vm_compute. reflexivity. Qed.

(** When the server has read all that is to be read and the stream ends, it takes nothing more over
    this connection. *)
Theorem C63_server_closes :
  forall S g evs cid l conn,
    nlink_at S g evs cid l -> conn_at S g (nserver_evs S g evs) cid conn -> takes_more S conn = true ->
    chan_read (x_up l) = RdMore ->
    let evs' := evs ++ [NEof cid true; NServe cid] in
    nserver_evs S g evs' = nserver_evs S g evs ++ [EvHangup cid]
    /\ exists conn', conn_at S g (nserver_evs S g evs') cid conn' /\ c_open S conn' = false.
Proof.
  intros S g evs cid l conn Hl Hconn Htk Hrd evs'. pose proof (is_server S g evs) as Hsrv. unfold conn_at in Hconn. rewrite <- Hsrv in Hconn.
  set (l1 := with_up l (chan_eof (x_up l))).
  assert (Hstop : chan_read (x_up l1) = RdStop).
  { unfold chan_read in Hrd |- *. cbn [l1 with_up x_up chan_eof ch_dec ch_in ch_eof] in *.
    destruct (crypt_recv _ _) as [? [? ?]|e|]; try done. destruct (beq e eof); cbn in Hrd |- *; [|done]. done. }
  assert (E : nserver_evs S g evs' = nserver_evs S g evs ++ [EvHangup cid]).
  { unfold evs', nserver_evs. rewrite nrun_app. cbn [fold_left]. unfold nlink_at in Hl.
    assert (E1 : nstep S g (nrun S g evs) (NEof cid true) = set_nlink (nrun S g evs) cid l1) by (cbn [nstep]; by rewrite Hl).
    rewrite E1. cbn [nstep]. cbn [set_nlink n_links n_srv]. rewrite lookup_insert, Hconn, Htk, Hstop. done. }
  split; [done|]. rewrite E. unfold conn_at, run. rewrite fold_left_app. cbn [fold_left step].
  fold (run S g (nserver_evs S g evs)). rewrite <- Hsrv, Hconn. cbn [s_conns]. eexists. by rewrite lookup_insert.
Qed.
Print Assumptions C63_server_closes.

Example C63_server_closes_ex :
  link_is (one ++ two) 2 (fun l => match chan_read (x_up l) with RdMore => true | _ => false end) = true
  /\ match s_conns sql_store (n_srv (nrun sql_store env (one ++ two))) !! 2 with
     | Some c => takes_more sql_store c | None => false end = true.
Proof. split; vm_compute; reflexivity. Qed.

(** ** C62: a frame that is too short *)

(** A frame shorter than a ciphertext can be makes the server's task for the connection panic (see
    [C24_short_frame_refuted]).  From then on nothing is sent over this connection, whatever
    happens; no other connection is touched by it. *)
Theorem C62_panic_silences :
  forall S g evs cid l conn more,
    nlink_at S g evs cid l -> s_conns S (n_srv (nrun S g evs)) !! cid = Some conn -> takes_more S conn = true ->
    chan_read (x_up l) = RdPanic ->
    (exists l', nlink_at S g (evs ++ NServe cid :: more) cid l' /\ ch_out (x_down l') = ch_out (x_down l))
    /\ forall cid' l', cid' <> cid -> nlink_at S g evs cid' l' -> nlink_at S g (evs ++ [NServe cid]) cid' l'.
Proof.
  intros S g evs cid l conn more Hl Hconn Htk Hrd. unfold nlink_at in *.
  assert (E : nstep S g (nrun S g evs) (NServe cid) = set_nlink (srv_does (nrun S g evs) (EvHangup cid)) cid (no_task l))
    by (cbn [nstep]; by rewrite Hl, Hconn, Htk, Hrd).
  split.
  - assert (H : exists l', n_links (nrun S g (evs ++ NServe cid :: more)) !! cid = Some l'
      /\ x_task l' = false /\ ch_out (x_down l') = ch_out (x_down l)); [|destruct H as (l' & ? & _ & ?); by exists l'].
    induction more as [|e more IH] using rev_ind.
    { rewrite nrun_app. cbn [fold_left]. rewrite E. exists (no_task l). cbn [set_nlink n_links]. by rewrite lookup_insert. }
    replace (evs ++ NServe cid :: more ++ [e]) with ((evs ++ NServe cid :: more) ++ [e]) by (by rewrite <- app_assoc).
    rewrite nrun_app. cbn [fold_left]. set (n := nrun S g (evs ++ NServe cid :: more)) in *. clearbody n.
    destruct IH as (l0 & H0 & Ht & Ho).
    assert (Hset : forall (n' : net S g) j x, n_links n' = n_links n -> (j = cid -> x_task x = false /\ ch_out (x_down x) = ch_out (x_down l)) ->
      exists l', n_links (set_nlink n' j x) !! cid = Some l' /\ x_task l' = false /\ ch_out (x_down l') = ch_out (x_down l)).
    { intros n' j x En Hx. cbn [set_nlink n_links]. rewrite En. destruct (decide (j = cid)) as [->|Hne].
      - exists x. rewrite lookup_insert. naive_solver.
      - exists l0. by rewrite lookup_insert_ne. }
    assert (Hno : exists l', n_links n !! cid = Some l' /\ x_task l' = false /\ ch_out (x_down l') = ch_out (x_down l)) by (by exists l0).
    assert (Hsame : forall j x, n_links n !! j = Some x -> j = cid -> x_task x = false /\ ch_out (x_down x) = ch_out (x_down l)).
    { intros j x Hx ->. rewrite H0 in Hx. by injection Hx as <-. }
    destruct e; cbn [nstep].
    + destruct (n_links n !! cid0) eqn:E0; [done|]. destruct (_ && _); [|done]. destruct (shake g id h) as [[c s]|]; [|done].
      apply Hset; [done|]. intros ->. congruence.
    + destruct (n_links n !! cid0) as [x|] eqn:E0; [|done]. apply Hset; [done|]. exact (Hsame _ _ E0).
    + destruct (n_links n !! cid0) as [x|] eqn:E0; [|done]. destruct (n_own x e); [|done]. apply Hset; [done|]. exact (Hsame _ _ E0).
    + destruct (n_links n !! cid0) as [x|] eqn:E0; [|done]. destruct (k_calls (x_cli x) !! k) as [[req [] ml]|]; try done.
      destruct (x_res x !! k); [done|]. destruct (chan_send (x_up x) req o) as [ok h]. apply Hset; [done|]. exact (Hsame _ _ E0).
    + destruct e; try done. destruct (n_links n !! cid0) as [x|] eqn:E0; [|done]. destruct (x_task x) eqn:Ex; [|done].
      destruct (s_conns S (n_srv n) !! cid0); [|done]. destruct (s_conns S _ !! cid0); [|done].
      apply Hset; [done|]. intros ->. destruct (Hsame _ _ E0 eq_refl). congruence.
    + destruct (n_links n !! cid0) as [x|] eqn:E0; [|done]. apply Hset; [done|]. intros Ej. destruct (Hsame _ _ E0 Ej) as [H1 H2].
      destruct up; [done|]. cbn [with_down x_task x_down]. split; [done|]. unfold chan_deliver. by destruct (ch_eof _).
    + destruct (n_links n !! cid0) as [x|] eqn:E0; [|done]. apply Hset; [done|]. intros Ej. destruct (Hsame _ _ E0 Ej) as [H1 H2].
      by destruct up.
    + destruct (n_links n !! cid0) as [x|] eqn:E0; [|done]. destruct (s_conns S (n_srv n) !! cid0); [|done].
      clear Htk Hrd. destruct (takes_more S _); [|done]. destruct (chan_read (x_up x)); try done.
      * apply Hset; [done|]. exact (Hsame _ _ E0).
      * apply Hset; [done|]. intros Ej. destruct (Hsame _ _ E0 Ej). done.
    + destruct (n_links n !! cid0) as [x|] eqn:E0; [|done].
      destruct (k_recv (x_cli x)); [|done..]. destruct (chan_read (x_down x)) as [|m h'| |] eqn:Er; [done|..]; (apply Hset; [done|]).
      * intros Ej. destruct (Hsame _ _ E0 Ej) as [H1 H2]. split; [done|]. cbn [with_down x_down]. rewrite <- H2.
        unfold chan_read in Er. destruct (crypt_recv _ _) as [m' [dec cs]|e|]; try done; [|by destruct (_ && _)].
        by injection Er as _ <-.
      * exact (Hsame _ _ E0).
      * exact (Hsame _ _ E0).
  - intros cid' l' Hne Hl'. rewrite nrun_app. cbn [fold_left]. rewrite E. cbn [set_nlink srv_does n_links].
    by rewrite lookup_insert_ne.
Qed.
Print Assumptions C62_panic_silences.

(** Somebody puts an empty frame into the stream to the server. *)
Example C62_panic_ex :
  link_is (one ++ two ++ [NDeliver 2 true (replicate 4 x00)]) 2
    (fun l => match chan_read (x_up l) with RdPanic => true | _ => false end) = true.
Proof. vm_compute. reflexivity. Qed.
