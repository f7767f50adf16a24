(** * PropertiesOnly: who can make a keystore do anything, over any network (C78)

    Executions are those of [Net]: the network may do with the bytes what it likes. *)

From Verif Require Import Base Utf8 Crypto Toy Types Codec Secret Store StoreProofs Lru Server System ServerSpec
  ServerVocab SystemProofs ServerTheorems Wire WireVocab Handshake Client Asks World WorldVocab WorldProofs WorldProofs2 WorldProofs3 Net NetVocab
  NetProofs NetProofs2.
From Verif Require PropertiesServer1 PropertiesServer3 PropertiesNet Demo DemoWorld.
From Verif Require Import DemoNet.

(** The client at the end of connection [cid] has asked to unlock, with the passphrase of the keystore. *)
Definition knows S g (evs : list nevent) (cid : nat) : Prop :=
  exists l k c id s digest, ncall_at S g evs cid k l c /\ c_req c = ReqUnlock id s
    /\ sec_open (g_crypto g) 64 (x_enc l) s = Ok digest /\ opens g digest.

(** Behind every connection of the server is a client: it has made a call for every request received, and if
    the connection is unlocked it knows the passphrase. *)
Lemma client_of S (SO : StoreOk S) g (HC : CryptoOk (g_crypto g)) evs pre cid conn :
  Forall ntyped evs -> ~ forged S g evs -> pre `prefix_of` nserver_evs S g evs -> conn_at S g pre cid conn ->
  exists l, nlink_at S g evs cid l /\ c_dec S conn = x_enc l /\ c_enc S conn = x_dec l
    /\ (forall tid rq, received S conn tid rq -> exists k c, ncall_at S g evs cid k l c /\ c_req c = rq_msg S rq)
    /\ (c_unl S conn = true -> knows S g evs cid).
Proof.
  intros Ht Hf Hp Hc. destruct (sim_run S g HC evs Ht Hf) as (wevs & Hw & R & _).
  pose proof (winv_run S SO g HC wevs Hw) as W. rewrite <- (tr_evs _ _ _ _ R) in Hp.
  destruct (wi_conn _ _ _ W pre cid conn Hp Hc) as [l' Hl'].
  destruct (tr_link' _ _ _ _ R cid l' Hl') as (l & Hl & L).
  pose proof (wi_link _ _ _ W cid l' Hl') as H. destruct (li_keys _ _ _ _ _ H pre conn Hp Hc) as [K1 K2].
  assert (Hall : forall tid rq, received S conn tid rq ->
    exists k c, ncall_at S g evs cid k l c /\ c_req c = rq_msg S rq).
  { intros tid rq Hq.
    assert (nhandled S g evs cid conn tid rq) as Hh by (apply (tr_handled _ _ _ _ R); by exists pre).
    destruct (PropertiesNet.C62_once_in_order S SO g HC evs Ht Hf cid l conn tid rq Hl Hh) as (_ & k & c & _ & Hk & E).
    by exists k, c. }
  exists l. split; [done|]. rewrite K1, K2, (lr_enc _ _ _ L), (lr_dec _ _ _ L). split; [done|]. split; [done|].
  split; [exact Hall|]. intros Hu.
  destruct (PropertiesServer1.C02_unlocked_only_by_passphrase S SO g HC pre cid conn Hc Hu)
    as (tid & rq & id & s & Hq & Hm & pw & pre0 & seed & E0 & E1).
  destruct (Hall tid rq Hq) as (k & c & Hk & Ec). exists l, k, c, id, s, pw.
  rewrite K1, (lr_enc _ _ _ L) in E0. split; [done|]. split; [congruence|]. split; [done|]. by exists pre0, seed.
Qed.

(** ** C78: only clients who know the passphrase make a keystore do anything *)

(** Whatever is in the keystore was asked for in a call that a client has made, and the client knows the
    passphrase; or it was put there by the process of the server itself. *)
Theorem C78_stored :
  forall S (SO : StoreOk S) g, CryptoOk (g_crypto g) ->
  forall evs, Forall ntyped evs -> ~ forged S g evs ->
  forall e, stored S g (nserver_evs S g evs) e ->
    (exists cid k l c L, ncall_at S g evs cid k l c /\ knows S g evs cid /\ asked g (x_enc l) (c_req c) L e
       /\ exists pre, pre `prefix_of` nserver_evs S g evs /\ forall e', e' ∈ L <-> stored S g pre e')
    \/ exists d os, EvDirect d os ∈ nserver_evs S g evs /\ direct_asked g d e.
Proof.
  intros S SO g HC evs Ht Hf e He.
  destruct (PropertiesServer1.C07_asked_for S SO g HC _ e He)
    as (pre & ev & post & E & [(cid & tid & o & c & rq & L & -> & Hc & Hu & Hq & HL & Ha)|(d & os & -> & Hd)]).
  - left. assert (pre `prefix_of` nserver_evs S g evs) as Hp by (rewrite E; by eexists).
    destruct (client_of S SO g HC evs pre cid c Ht Hf Hp Hc) as (l & Hl & K & _ & Hall & Hk).
    destruct (Hall tid rq Hq) as (k & cl & Hcl & Er). exists cid, k, l, cl, L.
    split; [done|]. split; [by apply Hk|]. rewrite Er, <- K. split; [done|]. by exists pre.
  - right. exists d, os. split; [|done]. rewrite E, elem_of_app, elem_of_cons. tauto.
Qed.
Print Assumptions C78_stored.

(** A seed that a client has made is there after a network has meddled with another client's messages. *)
Example C78_stored_ex :
  Forall ntyped (one ++ two ++ tamper) /\ ~ forged sql_store env (one ++ two ++ tamper)
  /\ exists e, stored sql_store env (nserver_evs sql_store env (one ++ two ++ tamper)) e /\ tag_of e = str "s".
Proof.
  split; [apply typedb_ok; vm_compute; reflexivity|]. split; [apply not_forged; vm_compute; reflexivity|].
  eexists (ESeed (str "s") _ _). split; vm_compute; reflexivity.
Qed.

(** Whatever else than its name, version and key, and errors, it sends over a connection answers a call of a
    client who knows the passphrase. *)
Theorem C78_answered :
  forall S (SO : StoreOk S) g, CryptoOk (g_crypto g) ->
  forall evs, Forall ntyped evs -> ~ forged S g evs ->
  forall pre cid conn tid rq m,
    pre `prefix_of` nserver_evs S g evs -> conn_at S g pre cid conn -> received S conn tid rq -> sent S conn tid m ->
    (exists id text, m = ResError id text)
    \/ (exists id, m = ResHello id (g_name g) (g_version g) (g_id_pk g))
    \/ knows S g evs cid /\ exists k l c, ncall_at S g evs cid k l c /\ c_req c = rq_msg S rq.
Proof.
  intros S SO g HC evs Ht Hf pre cid conn tid rq m Hp Hc Hq Hm.
  destruct (client_of S SO g HC evs pre cid conn Ht Hf Hp Hc) as (l & Hl & _ & _ & Hall & Hk).
  destruct (c_unl S conn) eqn:Hu.
  - right. right. split; [by apply Hk|]. destruct (Hall tid rq Hq) as (k & c & ? & ?). by exists k, l, c.
  - destruct (PropertiesServer1.C01_locked_answers S SO g HC pre cid conn tid rq m Hc Hu Hq Hm)
      as [[text ->]|(id & _ & ->)]; [left; by eexists _, _|right; left; by eexists].
Qed.
Print Assumptions C78_answered.

(** The second client was sent four answers, none of them an error or an answer to Hello. *)
Example C78_answered_ex :
  Demo.check sql_store env (nserver_evs sql_store env (one ++ two ++ tamper)) 2
    (fun c => Nat.eqb (length (c_reqs sql_store c)) 4
       && forallb (fun x => match x with (_, ResError _ _, _) | (_, ResHello _ _ _ _, _) => false | _ => true end) (c_log sql_store c)
       && Nat.eqb (length (c_log sql_store c)) 4) = true.
Proof. vm_compute. reflexivity. Qed.

(** And whatever it asks the outside signer to sign is what such a client has asked for. *)
Theorem C78_signer :
  forall S (SO : StoreOk S) g, CryptoOk (g_crypto g) ->
  forall evs, Forall ntyped evs -> ~ forged S g evs ->
  forall pre fc, pre `prefix_of` nserver_evs S g evs -> fc ∈ sh_fb S (s_sh S (run S g pre)) ->
    exists cid k l c d, ncall_at S g evs cid k l c /\ knows S g evs cid
      /\ c_req c = ReqSign (fb_id fc) (fb_pk fc) d (fb_data fc).
Proof.
  intros S SO g HC evs Ht Hf pre fc Hp Hfc.
  destruct (PropertiesServer3.C19_fallback_only_if_not_held S SO g HC pre fc Hfc)
    as (_ & cid & conn & tid & rq & d & Hc & Hq & Hu & Hm & _).
  destruct (client_of S SO g HC evs pre cid conn Ht Hf Hp Hc) as (l & Hl & _ & _ & Hall & Hk).
  destruct (Hall tid rq Hq) as (k & c & Hcl & Er). exists cid, k, l, c, d.
  split; [done|]. split; [by apply Hk|]. congruence.
Qed.
Print Assumptions C78_signer.

(** A server with an outside signer: a client unlocks and asks for a signature with a key the keystore lacks. *)
Definition env_fb : genv :=
  GEnv (g_crypto env) (g_salt env) (g_ops env) (g_mem env) (g_id_seed env) (g_id_pk env) (g_name env) (g_version env)
    (g_bidi env) true (g_rcgen env).
Definition carried (n : net sql_store env_fb) (up : bool) : list nevent :=
  match n_links n !! 1 with
  | Some l => let h := if up then x_up l else x_down l in
              [NDeliver 1 up (drop (length (ch_fed h)) (t_wire (ch_snd h)))]
  | None => []
  end.
Fixpoint playing (n : net sql_store env_fb) (s : list (net sql_store env_fb -> list nevent)) : list nevent :=
  match s with
  | [] => []
  | f :: s => let es := f n in es ++ playing (fold_left (nstep sql_store env_fb) es n) s
  end.
Definition calling (k : nat) (id : string) (a : ask) : list (net sql_store env_fb -> list nevent) :=
  [fun _ => [NAsk 1 (DemoWorld.drawn id) a; NClient 1 (Begin k); NWrite 1 k None; NClient 1 (Sent k true)];
   fun n => carried n true;
   fun _ => NServe 1 :: repeat (NServer (EvStep 1 k (Demo.fine x00)) 0) 15;
   fun n => carried n false].
Definition outside : list nevent :=
  Eval vm_compute in
    playing (ninit sql_store env_fb)
      ([fun _ => [NConnect 1 Demo.demo_seed (drawn_keys x50)]] ++ calling 0 "a0" (AUnlock DemoWorld.pass)
       ++ calling 1 "a1" (ASign (Demo.fill 32 x44) None (str "data"))).

Fixpoint agreeing (n : net sql_store env_fb) (evs : list nevent) : bool :=
  forallb (fun x => agree (ch_out (x_up (snd x))) (ch_got (x_up (snd x)))
                    && agree (ch_out (x_down (snd x))) (ch_got (x_down (snd x)))) (map_to_list (n_links n))
  && match evs with [] => true | e :: evs => agreeing (nstep sql_store env_fb n e) evs end.
Lemma agreeing_agree (h : chan env_fb) : agree (ch_out h) (ch_got h) = true -> ~ misread env_fb h.
Proof.
  intros H (i & c & Hc & Hn). revert i Hc Hn H. generalize (ch_out h) as out.
  induction (ch_got h) as [|c0 got IH]; intros out i Hc Hn H; [done|].
  cbn in H. destruct out as [|[[p c'] [|]] out]; try done. apply andb_prop in H as [H1 H2]. apply beq_true in H1 as <-.
  destruct i as [|i]; [injection Hc as ->; by apply (Hn p)|]. by apply (IH out i).
Qed.
Lemma agreeing_ok evs : agreeing (ninit sql_store env_fb) evs = true -> ~ forged sql_store env_fb evs.
Proof.
  intros H (p & cid & l & Hp & Hl & Hm). unfold nlink_at, nrun in Hl. revert H p Hp Hl.
  generalize (ninit sql_store env_fb) as n. induction evs as [|e evs IH]; intros n H p [z Hz] Hl;
    cbn [agreeing] in H; apply andb_prop in H as [H1 H2].
  all: assert (H0 : n_links n !! cid = Some l -> False).
  1,3: intros Hn; rewrite forallb_forall in H1; specialize (H1 (cid, l)); cbn [snd] in H1;
    assert (In (cid, l) (map_to_list (n_links n))) as Hi by (apply elem_of_list_In; by apply elem_of_map_to_list);
    apply H1 in Hi; apply andb_prop in Hi as [E1 E2];
    destruct Hm as [Hm|Hm]; [by apply (agreeing_agree (x_up l))|by apply (agreeing_agree (x_down l))].
  - destruct p; [by apply H0|done].
  - destruct p as [|e' p]; [by apply H0|]. cbn in Hz. injection Hz as <- Hz.
    eapply (IH (nstep sql_store env_fb n e) H2 p); [by exists z|done].
Qed.

Example C78_signer_ex :
  Forall ntyped outside /\ ~ forged sql_store env_fb outside
  /\ exists fc, fc ∈ sh_fb sql_store (s_sh sql_store (run sql_store env_fb (nserver_evs sql_store env_fb outside)))
       /\ fb_pk fc = Demo.fill 32 x44 /\ fb_data fc = str "data".
Proof.
  split; [apply typedb_ok; vm_compute; reflexivity|]. split; [apply agreeing_ok; vm_compute; reflexivity|].
  exists (FbCall (str "a1") (Demo.fill 32 x44) (str "data") (Ok (Demo.fill 64 x77))).
  split; [|split; reflexivity]. vm_compute. left.
Qed.
