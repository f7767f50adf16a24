(** * PropertiesWrites: what an answer says about the store (C06, C07, C59) *)

From Verif Require Import Base Utf8 Crypto Toy Types Codec Secret Store StoreProofs Lru Server System ServerSpec
  ServerVocab ServerTheorems WriteProofs Client Asks World WorldVocab WorldProofs WorldProofs2 WorldProofs3.
From Verif Require Demo DemoWorld.

(** Two entries that cannot both be in one keystore. *)
Definition shares (e e' : entry) : Prop :=
  tag_of e = tag_of e' \/ (exists pk, ed_of e = Some pk /\ ed_of e' = Some pk)
  \/ exists pk, x_of e = Some pk /\ x_of e' = Some pk.

Lemma shares_key e e' : shares e e' -> exists k, k ∈ keys_of e /\ k ∈ keys_of e'.
Proof.
  intros [E|[(pk & E & E')|(pk & E & E')]].
  - exists (ByTag (tag_of e)). split; [apply keys_tag|]. rewrite E. apply keys_tag.
  - exists (ByEd pk). split; by apply ed_key.
  - exists (ByX pk). split; by apply x_key.
Qed.

(** ** C07: an answer tells what was stored *)

(** A request that was answered with success has added exactly one entry, the one
    the answer describes; it shares neither tag nor key with anything that was there when
    the request came. *)
Theorem C07_success_wrote_one :
  forall S (SO : StoreOk S) g, CryptoOk (g_crypto g) ->
  forall evs cid c tid rq m,
    conn_at S g evs cid c -> received S c tid rq -> creating (rq_msg S rq) = true ->
    sent S c tid m -> is_error m = false ->
    exists e, describes (rq_msg S rq) m e
      /\ (forall e', added S g evs cid tid e' <-> e' = e)
      /\ (forall e0, held_before S rq e0 -> ~ shares e e0).
Proof.
  intros S SO g HC evs cid c tid rq m Hc Hq Hcr Hs He.
  destruct (answer_writes S SO g HC evs cid c tid rq m Hc Hq Hs) as (A & HA & Hap & Hl).
  unfold wlogged in Hl. rewrite He in Hl. destruct Hl as [_ Hl]. rewrite Hcr in Hl. destruct Hl as (e & -> & Hd).
  exists e. split; [done|]. split.
  - intros e'. by rewrite <- HA, elem_of_list_singleton.
  - intros e0 H0 Hsh. apply shares_key in Hsh as (k & K1 & K2).
    by apply (Hap e ltac:(by left) e0 k H0 K1).
Qed.
Print Assumptions C07_success_wrote_one.

(** A request that was answered with an error has added nothing, unless something failed while it was
    handled (the answer may have been too large, say). *)
Theorem C07_error_wrote_nothing :
  forall S (SO : StoreOk S) g, CryptoOk (g_crypto g) ->
  forall evs cid c tid rq m,
    conn_at S g evs cid c -> received S c tid rq -> undisturbed S rq ->
    sent S c tid m -> is_error m = true ->
    forall e, ~ added S g evs cid tid e.
Proof.
  intros S SO g HC evs cid c tid rq m Hc Hq Hu Hs He e Ha.
  destruct (answer_writes S SO g HC evs cid c tid rq m Hc Hq Hs) as (A & HA & Hap & Hl).
  unfold wlogged in Hl. rewrite He in Hl. rewrite (Hl Hu) in HA. apply HA in Ha. by apply elem_of_nil in Ha.
Qed.
Print Assumptions C07_error_wrote_nothing.

(** The clause about failures is false without that proviso: a tag can be short enough for the
    request to fit a frame and too long for the answer.  Then nothing outside fails, the seed
    is stored, and what is sent is an error. *)
Definition long_tag : bytes := repeat x61 (N.to_nat 8100).
Definition long_ask : api := ReqNewSeed (str "a") long_tag None true.
Definition long_evs : list event := Demo.demo_open 1 ++ Demo.ask 1 1 long_ask x0a.

Definition store_works (o : oracle) : bool := negb (o_fail o) && o_send o.

Definition wrote_and_failed (t : bytes) (c : conn sql_store) : bool :=
  match c_reqs sql_store c !! 1, c_log sql_store c !! 2 with
  | Some rq, Some (1, m, true) =>
      fits (rq_msg sql_store rq) && is_error m
      && match new_tag (rq_msg sql_store rq) with Some t' => beq t' t | None => false end
  | _, _ => false end.

Lemma wrote_and_failed_spec g evs t :
  Demo.check sql_store g evs 1 (wrote_and_failed t) = true ->
  match st_get sql_store (store_at sql_store g evs) (ByTag t) with Ok e => beq (tag_of e) t | Err _ => false end = true ->
  forallb (fun x => match x with EvStep _ _ o => store_works o | _ => true end) evs = true ->
  exists evs c rq m e,
    conn_at sql_store g evs 1 c
    /\ (forall cid tid o, EvStep cid tid o ∈ evs -> store_works o = true)
    /\ received sql_store c 1 rq /\ fits (rq_msg sql_store rq) = true
    /\ new_tag (rq_msg sql_store rq) = Some (tag_of e)
    /\ delivered sql_store c 1 m /\ is_error m = true
    /\ stored sql_store g evs e.
Proof.
  intros H G Hf. apply Demo.checked in H as (c & Hc & H). exists evs.
  destruct (st_get sql_store (store_at sql_store g evs) (ByTag t)) as [e|] eqn:He; [|discriminate G].
  unfold wrote_and_failed in H.
  destruct (c_reqs sql_store c !! 1) as [rq|] eqn:Hq; [|discriminate H].
  destruct (c_log sql_store c !! 2) as [[[[|[|]] m] []]|] eqn:Hm; try discriminate H.
  apply andb_true_iff in H as [H H3]. apply andb_true_iff in H as [H1 H2].
  destruct (new_tag (rq_msg sql_store rq)) as [t'|] eqn:Ht; [|discriminate H3].
  apply beq_true in H3, G. subst t'.
  exists c, rq, m, e. split; [exact Hc|]. split.
  { intros cid tid o Ho. rewrite forallb_forall in Hf. apply (Hf (EvStep cid tid o)). by apply elem_of_list_In. }
  split; [exact Hq|]. split; [exact H1|]. split; [rewrite G; exact Ht|].
  split; [by apply elem_of_list_lookup_2 in Hm|]. split; [exact H2|].
  unfold stored, holds. rewrite G. exact He.
Qed.

Theorem C07_error_after_write_refuted :
  exists evs c rq m e,
    conn_at sql_store (Demo.demo_env false) evs 1 c
    /\ (forall cid tid o, EvStep cid tid o ∈ evs -> store_works o = true)
    /\ received sql_store c 1 rq /\ fits (rq_msg sql_store rq) = true
    /\ new_tag (rq_msg sql_store rq) = Some (tag_of e)
    /\ delivered sql_store c 1 m /\ is_error m = true
    /\ stored sql_store (Demo.demo_env false) evs e.
Proof. apply (wrote_and_failed_spec _ long_evs long_tag); vm_compute; reflexivity. Qed.
Print Assumptions C07_error_after_write_refuted.

(** Every other request leaves the store alone, in each of its steps. *)
Theorem C07_reads_write_nothing :
  forall S (SO : StoreOk S) g, CryptoOk (g_crypto g) ->
  forall evs cid c tid rq o,
    conn_at S g evs cid c -> received S c tid rq -> creating (rq_msg S rq) = false ->
    forall e, stored S g (evs ++ [EvStep cid tid o]) e <-> stored S g evs e.
Proof.
  intros S SO g HC evs cid c tid rq o Hc Hq Hcr.
  destruct (step_stored S SO g HC evs (EvStep cid tid o)) as (_ & _ & [H|[(e & _ & Ho & _)|H]]); [done| |done].
  exfalso. destruct Ho as [(cid' & tid' & o' & c' & rq' & L & [= <- <- <-] & Hc' & _ & Hq' & _ & Ha)|(d & os & ? & _)]; [|done].
  unfold conn_at, received in *. assert (c' = c) as -> by congruence.
  assert (rq' = rq) as -> by congruence. by destruct (rq_msg S rq).
Qed.
Print Assumptions C07_reads_write_nothing.

(** The requests of [ex]: a seed; the same tag again; a certificate; a lookup. *)
Definition ex : list event :=
  Demo.demo_open 1 ++ Demo.ask 1 1 (ReqNewSeed (str "a") (str "t") None true) x0a
    ++ Demo.ask 1 2 (ReqNewSeed (str "b") (str "t") None true) x0b
    ++ Demo.ask 1 3 (ReqNewCert (str "c") (str "c")) x00
    ++ Demo.ask 1 4 (ReqGetEntry (str "d") (str "t")) x00.
Example C07_answers_ex :
  map (fun x => (fst (fst x), is_error (snd (fst x)))) (Demo.replies sql_store (Demo.demo_env false) ex 1)
    = [(0, false); (1, false); (2, true); (3, false); (4, false)]
  /\ Demo.check sql_store (Demo.demo_env false) ex 1 (fun c =>
       forallb (fun rq => negb (rq_fail sql_store rq)) (c_reqs sql_store c)
       && beq (match c_reqs sql_store c !! 2 with Some rq => match rq_msg sql_store rq with ReqNewSeed i _ _ _ => i | _ => [] end | None => [] end)
            (str "b")
       && match c_reqs sql_store c !! 2 with
          | Some rq => match st_get sql_store (rq_store sql_store rq) (ByTag (str "t")) with Ok _ => true | Err _ => false end
          | None => false end) = true.
Proof. split; vm_compute; reflexivity. Qed.

(** ** C06: what is taken is refused *)

(** A request for a tag that was in use when it came is answered with an error, whatever else happens. *)
Theorem C06_taken_refused :
  forall S (SO : StoreOk S) g, CryptoOk (g_crypto g) ->
  forall evs cid c tid rq m e,
    conn_at S g evs cid c -> received S c tid rq ->
    held_before S rq e -> new_tag (rq_msg S rq) = Some (tag_of e) ->
    sent S c tid m -> is_error m = true.
Proof.
  intros S SO g HC evs cid c tid rq m e Hc Hq Hh Ht Hs. destruct (is_error m) eqn:He; [done|exfalso].
  assert (Hcr : creating (rq_msg S rq) = true) by (by destruct (rq_msg S rq)).
  destruct (C07_success_wrote_one S SO g HC evs cid c tid rq m Hc Hq Hcr Hs He) as (e1 & [H1 _] & _ & H2).
  apply (H2 e Hh). left. congruence.
Qed.
Print Assumptions C06_taken_refused.

(** What a request added is there, as long as the keystore is not started anew. *)
Lemma added_stored S (SO : StoreOk S) g evs cid tid e : CryptoOk (g_crypto g) ->
  added S g evs cid tid e -> stored S g evs e.
Proof.
  intros HC (pre & o & post & -> & Hn & _ & H). rewrite cons_middle, app_assoc.
  apply (stored_lasts S SO g HC); [done|by right].
Qed.

Lemma lasting_app S (SO : StoreOk S) evs evs' : lasting S SO (evs ++ evs') -> lasting S SO evs /\ lasting S SO evs'.
Proof.
  intros [H|H]; [split; by left|]. unfold no_restart in H. rewrite existsb_app in H. apply orb_false_elim in H as [H1 H2].
  split; by right.
Qed.

(** Of two steps at which entries that clash appeared, there is only one. *)
Lemma born_once S (SO : StoreOk S) g evs : CryptoOk (g_crypto g) ->
  forall pre1 ev1 post1 e1 pre2 ev2 post2 e2,
    evs = pre1 ++ ev1 :: post1 -> lasting S SO post1 -> ~ stored S g pre1 e1 -> stored S g (pre1 ++ [ev1]) e1 ->
    evs = pre2 ++ ev2 :: post2 -> lasting S SO post2 -> ~ stored S g pre2 e2 -> stored S g (pre2 ++ [ev2]) e2 ->
    shares e1 e2 -> pre1 = pre2 /\ ev1 = ev2.
Proof.
  intros HC. assert (Hx : forall pre1 ev1 post1 e1 pre2 ev2 post2 e2,
    evs = pre1 ++ ev1 :: post1 -> lasting S SO post1 -> stored S g (pre1 ++ [ev1]) e1 ->
    evs = pre2 ++ ev2 :: post2 -> ~ stored S g pre2 e2 -> stored S g (pre2 ++ [ev2]) e2 ->
    shares e1 e2 -> length pre1 < length pre2 -> False).
  { intros pre1 ev1 post1 e1 pre2 ev2 post2 e2 E1 Hl B1 E2 A2 B2 Hsh Hlen.
    assert (Hpre : exists mid, pre2 = (pre1 ++ [ev1]) ++ mid /\ post1 = (mid ++ [ev2]) ++ post2).
    { rewrite E1 in E2. clear -E2 Hlen. revert pre2 E2 Hlen. induction pre1 as [|x pre1 IH]; intros [|y pre2] E Hlen; cbn in *; try lia.
      - injection E as <- ->. exists pre2. split; [done|]. by rewrite <- app_assoc.
      - injection E as <- E. destruct (IH pre2 E ltac:(lia)) as (mid & -> & ->). by exists mid. }
    destruct Hpre as (mid & -> & ->). apply lasting_app in Hl as [Hl _]. pose proof (lasting_app _ _ _ _ Hl) as [Hlm _].
    pose proof (stored_lasts S SO g HC mid _ _ B1 Hlm) as S1.
    pose proof (stored_lasts S SO g HC (mid ++ [ev2]) _ _ B1 Hl) as S2. rewrite app_assoc in S2.
    apply shares_key in Hsh as (k & K1 & K2).
    assert (e1 = e2) as -> by (by eapply (stored_unique S SO g HC)). done. }
  intros pre1 ev1 post1 e1 pre2 ev2 post2 e2 E1 L1 A1 B1 E2 L2 A2 B2 Hsh.
  destruct (lt_eq_lt_dec (length pre1) (length pre2)) as [[Hlt|Heq]|Hlt].
  - exfalso. by eapply (Hx pre1 ev1 post1 e1 pre2 ev2 post2 e2).
  - rewrite E1 in E2. apply app_inj_1 in E2 as [-> E2]; [|done]. by injection E2 as -> _.
  - exfalso. eapply (Hx pre2 ev2 post2 e2 pre1 ev1 post1 e1); try done.
    destruct Hsh as [?|[(pk & ? & ?)|(pk & ? & ?)]]; [by left|right; left; by exists pk|right; right; by exists pk].
Qed.

(** Of two requests for the same tag, whenever they come and however they interleave, at most one is
    answered with success (until the keystore is started anew). *)
Theorem C06_one_winner :
  forall S (SO : StoreOk S) g, CryptoOk (g_crypto g) ->
  forall evs cid1 c1 tid1 rq1 m1 cid2 c2 tid2 rq2 m2 t,
    conn_at S g evs cid1 c1 -> received S c1 tid1 rq1 -> sent S c1 tid1 m1 -> is_error m1 = false ->
    conn_at S g evs cid2 c2 -> received S c2 tid2 rq2 -> sent S c2 tid2 m2 -> is_error m2 = false ->
    new_tag (rq_msg S rq1) = Some t -> new_tag (rq_msg S rq2) = Some t ->
    cid1 = cid2 /\ tid1 = tid2.
Proof.
  intros S SO g HC evs cid1 c1 tid1 rq1 m1 cid2 c2 tid2 rq2 m2 t H1 Q1 M1 E1 H2 Q2 M2 E2 T1 T2.
  assert (K1 : creating (rq_msg S rq1) = true) by (by destruct (rq_msg S rq1)).
  assert (K2 : creating (rq_msg S rq2) = true) by (by destruct (rq_msg S rq2)).
  destruct (C07_success_wrote_one S SO g HC evs cid1 c1 tid1 rq1 m1 H1 Q1 K1 M1 E1) as (e1 & [D1 _] & A1 & _).
  destruct (C07_success_wrote_one S SO g HC evs cid2 c2 tid2 rq2 m2 H2 Q2 K2 M2 E2) as (e2 & [D2 _] & A2 & _).
  destruct (proj2 (A1 e1) eq_refl) as (pre1 & o1 & post1 & F1 & N1 & B1 & B1').
  destruct (proj2 (A2 e2) eq_refl) as (pre2 & o2 & post2 & F2 & N2 & B2 & B2').
  assert (Hsh : shares e1 e2) by (left; congruence).
  destruct (born_once S SO g evs HC pre1 (EvStep cid1 tid1 o1) post1 e1 pre2 (EvStep cid2 tid2 o2) post2 e2) as [_ E];
    try done; [by right|by right|].
  by injection E.
Qed.
Print Assumptions C06_one_winner.

(** Two connections ask for the same tag at the same time; the second to write is refused. *)
Definition race : list event :=
  Demo.demo_open 1 ++ Demo.demo_open 2
    ++ [EvReceive 1 (encode_api (ReqNewSeed (str "a") (str "t") None true));
        EvReceive 2 (encode_api (ReqNewCert (str "b") (str "t")))]
    ++ repeat (EvStep 1 1 (Demo.fine x0a)) 2 ++ repeat (EvStep 2 1 (Demo.fine x0b)) 9
    ++ repeat (EvStep 1 1 (Demo.fine x0a)) 9.
Example C06_race_ex :
  map (fun x => (fst (fst x), is_error (snd (fst x)))) (Demo.replies sql_store (Demo.demo_env false) race 1)
    = [(0, false); (1, true)]
  /\ map (fun x => (fst (fst x), is_error (snd (fst x)))) (Demo.replies sql_store (Demo.demo_env false) race 2)
    = [(0, false); (1, false)].
Proof. split; vm_compute; reflexivity. Qed.

(** ** C59: nothing is created twice *)

(** Two descriptions of items that cannot both be in one keystore. *)
Definition infos_share (i i' : entry_info) : Prop :=
  info_tag i = info_tag i' \/ (exists pk, info_ed i = Some pk /\ info_ed i' = Some pk)
  \/ exists pk, info_x i = Some pk /\ info_x i' = Some pk.

(** Where a created item appeared in the store. *)
Lemma created_born S (SO : StoreOk S) g evs cid k a v i : CryptoOk (g_crypto g) ->
  Forall typed evs -> ids_differ S g evs -> keeps S SO evs ->
  gives S g evs cid k a (Ok v) -> creates a v = Some i ->
  exists pre tid o post e, server_evs S g evs = pre ++ EvStep cid tid o :: post /\ lasting S SO post
    /\ ~ stored S g pre e /\ stored S g (pre ++ [EvStep cid tid o]) e
    /\ (tag_of e = info_tag i /\ ed_of e = info_ed i /\ x_of e = info_x i)
    /\ exists l, link_at S g evs cid l /\ l_put l !! tid = Some k.
Proof.
  intros HC Ht Hd Hk Hg Hc.
  destruct (ok_served S SO g HC evs cid k _ _ Ht Hd Hg) as (pre & c & tid & rq & d & m & Hs & He & Hv).
  pose proof Hs as [S1 S2 S3 S4 S5 S6 (l & cl & S7 & S8)].
  assert (Hcr : creating (rq_msg S rq) = true).
  { rewrite S4. destruct a; try done; destruct v; done. }
  destruct (C07_success_wrote_one S SO g HC pre cid c tid rq m S2 S3 Hcr S6 He) as (e & [D1 D2] & A & _).
  destruct (proj2 (A e) eq_refl) as (pre0 & o & post0 & E0 & N & B1 & B2). destruct S1 as [rest Er].
  exists pre0, tid, o, (post0 ++ rest), e. split; [by rewrite Er, E0, <- app_assoc, app_comm_cons|].
  split.
  { pose proof (keeps_lasting S SO g HC evs Ht Hk) as Hl. rewrite Er, E0, <- app_assoc in Hl.
    apply lasting_app in Hl as [_ Hl]. rewrite <- app_comm_cons in Hl. apply (lasting_app S SO [_]) in Hl as [_ Hl]. done. }
  split; [done|]. split; [done|]. split.
  - destruct (served_right S SO g HC _ _ _ _ _ _ _ _ _ _ Hs He) as (L0 & w & M & [_ R]).
    rewrite S4 in D1. unfold ed_of, x_of.
    destruct a, v; try done; cbn [request_of] in R, D1; destruct m; try done; cbn [value_of] in Hv; injection Hv as ->;
      cbn [creates] in Hc; injection Hc as <-; cbn [new_tag] in D1; injection D1 as D1; cbn [describes] in D2.
    + destruct D2 as [_ ->]. split; [by destruct pass|]. by destruct pass.
    + destruct D2 as [_ ->]. split; [by destruct pass|]. by destruct pass.
    + rewrite D2. split; [by destruct dst_pass|]. by destruct dst_pass.
    + destruct e; try done. 
  - exists l. split; [apply S7|].
    destruct (handled_call S SO g HC evs cid l c k cl tid rq Ht Hd S7) as [Hp _]; [|by rewrite S8|done].
    exists pre. split; [by exists rest|done].
Qed.

(** Of all calls of all clients, at most one succeeds in creating an item with a given
    tag (or public key), even if the keystore is started anew in between. *)
Theorem C59_created_once :
  forall S (SO : StoreOk S) g, CryptoOk (g_crypto g) ->
  forall evs, Forall typed evs -> ids_differ S g evs -> keeps S SO evs ->
  forall cid1 k1 a1 v1 i1 cid2 k2 a2 v2 i2,
    gives S g evs cid1 k1 a1 (Ok v1) -> creates a1 v1 = Some i1 ->
    gives S g evs cid2 k2 a2 (Ok v2) -> creates a2 v2 = Some i2 ->
    infos_share i1 i2 -> cid1 = cid2 /\ k1 = k2.
Proof.
  intros S SO g HC evs Ht Hd Hk cid1 k1 a1 v1 i1 cid2 k2 a2 v2 i2 G1 C1 G2 C2 Hsh.
  destruct (created_born S SO g evs cid1 k1 a1 v1 i1) as (p1 & t1 & o1 & q1 & e1 & E1 & L1 & A1 & B1 & (X1 & Y1 & Z1) & l1 & Hl1 & P1); try done.
  destruct (created_born S SO g evs cid2 k2 a2 v2 i2) as (p2 & t2 & o2 & q2 & e2 & E2 & L2 & A2 & B2 & (X2 & Y2 & Z2) & l2 & Hl2 & P2); try done.
  destruct (born_once S SO g _ HC p1 _ q1 e1 p2 _ q2 e2 E1 L1 A1 B1 E2 L2 A2 B2) as [_ E].
  { unfold shares. rewrite X1, X2, Y1, Y2, Z1, Z2. exact Hsh. }
  injection E as -> -> _. split; [done|]. unfold link_at in *. assert (l1 = l2) as -> by congruence. congruence.
Qed.
Print Assumptions C59_created_once.

(** Two clients ask for the same tag, one after the other. *)
Definition rivals : list wevent :=
  [WConnect 1 Demo.demo_rx Demo.demo_tx; WConnect 2 Demo.demo_tx Demo.demo_rx]
  ++ DemoWorld.call 1 0 "a0" (AUnlock DemoWorld.pass) x00 ++ DemoWorld.call 2 0 "b0" (AUnlock DemoWorld.pass) x00
  ++ DemoWorld.call 1 1 "a1" (ANewSeed (str "s") None true) x0a
  ++ DemoWorld.call 2 1 "b1" (ANewSeed (str "s") None true) x0b.
Example C59_created_once_ex :
  ids_differ sql_store DemoWorld.env rivals
  /\ (exists v i, gives sql_store DemoWorld.env rivals 1 1 (ANewSeed (str "s") None true) (Ok v)
       /\ creates (ANewSeed (str "s") None true) v = Some i)
  /\ (exists er, gives sql_store DemoWorld.env rivals 2 1 (ANewSeed (str "s") None true) (Err er)).
Proof.
  split; [apply DemoWorld.apart_ids; vm_compute; reflexivity|]. split.
  - exists (VSeed DemoWorld.infoS). eexists. split; [|reflexivity].
    apply (DemoWorld.gave_gives sql_store rivals 1 1 "a1"); [DemoWorld.txt|]. vm_compute. reflexivity.
  - eexists. apply (DemoWorld.gave_gives sql_store rivals 2 1 "b1"); [DemoWorld.txt|]. vm_compute. reflexivity.
Qed.
