(** * PropertiesAtOnce: requests take effect one at a time (C73)

    Clients on several connections, and several requests on one connection, are handled at the same
    time; the handlers' steps mix in any order, and they read through caches shared by all.  C73 says that
    nobody can tell: every request has its effect, and gets its answer, as if it had been handled
    alone, at one instant between its arrival and its answer. *)

From Verif Require Import Base Crypto Toy Types Codec Secret Store StoreProofs Lru Server System ServerSpec ServerVocab
  ServerProofs SystemProofs AnswerProofs ServerTheorems WriteProofs AtOnce AtOnceSpec AtOnceProofs AtOnceProofs2 AtOnceProofs3.
From Verif Require Demo.

(** ** One request *)

(** Whatever else the server does in the meantime, a request that was answered, and from whose handling
    no call to the outside failed, took effect in one instant. *)
Theorem C73_at_one_instant :
  forall S (SO : StoreOk S) g, CryptoOk (g_crypto g) ->
  forall evs cid c tid rq m,
    conn_at S g evs cid c -> received S c tid rq -> undisturbed S rq -> sent S c tid m ->
    one_instant g S evs cid tid (rq_msg S rq) m.
Proof.
  intros S SO g HC evs cid c tid rq m Hc Hq Hu Hm. apply (instant_spec S SO g HC). by eapply answered_at_once.
Qed.
Print Assumptions C73_at_one_instant.

(** The same with the handlers themselves, run without caches and without interruption: then not only
    the meaning of the answer but also its very text is that of the instant. *)
Theorem C73_as_if_alone :
  forall S (SO : StoreOk S) g, CryptoOk (g_crypto g) ->
  forall evs cid c tid rq m,
    conn_at S g evs cid c -> received S c tid rq -> undisturbed S rq -> sent S c tid m ->
    instant S g evs cid tid (rq_msg S rq) m.
Proof. intros S SO g HC evs cid c tid rq m Hc Hq Hu Hm. by eapply answered_at_once. Qed.
Print Assumptions C73_as_if_alone.

(** ** A whole history *)

(** A server that runs from [evs0] on (nobody was connected then) and through [evs]; everything it
    received has been answered, with no failure from outside, and only it has used the store.  Then there is an order of
    all the requests in which, handled one after the other, they would have got the same
    answers and left the same entries and the same unlocked connections; and a
    request that arrived after another was answered comes after it in that order. *)
Theorem C73_in_turn :
  forall S (SO : StoreOk S) g, CryptoOk (g_crypto g) ->
  forall evs0 evs,
    s_conns S (run S g evs0) = ∅ -> no_restart evs -> no_direct evs ->
    (forall cid c tid rq, conn_at S g (evs0 ++ evs) cid c -> received S c tid rq ->
       undisturbed S rq /\ exists m, sent S c tid m) ->
    exists keys ts L0 L1,
      (forall cid c, conn_at S g (evs0 ++ evs) cid c -> keys cid = (c_enc S c, c_dec S c))
      /\ holds_just g S evs0 L0 /\ holds_just g S (evs0 ++ evs) L1
      /\ served g keys ts L0 (fun _ => false) L1 (unlocked_at S g (evs0 ++ evs))
      /\ (forall t, answered_turn S g (evs0 ++ evs) t <-> t ∈ ts)
      /\ NoDup ts
      /\ (forall t t', t ∈ ts -> t' ∈ ts -> before_arrival S g (evs0 ++ evs) t t' ->
            exists t1 t2 t3, ts = t1 ++ t :: t2 ++ t' :: t3).
Proof.
  intros S SO g HC evs0 evs H0 Hr Hd Hall.
  destruct (history S SO g HC evs0 evs H0 Hr Hd Hall) as (keys & ts & Hk & Ht & Ha & Hn & Ho).
  destruct (run_both S SO g HC evs0) as (L & ((HR & Hdi & Hs & _) & _) & _).
  destruct (in_turn_spec S SO g HC keys ts _ _ _ _ L Ht HR Hdi Hs) as (L1 & R1 & D1 & Hsv).
  { intros t Hin. apply Ha in Hin as (c & r & Hc & Hq & <- & _). by eapply request_ok_msg. }
  exists keys, ts, L, L1. split; [done|]. split; [by eapply rel_just|]. split; [by eapply rel_just|]. done.
Qed.
Print Assumptions C73_in_turn.

(** ** What follows for single requests *)

(** A list of the entries is a snapshot: it is what the keystore held at one moment after the request
    came and before it was answered. *)
Theorem C73_list_is_a_snapshot :
  forall S (SO : StoreOk S) g, CryptoOk (g_crypto g) ->
  forall evs cid c tid rq i i' l,
    conn_at S g evs cid c -> received S c tid rq -> undisturbed S rq -> rq_msg S rq = ReqListEntries i ->
    sent S c tid (ResListEntries i' l) ->
    exists pre post c0 r L, evs = pre ++ post /\ no_restart post
      /\ conn_at S g pre cid c0 /\ received S c0 tid r /\ (forall m, ~ sent S c0 tid m)
      /\ holds_just g S pre L /\ l ≡ₚ map info_of L.
Proof.
  intros S SO g HC evs cid c tid rq i i' l Hc Hq Hu Hm Hs.
  destruct (C73_at_one_instant S SO g HC evs cid c tid rq _ Hc Hq Hu Hs)
    as (pre & o & post & c0 & c1 & r & fb & L & L' & H1 & H2 & H3 & H4 & _ & H5 & _ & H6 & _ & (_ & Hst & _ & Hr) & _).
  rewrite Hm in *. unfold stores in Hst. cbn in Hst. subst L'. cbn in Hr. destruct Hr as (_ & _ & _ & L1 & P1 & P2 & Hp).
  exists pre, (EvStep cid tid o :: post), c0, r, L. do 5 (split; [done|]). split; [done|].
  by rewrite (anti_symm _ _ _ P1 P2).
Qed.
Print Assumptions C73_list_is_a_snapshot.

(** A lookup tells exactly what is there at one moment: the description of the entry under the tag; an
    error, on an unlocked connection, only if there is none. *)
Theorem C73_lookup_is_a_snapshot :
  forall S (SO : StoreOk S) g, CryptoOk (g_crypto g) ->
  forall evs cid c tid rq i t m,
    conn_at S g evs cid c -> received S c tid rq -> undisturbed S rq -> rq_msg S rq = ReqGetEntry i t ->
    came_unlocked S rq -> sent S c tid m ->
    exists pre post c0 r, evs = pre ++ post /\ no_restart post
      /\ conn_at S g pre cid c0 /\ received S c0 tid r /\ (forall m, ~ sent S c0 tid m)
      /\ ((exists e, stored S g pre e /\ tag_of e = t /\ m = ResGetEntry i (info_of e))
          \/ ((forall e, stored S g pre e -> tag_of e <> t) /\ exists er, m = ResError i er)).
Proof.
  intros S SO g HC evs cid c tid rq i t m Hc Hq Hu Hm Hcu Hs.
  destruct (C73_at_one_instant S SO g HC evs cid c tid rq _ Hc Hq Hu Hs)
    as (pre & o & post & c0 & c1 & r & fb & L & L' & H1 & H2 & H3 & H4 & H4m & H5 & _ & H6 & _ & (_ & Hst & _ & Hr) & _).
  assert (Hu0 : c_unl S c0 = true).
  { assert (Hno : no_restart (EvStep cid tid o :: post)) by (unfold no_restart in *; done).
    destruct (keeps S g (EvStep cid tid o :: post) pre cid c0 H3 Hno) as (c2 & Hc2 & Hk & _). rewrite <- H1 in Hc2.
    destruct (Hk tid r H4) as (rq' & Hq' & E). injection E as _ E.
    unfold conn_at, received, came_unlocked in *. assert (c2 = c) as -> by congruence. assert (rq' = rq) as -> by congruence.
    destruct (run_both S SO g HC pre) as (L2 & (_ & HL & _) & _). destruct (HL cid c0 H3) as (H & _).
    destruct (H tid r H4) as (L3 & _ & _ & _ & Hcu2 & _). apply Hcu2. congruence. }
  rewrite Hm in *. unfold stores in Hst. cbn in Hst. rewrite andb_false_r in Hst. subst L'. destruct H6 as [_ H6].
  exists pre, (EvStep cid tid o :: post), c0, r. do 5 (split; [done|]).
  unfold right_now in Hr. destruct (is_error m) eqn:Ee.
  - right. destruct Hr as [Hid [[_ Hx]|Hx]]; [congruence|]. cbn in Hx. split.
    + intros e He. apply Hx. by apply H6.
    + destruct m; try done. cbn in Hid. subst. by eexists.
  - left. destruct Hr as [_ [Hid Hr]]. destruct m; try done. destruct Hr as (_ & e & He & Ht & ->). cbn in Hid. subst.
    exists e. split; [by apply H6|done].
Qed.
Print Assumptions C73_lookup_is_a_snapshot.

(** ** A history in which requests overlap *)

(** Steps of two requests in turn. *)
Definition weave (c1 t1 c2 t2 : nat) (b1 b2 : byte) : list event :=
  concat (repeat [EvStep c1 t1 (Demo.fine b1); EvStep c2 t2 (Demo.fine b2)] 15).

(** Two clients: one makes a seed [s] while the other makes [t]; then one lists the entries while the
    other makes [u], and one asks for [u] twice on one connection. *)
Definition mixed : list event :=
  Demo.demo_open 1 ++ Demo.demo_open 2
  ++ EvReceive 1 (encode_api (ReqNewSeed (str "a") (str "s") None true))
  :: EvReceive 2 (encode_api (ReqNewSeed (str "a") (str "t") None true)) :: weave 1 1 2 1 x10 x11
  ++ EvReceive 2 (encode_api (ReqListEntries (str "b")))
  :: EvReceive 1 (encode_api (ReqNewSeed (str "b") (str "u") None false)) :: weave 2 2 1 2 x12 x13
  ++ EvReceive 2 (encode_api (ReqGetEntry (str "c") (str "u")))
  :: EvReceive 2 (encode_api (ReqGetEntry (str "d") (str "u"))) :: weave 2 3 2 4 x14 x15.

(** Everything received was answered, and nothing failed. *)
Definition all_answered (S : store_impl) (g : genv) (evs : list event) : bool :=
  forallb (fun x =>
    let c := snd x in
    forallb (fun tid =>
      match c_reqs S c !! tid with
      | Some rq => negb (rq_fail S rq) && existsb (fun y => Nat.eqb (fst (fst y)) tid) (c_log S c)
      | None => true
      end) (seq 0 (length (c_reqs S c)))) (map_to_list (s_conns S (run S g evs))).

Lemma all_answered_ok S g evs : all_answered S g evs = true ->
  forall cid c tid rq, conn_at S g evs cid c -> received S c tid rq -> undisturbed S rq /\ exists m, sent S c tid m.
Proof.
  unfold all_answered. intros H cid c tid rq Hc Hq. rewrite forallb_forall in H.
  assert (Hin : In (cid, c) (map_to_list (s_conns S (run S g evs)))).
  { apply elem_of_list_In. by apply elem_of_map_to_list. }
  apply H in Hin. cbn [snd] in Hin. rewrite forallb_forall in Hin.
  assert (Ht : In tid (seq 0 (length (c_reqs S c)))).
  { apply in_seq. apply lookup_lt_Some in Hq. lia. }
  apply Hin in Ht. unfold received in Hq. rewrite Hq in Ht. apply andb_prop in Ht as [H1 H2].
  split; [by apply negb_true_iff in H1|]. apply existsb_exists in H2 as ([[t m] b] & H2 & H3).
  cbn in H3. apply Nat.eqb_eq in H3 as ->. exists m, b. by apply elem_of_list_In.
Qed.

Example C73_in_turn_ex :
  s_conns sql_store (run sql_store (Demo.demo_env false) []) = ∅
  /\ no_restart mixed /\ no_direct mixed
  /\ (forall cid c tid rq, conn_at sql_store (Demo.demo_env false) ([] ++ mixed) cid c -> received sql_store c tid rq ->
        undisturbed sql_store rq /\ exists m, sent sql_store c tid m)
  /\ map (fun x => (fst (fst x), is_error (snd (fst x)))) (Demo.replies sql_store (Demo.demo_env false) mixed 1)
       = [(0, false); (1, false); (2, false)]
  /\ map (fun x => (fst (fst x), match snd (fst x) with ResListEntries _ l => length l | _ => 0 end))
       (Demo.replies sql_store (Demo.demo_env false) mixed 2)
       = [(0, 0); (1, 0); (2, 2); (3, 0); (4, 0)].
Proof.
  split; [reflexivity|]. split; [vm_compute; reflexivity|]. split; [vm_compute; reflexivity|].
  split; [apply all_answered_ok; vm_compute; reflexivity|]. split; vm_compute; reflexivity.
Qed.

(** Request [tid] of connection [cid] is [a], came unlocked, was not disturbed and got an answer with [p]. *)
Definition answered_with (S : store_impl) (g : genv) (evs : list event) (cid tid : nat) (a : api) (p : api -> bool) : bool :=
  Demo.check S g evs cid (fun c =>
    match c_reqs S c !! tid with
    | Some rq => bool_decide (rq_msg S rq = a) && rq_unl S rq && negb (rq_fail S rq)
        && existsb (fun y => Nat.eqb (fst (fst y)) tid && p (snd (fst y))) (c_log S c)
    | None => false
    end).

Lemma answered_with_ok S g evs cid tid a p : answered_with S g evs cid tid a p = true ->
  exists c rq m, conn_at S g evs cid c /\ received S c tid rq /\ rq_msg S rq = a /\ came_unlocked S rq /\ undisturbed S rq
    /\ sent S c tid m /\ p m = true.
Proof.
  intros H. apply Demo.checked in H as (c & Hc & H).
  destruct (c_reqs S c !! tid) as [rq|] eqn:E; [|discriminate H].
  apply andb_prop in H as [H H4]. apply andb_prop in H as [H H3]. apply andb_prop in H as [H1 H2].
  apply bool_decide_eq_true in H1. apply negb_true_iff in H3. apply existsb_exists in H4 as ([[t m] b] & H4 & H5).
  apply andb_prop in H5 as [H5 H6]. cbn in H5, H6. apply Nat.eqb_eq in H5 as ->.
  exists c, rq, m. repeat (split; [done|]). split; [|done]. exists b. by apply elem_of_list_In.
Qed.

(** The list in [mixed], and a lookup there; both overlapped with other requests. *)
Example C73_list_ex :
  exists c rq m, conn_at sql_store (Demo.demo_env false) mixed 2 c /\ received sql_store c 2 rq
    /\ rq_msg sql_store rq = ReqListEntries (str "b") /\ came_unlocked sql_store rq /\ undisturbed sql_store rq
    /\ sent sql_store c 2 m /\ match m with ResListEntries _ l => Nat.eqb (length l) 2 | _ => false end = true.
Proof. apply answered_with_ok. vm_compute. reflexivity. Qed.

Example C73_lookup_ex :
  exists c rq m, conn_at sql_store (Demo.demo_env false) mixed 2 c /\ received sql_store c 3 rq
    /\ rq_msg sql_store rq = ReqGetEntry (str "c") (str "u") /\ came_unlocked sql_store rq /\ undisturbed sql_store rq
    /\ sent sql_store c 3 m /\ negb (is_error m) = true.
Proof. apply (answered_with_ok _ _ _ _ _ _ (fun m => negb (is_error m))). vm_compute. reflexivity. Qed.
