(** * C68: a signature for a key that is not held comes from the signer program, for that request *)

From Verif Require Import Base Base64 Crypto Toy Types Codec Secret Lru Store StoreProofs Server System ServerSpec ServerVocab ServerProofs SystemProofs
  ServerTheorems Demo PropertiesServer3 Fallback PropertiesFallback Signing SigningVocab SigningProofs.

(** The two parts are the server of [System] and the signer of [Fallback]: what is proved of each of
    them holds of the two together. *)
Theorem C68_parts :
  forall S (SO : StoreOk S) g, CryptoOk (g_crypto g) ->
  forall es j, reaches S g es j ->
    (exists evs, j_srv S j = run S g evs) /\ exists fes, frun fnew fes = Some (j_fb S j).
Proof. intros S SO g HC es j H. pose proof (jinv_run S g SO HC _ _ _ (jinv_new S g) H) as [H1 H2 _ _]. done. Qed.
Print Assumptions C68_parts.

(** A signature a client gets for a key nobody holds is one that a signer program printed, in a line with
    the id of this request, and the request was written to that program. *)
Theorem C68_from_program :
  forall S (SO : StoreOk S) g, CryptoOk (g_crypto g) ->
  forall es j cid c tid rq id k d data id' sig,
    reaches S g es j -> conn_in j cid c -> received S c tid rq -> rq_msg S rq = ReqSign id k d data ->
    sent S c tid (ResSign id' sig) -> came_unlocked S rq -> undisturbed S rq ->
    (forall e, kept_in j e -> ed_of e <> Some k) ->
    id' = id /\ exists call p n l, given j call p (SignReq id k data) /\ printed_in j p n l /\ says l id (Ok sig).
Proof.
  intros S SO g HC es j cid c tid rq id k d data id' sig H Hc Hq Hrq Hm Hu Hd Hno.
  pose proof (jinv_run S g SO HC _ _ _ (jinv_new S g) H) as [[evs Hs] [fes Hf] _ Ha].
  unfold conn_in in Hc. unfold kept_in in Hno. rewrite Hs in Hc, Hno, Ha.
  destruct (C19_not_held S SO g HC evs cid c tid rq _ id k d data Hc Hq Hrq Hm Hu Hd Hno) as [Hf0 Hf1].
  destruct (g_fallback g); [|by specialize (Hf0 eq_refl)].
  destruct (Hf1 eq_refl) as [(sig' & [= -> ->] & Hfb)|[? _]]; [|done]. split; [done|].
  destruct (Ha _ Hfb) as (kk & fc & o & A1 & A2 & A3 & A4). cbn in A2, A4. destruct o as [src r| | |]; try done. cbn in A4. injection A4 as ->.
  pose proof (C36_own_answer _ _ _ _ _ _ Hf A1 A3) as Ho. destruct src as [[p n]|]; [|by destruct Ho]. destruct Ho as (Hput & l & Hl & Hsays).
  rewrite A2 in Hsays. exists kk, p, n, l. split; [split; [done|]; by exists fc|]. done.
Qed.
Print Assumptions C68_from_program.

(** Whatever is put before the signer was asked for by a request that came over an unlocked connection, for a
    key not held; it is put there with the id, key and data of that request. *)
Theorem C68_asked_for :
  forall S (SO : StoreOk S) g, CryptoOk (g_crypto g) ->
  forall es j k fc, reaches S g es j -> f_calls (j_fb S j) !! k = Some fc ->
    g_fallback g = true
    /\ exists es1 es2 cid tid j1, es = es1 ++ JAsk cid tid :: es2 /\ reaches S g es1 j1 /\ asked_by j1 cid tid (fc_req fc).
Proof.
  intros S SO g HC es. induction es as [|e es IH] using rev_ind; intros j k fc H Hk.
  - unfold reaches in H. cbn in H. injection H as <-. cbn in Hk. by rewrite lookup_nil in Hk.
  - unfold reaches in H. rewrite jrun_app in H. destruct (jrun S g (jnew S) es) as [j0|] eqn:E0; [|done]. cbn in H.
    destruct (jstep S g j0 e) as [j1|] eqn:E1; [|done]. injection H as ->.
    assert (forall fc', f_calls (j_fb S j0) !! k = Some fc' -> fc_req fc = fc_req fc' ->
      g_fallback g = true /\ exists es1 es2 cid tid j1, es ++ [e] = es1 ++ JAsk cid tid :: es2 /\ reaches S g es1 j1 /\ asked_by j1 cid tid (fc_req fc)) as Hold.
    { intros fc' Hk' Hreq. rewrite Hreq. destruct (IH j0 k fc' E0 Hk') as (Hg & es1 & es2 & cid & tid & j2 & -> & H1 & H2). split; [done|].
      exists es1, (es2 ++ [e]), cid, tid, j2. by rewrite <- app_assoc. }
    pose proof (jinv_run S g SO HC _ _ _ (jinv_new S g) E0) as I.
    destruct (jstep_cases S g _ _ _ E1) as [(ev & -> & Hr' & Hs & ->)|[(cid1 & tid1 & o & r0 & -> & Hb)|[[-> ->]|[(cid1 & tid1 & r & -> & Hb & Hn & ->)|(fe & w & -> & Hnc & Hs & -> & _)]]]].
    + by apply (Hold fc).
    + destruct (jstep_sign S g _ _ _ _ _ _ Hb E1) as (k1 & fc1 & out & r & _ & _ & _ & _ & ->). by apply (Hold fc).
    + cbn in Hk. by rewrite lookup_nil in Hk.
    + cbn in Hk. apply lookup_app_Some in Hk as [Hk|[_ Hk]]; [by apply (Hold fc)|]. apply list_lookup_singleton_Some in Hk as [_ <-].
      destruct (asks S g SO HC _ _ _ _ I Hb) as [Hg Hask]. split; [done|]. by exists es, [], cid1, tid1, j0.
    + cbn in Hk. destruct (f_calls (j_fb S j0) !! k) as [fc0|] eqn:Ek0.
      * destruct (fstep_grown _ _ _ Hs _ _ Ek0) as (fc' & Hk' & Hreq & _). rewrite Hk in Hk'. injection Hk' as <-. by apply (Hold fc0).
      * exfalso. apply lookup_ge_None in Ek0. apply lookup_lt_Some in Hk. pose proof (fstep_calls _ _ _ Hs Hnc). lia.
Qed.
Print Assumptions C68_asked_for.

(** While the process runs a request is put before the signer at most once. *)
Theorem C68_once :
  forall S (SO : StoreOk S) g, CryptoOk (g_crypto g) ->
  forall es1 es2 cid tid j, JSrv EvRestart ∉ es2 -> reaches S g (es1 ++ JAsk cid tid :: es2) j ->
    jstep S g j (JAsk cid tid) = None.
Proof.
  intros S SO g HC es1 es2 cid tid j Hn H. unfold reaches in H. rewrite jrun_app in H.
  destruct (jrun S g (jnew S) es1) as [j0|] eqn:E0; [|done]. cbn [jrun] in H. destruct (jstep S g j0 (JAsk cid tid)) as [j1|] eqn:E1; [|done].
  pose proof (jinv_run S g SO HC _ _ _ (jinv_new S g) E0) as I0. pose proof (jinv_step S g SO HC _ _ _ I0 E1) as I1.
  apply spent_no_ask. eapply (spent_run S g SO HC); [exact I1| |exact H|done]. exact (ask_spends S g SO HC _ _ _ _ I0 E1).
Qed.
Print Assumptions C68_once.

(** When nothing happens by itself any more, a request still in hand waits for a program that was given it
    and has not answered, or that does not read. *)
Theorem C68_waits_for_program_only :
  forall S (SO : StoreOk S) g, CryptoOk (g_crypto g) ->
  forall es j cid tid, reaches S g es j -> resting g j -> in_hand j cid tid ->
    exists k fc p, f_calls (j_fb S j) !! k = Some fc /\ asked_by j cid tid (fc_req fc)
      /\ (unanswered (j_fb S j) k p \/ unread (j_fb S j) k p).
Proof.
  intros S SO g HC es j cid tid H Hrest Hin. pose proof (jinv_run S g SO HC _ _ _ (jinv_new S g) H) as I.
  unfold in_hand in Hin. destruct (handler S (j_srv S j) cid tid) as [t|] eqn:Et; [|done].
  pose proof (Hrest (JSrv (EvStep cid tid (fine x00))) Logic.I) as Hst. cbn [jstep] in Hst. rewrite Et in Hst.
  destruct (to_sign t) as [r|] eqn:Er; [|done].
  assert (before_signer S (j_srv S j) cid tid = Some r) as Hb by (unfold before_signer; by rewrite Et).
  destruct (j_for S j !! (cid, tid)) as [k|] eqn:Ek.
  2: { pose proof (Hrest (JAsk cid tid) Logic.I) as Ha. cbn [jstep] in Ha. rewrite Et in Ha. cbn in Ha. rewrite Er, Ek in Ha. done. }
  destruct (asks S g SO HC _ _ _ _ I Hb) as [_ Hask]. pose proof I as [_ [fes Hf] Hfor _].
  destruct (Hfor _ _ _ Ek) as (c & fc & Hc & Hl & Hfc & Hp). rewrite (handler_of S _ _ _ _ Hc) in Et.
  destruct t as [q|]; [|done]. destruct (Hp q Et) as [Hq Hnd]. rewrite Er in Hq. injection Hq as ->.
  assert (quiet (j_fb S j)) as Hquiet.
  { intros e He. pose proof (Hrest (JFb e) He) as Hx. destruct e; try done; cbn [jstep] in Hx; by destruct (fstep (j_fb S j) _). }
  destruct (C36_waits_for_program_only _ _ _ _ Hf Hquiet Hfc) as [[o Ho]|[p Hw]]; [|by exists k, fc, p].
  exfalso. rewrite Hfc in Hst. destruct fc as [r st m]. cbn in Ho. subst st. by destruct o.
Qed.
Print Assumptions C68_waits_for_program_only.

(** And without new messages, only so much can happen by itself. *)
Theorem C68_comes_to_rest :
  forall S (SO : StoreOk S) g, CryptoOk (g_crypto g) ->
  forall es j, reaches S g es j ->
  exists n, forall es', Forall by_self es' -> is_Some (jrun S g j es') -> length es' <= n.
Proof.
  intros S SO g HC es j H. pose proof (jinv_run S g SO HC _ _ _ (jinv_new S g) H) as I. clear H.
  destruct (budget_exists S g _ I) as (B & L & HB). exists (measure S j B L).
  intros es'. revert j B I HB. induction es' as [|e es' IH]; intros j B I HB Hs [j' H]; [cbn; lia|].
  cbn in H. destruct (jstep S g j e) as [j1|] eqn:E; [|done]. inversion Hs; subst.
  destruct (rest_step S g SO HC _ _ _ _ _ I ltac:(eassumption) E HB) as (B' & HB' & Hlt).
  pose proof (IH j1 B' (jinv_step S g SO HC _ _ _ I E) HB' ltac:(done) (ex_intro _ _ H)). cbn. lia.
Qed.
Print Assumptions C68_comes_to_rest.

(** So, when the programs have gone, no request is left waiting. *)
Theorem C68_gone :
  forall S (SO : StoreOk S) g, CryptoOk (g_crypto g) ->
  forall es j, reaches S g es j -> resting g j ->
    (forall n p, f_programs (j_fb S j) !! n = Some p -> g_in p = false /\ g_out p = false) ->
    forall cid tid, ~ in_hand j cid tid.
Proof.
  intros S SO g HC es j H Hrest Hgone cid tid Hin.
  destruct (C68_waits_for_program_only S SO g HC _ _ _ _ H Hrest Hin) as (k & fc & n & _ & _ & [(p & d & Hp & _ & _ & _ & Ho & _)|(p & d & i & Hp & _ & _ & _ & Hi)]);
    destruct (Hgone n p Hp); congruence.
Qed.
Print Assumptions C68_gone.

(** ** With a signer that signs properly *)

(** Every signature printed is one for a request with that id that was written to the program. *)
Definition honest {S} (g : genv) (j : joined S) : Prop :=
  forall p n l id sig, printed_in j p n l -> says l id (Ok sig) ->
    exists k r, given j k p r /\ s_id r = id /\ sign_verify (g_crypto g) (s_pk r) sig (s_data r) = true.

(** No two requests handed to one program have the same id. *)
Definition ids_apart {S} (j : joined S) : Prop :=
  forall p k1 k2 r1 r2, given j k1 p r1 -> given j k2 p r2 -> s_id r1 = s_id r2 -> k1 = k2.

Theorem C68_verifies :
  forall S (SO : StoreOk S) g, CryptoOk (g_crypto g) ->
  forall es j cid c tid rq id k d data id' sig,
    reaches S g es j -> honest g j -> ids_apart j ->
    conn_in j cid c -> received S c tid rq -> rq_msg S rq = ReqSign id k d data ->
    sent S c tid (ResSign id' sig) -> came_unlocked S rq -> undisturbed S rq ->
    (forall e, kept_in j e -> ed_of e <> Some k) ->
    sign_verify (g_crypto g) k sig data = true.
Proof.
  intros S SO g HC es j cid c tid rq id k d data id' sig H Hh Hi Hc Hq Hrq Hm Hu Hd Hno.
  destruct (C68_from_program S SO g HC es j cid c tid rq id k d data id' sig H Hc Hq Hrq Hm Hu Hd Hno) as (_ & k1 & p & n & l & Hg & Hl & Hs).
  destruct (Hh _ _ _ _ _ Hl Hs) as (k2 & r & Hg2 & Hid & Hv). pose proof (Hi _ _ _ _ _ Hg Hg2 (eq_sym Hid)) as <-.
  destruct Hg as (_ & c1 & Hc1 & Hr1), Hg2 as (_ & c2 & Hc2 & Hr2). rewrite Hc1 in Hc2. injection Hc2 as <-. rewrite Hr1 in Hr2. subst r. done.
Qed.
Print Assumptions C68_verifies.

(** ** Examples *)

(** Connections 1 and 2 are unlocked; both ask for a signature by a key that is not held. *)
Definition ex_key : bytes := fill 32 x99.
Definition ex_sig (data : bytes) : bytes := sign_detached toy (sign_sk toy ex_key) data.
Definition steps (cid tid n : nat) : list jevent := repeat (JSrv (EvStep cid tid (fine x00))) n.
Definition opened (cid : nat) : list jevent :=
  [JSrv (EvConnect cid demo_rx demo_tx); JSrv (EvReceive cid (encode_api (ReqUnlock (str "u") (demo_sec demo_pass))))] ++ steps cid 0 2.
Definition ex_asked (id1 id2 : bytes) : list jevent :=
  opened 1 ++ opened 2
  ++ [JSrv (EvReceive 1 (encode_api (ReqSign id1 ex_key None (str "pay one"))));
      JSrv (EvReceive 2 (encode_api (ReqSign id2 ex_key None (str "pay all"))))]
  ++ steps 1 1 3 ++ steps 2 1 3 ++ [JAsk 1 1; JAsk 2 1].
(** An honest program answers both, in turn. *)
Definition ex_answered (id1 id2 : bytes) : list jevent :=
  ex_asked id1 id2
  ++ map JFb [Get 0 true; Get 1 true; Push 0; Push 1; Take 0; WOk 0; Take 0; WOk 0;
       Print 0 (Reply id1 (Some (to_b64std (ex_sig (str "pay one")))) None);
       Print 0 (Reply id2 (Some (to_b64std (ex_sig (str "pay all")))) None); Read 0; Read 0; Poll 0; Poll 1]
  ++ steps 1 1 2 ++ steps 2 1 2.

#[local] Instance sign_req_eq_dec : EqDecision sign_req.
Proof. solve_decision. Defined.
#[local] Instance line_eq_dec : EqDecision line.
Proof. solve_decision. Defined.

Notation SQL := sql_store.
Definition ex_check (id1 id2 : bytes) (m : api) (j : joined SQL) (c : conn SQL) (rq : request SQL) : bool :=
  bool_decide (rq_msg SQL rq = ReqSign id2 ex_key None (str "pay all")) && rq_unl SQL rq && negb (rq_fail SQL rq)
  && bool_decide (answers SQL c 1 = [(m, true)])
  && (match sh_store SQL (s_sh SQL (j_srv SQL j)) return bool with [] => true | _ => false end)
  && bool_decide (map (fun p => (g_lines p, g_put p)) (f_programs (j_fb SQL j)) =
       [([Reply id1 (Some (to_b64std (ex_sig (str "pay one")))) None; Reply id2 (Some (to_b64std (ex_sig (str "pay all")))) None], [0; 1])])
  && bool_decide (map fc_req (f_calls (j_fb SQL j)) = [SignReq id1 ex_key (str "pay one"); SignReq id2 ex_key (str "pay all")]).
Definition ex_try (id1 id2 : bytes) (m : api) : bool :=
  match jrun SQL (demo_env true) (jnew SQL) (ex_answered id1 id2) with
  | Some j => match s_conns SQL (j_srv SQL j) !! 2 with
              | Some c => match c_reqs SQL c !! 1 with Some rq => ex_check id1 id2 m j c rq | None => false end
              | None => false end
  | None => false
  end.

Lemma ex_tried id1 id2 m : ex_try id1 id2 m = true ->
  exists j c rq, reaches SQL (demo_env true) (ex_answered id1 id2) j /\ conn_in j 2 c /\ received SQL c 1 rq
    /\ rq_msg SQL rq = ReqSign id2 ex_key None (str "pay all") /\ came_unlocked SQL rq /\ undisturbed SQL rq
    /\ answers SQL c 1 = [(m, true)] /\ (forall e, ~ kept_in j e) /\ honest (demo_env true) j
    /\ (forall p k r, given j k p r -> (k = 0 /\ r = SignReq id1 ex_key (str "pay one")) \/ (k = 1 /\ r = SignReq id2 ex_key (str "pay all"))).
Proof.
  unfold ex_try, reaches. destruct (jrun SQL (demo_env true) (jnew SQL) (ex_answered id1 id2)) as [j|]; [|done].
  destruct (s_conns SQL (j_srv SQL j) !! 2) as [c|] eqn:Ec; [|done]. destruct (c_reqs SQL c !! 1) as [rq|] eqn:Eq; [|done].
  unfold ex_check. intros H. apply andb_prop in H as [H H7]. apply andb_prop in H as [H H6]. apply andb_prop in H as [H H5]. apply andb_prop in H as [H H4].
  apply andb_prop in H as [H H3]. apply andb_prop in H as [H1 H2]. apply bool_decide_eq_true in H1, H4, H6, H7. apply negb_true_iff in H3.
  assert (from_b64std (to_b64std (ex_sig (str "pay one"))) = Ok (ex_sig (str "pay one"))) as E1 by (by vm_compute).
  assert (from_b64std (to_b64std (ex_sig (str "pay all"))) = Ok (ex_sig (str "pay all"))) as E2 by (by vm_compute).
  revert E1 E2 H6. generalize (to_b64std (ex_sig (str "pay one"))) (to_b64std (ex_sig (str "pay all"))). intros s1 s2 E1 E2 H6.
  assert (forall p k r, given j k p r -> p = 0 /\ ((k = 0 /\ r = SignReq id1 ex_key (str "pay one")) \/ (k = 1 /\ r = SignReq id2 ex_key (str "pay all")))) as Hgiven.
  { intros p k r ((q & Hq & Hk) & fc & Hfc & Hr). apply (f_equal (fun l => l !! p)) in H6. rewrite list_lookup_fmap, Hq in H6. cbn in H6.
    destruct p as [|p]; [|done]. split; [done|]. injection H6 as _ H6. rewrite H6 in Hk.
    apply (f_equal (fun l => l !! k)) in H7. rewrite list_lookup_fmap, Hfc in H7. cbn in H7. rewrite Hr in H7.
    destruct k as [|[|k]]; [left|right|done]; (split; [done|]); by injection H7. }
  exists j, c, rq. split; [done|]. split; [done|]. split; [done|]. split; [done|]. split; [done|]. split; [done|]. split; [done|]. split; [|split].
  - intros e. unfold kept_in, ServerVocab.holds. destruct (sh_store SQL (s_sh SQL (j_srv SQL j))); [|done]. done.
  - intros p n l id sig (q & Hq & Hl & _) Hs. apply (f_equal (fun l => l !! p)) in H6. rewrite list_lookup_fmap, Hq in H6. cbn in H6.
    destruct p as [|p]; [|done]. injection H6 as Hlines Hput. rewrite Hlines in Hl. cbn in Hs.
    assert (forall data, sign_verify (g_crypto (demo_env true)) ex_key (ex_sig data) data = true) as Hv.
    { intros data. change (g_crypto (demo_env true)) with toy. apply (sign_ok toy toy_ok); by vm_compute. }
    assert (forall k r, fc_req <$> f_calls (j_fb SQL j) !! k = Some r -> k ∈ g_put q -> given j k 0 r) as Hg.
    { intros k r Hr Hk. split; [by exists q|]. destruct (f_calls (j_fb SQL j) !! k) as [fc|]; [|done]. injection Hr as Hr. by exists fc. }
    destruct Hs as (s & -> & Hp1 & Hp2). destruct n as [|[|n]]; cbn in Hl; [| |done].
    + injection Hl as <- <-. exists 0, (SignReq id1 ex_key (str "pay one")). split; [|split; [done|]].
      * apply Hg; [|rewrite Hput; left]. apply (f_equal (fun l => l !! 0)) in H7. rewrite list_lookup_fmap in H7. exact H7.
      * replace sig with (ex_sig (str "pay one")); [apply Hv|]. 
        rewrite E1 in Hp1. by injection Hp1.
    + injection Hl as <- <-. exists 1, (SignReq id2 ex_key (str "pay all")). split; [|split; [done|]].
      * apply Hg; [|rewrite Hput; right; left]. apply (f_equal (fun l => l !! 1)) in H7. rewrite list_lookup_fmap in H7. exact H7.
      * replace sig with (ex_sig (str "pay all")); [apply Hv|].
        rewrite E2 in Hp1. by injection Hp1.
  - intros p k r Hx. by destruct (Hgiven _ _ _ Hx).
Qed.

(** All that [C68_verifies] asks for. *)
Example C68_ex :
  exists j c rq, reaches SQL (demo_env true) (ex_answered (str "a") (str "b")) j /\ honest (demo_env true) j /\ ids_apart j
    /\ conn_in j 2 c /\ received SQL c 1 rq /\ rq_msg SQL rq = ReqSign (str "b") ex_key None (str "pay all")
    /\ came_unlocked SQL rq /\ undisturbed SQL rq /\ (forall e, kept_in j e -> ed_of e <> Some ex_key)
    /\ answers SQL c 1 = [(ResSign (str "b") (ex_sig (str "pay all")), true)].
Proof.
  destruct (ex_tried (str "a") (str "b") (ResSign (str "b") (ex_sig (str "pay all")))) as (j & c & rq & H1 & H2 & H3 & H4 & H5 & H6 & H7 & H8 & H9 & H10); [by vm_compute|].
  exists j, c, rq. split; [exact H1|]. split; [exact H9|]. split.
  { intros p k1 k2 r1 r2 G1 G2 E. destruct (H10 _ _ _ G1) as [[-> ->]|[-> ->]], (H10 _ _ _ G2) as [[-> ->]|[-> ->]]; done. }
  split; [exact H2|]. split; [exact H3|]. split; [exact H4|]. split; [exact H5|]. split; [exact H6|]. split; [|exact H7].
  intros e He. by destruct (H8 e).
Qed.

(** Clients choose the ids of their requests.  If two requests in progress, on whatever connections, have the same
    id, an honest program does not help: the client that asked for a signature of "pay all" is given one of "pay one". *)
Theorem C68_same_id_refuted :
  exists S (SO : StoreOk S) g es j cid c tid rq id k data sig,
    CryptoOk (g_crypto g) /\ reaches S g es j /\ honest g j
    /\ conn_in j cid c /\ received S c tid rq /\ rq_msg S rq = ReqSign id k None data
    /\ came_unlocked S rq /\ undisturbed S rq /\ (forall e, kept_in j e -> ed_of e <> Some k)
    /\ answers S c tid = [(ResSign id sig, true)] /\ sign_verify (g_crypto g) k sig data = false.
Proof.
  destruct (ex_tried (str "a") (str "a") (ResSign (str "a") (ex_sig (str "pay one")))) as (j & c & rq & H1 & H2 & H3 & H4 & H5 & H6 & H7 & H8 & H9 & H10); [by vm_compute|].
  exists SQL, sql_store_ok, (demo_env true), (ex_answered (str "a") (str "a")), j, 2, c, 1, rq, (str "a"), ex_key, (str "pay all"), (ex_sig (str "pay one")).
  split; [exact toy_ok|]. split; [exact H1|]. split; [exact H9|]. split; [exact H2|]. split; [exact H3|]. split; [exact H4|]. split; [exact H5|].
  split; [exact H6|]. split; [|split; [exact H7|by vm_compute]]. intros e He. by destruct (H8 e).
Qed.
Print Assumptions C68_same_id_refuted.

(** A state at rest with a request in hand: the program was given it and says nothing. *)
Definition ex_silent : list jevent :=
  opened 1 ++ [JSrv (EvReceive 1 (encode_api (ReqSign (str "a") ex_key None (str "pay one"))))] ++ steps 1 1 3
  ++ [JAsk 1 1] ++ map JFb [Get 0 true; Push 0; Take 0; WOk 0].
Definition ex_waiting : sign_req := SignReq (str "a") ex_key (str "pay one").
Definition ex_view (j : joined SQL) :=
  (j_fb SQL j, map fst (map_to_list (s_conns SQL (j_srv SQL j))),
   option_map (fun c => (map fst (map_to_list (c_thr SQL c)), c_thr SQL c !! 1 ≫= to_sign)) (s_conns SQL (j_srv SQL j) !! 1), j_for SQL j !! (1, 1)).

Example C68_silent_ex : exists j, reaches SQL (demo_env true) ex_silent j /\ resting (demo_env true) j /\ in_hand j 1 1.
Proof.
  assert (option_map ex_view (jrun SQL (demo_env true) (jnew SQL) ex_silent) =
    Some (FWorld (Some 0) [Program true false true true [] 0 [] (<[str "a" := 0]> ∅) true WIdle LRun [0]] [FCall ex_waiting (FWait 0) NoMail],
          [1], Some ([1], Some ex_waiting), Some 0)) as Hv by (vm_compute; reflexivity).
  unfold reaches. destruct (jrun SQL (demo_env true) (jnew SQL) ex_silent) as [j|]; [|done]. cbn in Hv. injection Hv as Hf Hk Hc Hj.
  exists j. split; [done|].
  destruct (s_conns SQL (j_srv SQL j) !! 1) as [c|] eqn:Ec; [|done]. cbn in Hc. injection Hc as Ht Hs.
  assert (forall cid tid t, handler SQL (j_srv SQL j) cid tid = Some t -> cid = 1 /\ tid = 1 /\ to_sign t = Some ex_waiting) as Hh.
  { unfold handler. intros cid tid t H. destruct (s_conns SQL (j_srv SQL j) !! cid) as [c'|] eqn:E; [|done].
    assert (cid ∈ map fst (map_to_list (s_conns SQL (j_srv SQL j)))) as H1 by (apply elem_of_list_fmap; exists (cid, c'); split; [done|by apply elem_of_map_to_list]).
    rewrite Hk in H1. apply elem_of_list_singleton in H1 as ->. rewrite E in Ec. injection Ec as ->.
    assert (tid ∈ map fst (map_to_list (c_thr SQL c))) as H2 by (apply elem_of_list_fmap; exists (tid, t); split; [done|by apply elem_of_map_to_list]).
    rewrite Ht in H2. apply elem_of_list_singleton in H2 as ->. rewrite H in Hs. done. }
  split.
  - intros e He. destruct e as [e|cid tid|e].
    + destruct e; try done. cbn [jstep]. destruct (handler SQL (j_srv SQL j) cid tid) as [t|] eqn:E; [|done].
      destruct (Hh _ _ _ E) as (-> & -> & ->). by rewrite Hj, Hf.
    + cbn [jstep]. destruct (handler SQL (j_srv SQL j) cid tid) as [t|] eqn:E; [|done]. destruct (Hh _ _ _ E) as (-> & -> & Hw).
      cbn. by rewrite Hw, Hj.
    + assert (fstep (j_fb SQL j) e = None) as Hn.
      { rewrite Hf. destruct e as [k ?|k|g|g|g|g|g|g|g|k|r'|k|g|g l|g|g|g]; try done; destruct k as [|[|k]] || destruct g as [|[|g]]; done. }
      destruct e; try done; cbn [jstep]; by rewrite Hn.
  - unfold in_hand, handler. rewrite Ec. destruct (c_thr SQL c !! 1); done.
Qed.
