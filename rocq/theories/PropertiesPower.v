(** * PropertiesPower: what was created survives a power cut (C74) *)

From Verif Require Import Base Crypto Toy Types Codec Store StoreProofs Server System ServerSpec ServerVocab
  Lru SystemProofs ServerTheorems InitFile PropertiesInit Power Demo.

(** ** Vocabulary *)

(** The entry is there, after these events. *)
Definition there (g : genv) (evs : list pevent) (e : entry) : Prop :=
  holds sql_store (rows_of (m_sys (prun g evs))) e.

(** [evs'] is [evs] up to some moment. *)
Definition up_to (evs evs' : list event) : Prop :=
  (exists rest, evs = evs' ++ rest)
  \/ exists before d os os' rest, evs = before ++ EvDirect d (os ++ os') :: rest
       /\ evs' = before ++ [EvDirect d os].

(** [evs] is what remains of [pevs] when at each loss of power what happened after
    some earlier moment is left out.  (A loss of power after which less than what was flushed
    would be found does not happen: the last case.) *)
Inductive as_if : list pevent -> list event -> Prop :=
| ai_none : as_if [] []
| ai_event pevs evs e : as_if pevs evs -> as_if (pevs ++ [PEv e]) (evs ++ [e])
| ai_checkpoint pevs evs : as_if pevs evs -> as_if (pevs ++ [PCheckpoint]) evs
| ai_cut pevs evs evs' n junk : as_if pevs evs -> up_to evs evs' ->
    as_if (pevs ++ [PCut n junk]) (evs' ++ [EvRestart])
| ai_no_cut pevs evs n junk : as_if pevs evs -> as_if (pevs ++ [PCut n junk]) evs.

(** ** The table grows row by row *)

Lemma step1_rows g {A} sh u (p : prog A) o :
  let t' := sh_store sql_store (r_sh sql_store (step1 sql_store g sh u p o)) in
  t' = sh_store sql_store sh \/ exists r, t' = sh_store sql_store sh ++ [r].
Proof.
  destruct p; cbn [step1]; try (by left).
  - destruct (o_fail o); [by left|]. cbn [st_write sql_store].
    assert (forall e t, (sql_write t e).2 = t \/ exists r, (sql_write t e).2 = t ++ [r]) as H.
    { intros e' t. unfold sql_write, sql_insert. destruct (seed_info_of e'); case_match; cbn; eauto. }
    specialize (H e (sh_store sql_store sh)). by destruct (sql_write (sh_store sql_store sh) e).
  - destruct (o_fail o); by left.
  - destruct (o_fail o); by left.
  - destruct q; cbn [cache_get]; destruct (lru_get _ _); by left.
  - unfold cache_put. by destruct (f_entry f); left.
  - repeat case_match; by left.
Qed.

Notation rows sh := (sh_store sql_store sh).

Lemma direct_prefix g os : forall sh p, rows sh `prefix_of` rows (run_direct sql_store g sh p os).
Proof.
  induction os as [|o os IH]; intros sh p; [done|]. cbn [run_direct].
  pose proof (step1_rows g sh true p o) as Hs. cbv zeta in Hs.
  set (r := step1 sql_store g sh true p o) in *.
  assert (rows sh `prefix_of` rows (r_sh sql_store r)) as Hp.
  { destruct Hs as [->|[x ->]]; [done|by exists [x]]. }
  destruct (r_prog sql_store r); [|done]. etrans; [exact Hp|apply IH].
Qed.

Lemma direct_rows g os : forall sh p n,
  length (rows sh) <= n <= length (rows (run_direct sql_store g sh p os)) ->
  exists os1 os2, os = os1 ++ os2
    /\ rows (run_direct sql_store g sh p os1) = take n (rows (run_direct sql_store g sh p os)).
Proof.
  induction os as [|o os IH]; intros sh p n Hn.
  - cbn in *. exists [], []. split; [done|]. cbn. by rewrite take_ge by lia.
  - destruct (decide (n = length (rows sh))) as [->|Hne].
    { exists [], (o :: os). split; [done|]. destruct (direct_prefix g (o :: os) sh p) as [k ->].
      cbn [run_direct]. by rewrite take_app. }
    pose proof (step1_rows g sh true p o) as Hs. cbv zeta in Hs. cbn [run_direct] in *.
    set (r := step1 sql_store g sh true p o) in *.
    assert (length (rows (r_sh sql_store r)) <= n) as Hle.
    { destruct Hs as [->|[x ->]]; [lia|]. rewrite app_length. cbn. lia. }
    destruct (r_prog sql_store r) as [p'|] eqn:Er.
    + destruct (IH (r_sh sql_store r) p' n) as (os1 & os2 & -> & H2); [lia|].
      exists (o :: os1), os2. split; [done|]. cbn [run_direct]. fold r. by rewrite Er.
    + exists (o :: os), []. rewrite app_nil_r. split; [done|]. cbn [run_direct]. fold r. rewrite Er.
      by rewrite take_ge by lia.
Qed.

Lemma run_snoc S g evs e : run S g (evs ++ [e]) = step S g (run S g evs) e.
Proof. unfold run. by rewrite fold_left_app. Qed.

(** One event adds at most one row, except that a direct call may add several, one after another. *)
Lemma step_rows g s e :
  rows_of s `prefix_of` rows_of (step sql_store g s e)
  /\ forall n, length (rows_of s) < n <= length (rows_of (step sql_store g s e)) ->
       n = length (rows_of (step sql_store g s e))
       \/ exists d os os', e = EvDirect d (os ++ os')
            /\ rows_of (step sql_store g s (EvDirect d os)) = take n (rows_of (step sql_store g s e)).
Proof.
  assert ((rows_of (step sql_store g s e) = rows_of s \/ exists r, rows_of (step sql_store g s e) = rows_of s ++ [r]) ->
    rows_of s `prefix_of` rows_of (step sql_store g s e)
    /\ forall n, length (rows_of s) < n <= length (rows_of (step sql_store g s e)) ->
         n = length (rows_of (step sql_store g s e))
         \/ exists d os os', e = EvDirect d (os ++ os')
              /\ rows_of (step sql_store g s (EvDirect d os)) = take n (rows_of (step sql_store g s e))) as Hone.
  { intros [->|[r ->]]; (split; [first [done|by exists [r]]|]); intros n Hn; left; [lia|].
    rewrite app_length in Hn |- *. cbn in *. lia. }
  destruct e as [cid rx tx|cid raw|cid tid o|cid tid err|cid|d os|].
  1-5: apply Hone; clear Hone; cbn [step].
  - left. destruct (s_conns _ s !! cid); [done|]. by case_match.
  - left. by destruct (s_conns _ s !! cid).
  - destruct (s_conns _ s !! cid) as [c|]; [|by left].
    unfold step_thread. destruct (c_thr _ c !! tid) as [[p|er]|]; [| |by left].
    + pose proof (step1_rows g (s_sh _ s) (c_unl _ c) p o) as Hs. cbv zeta in Hs.
      destruct (r_prog _ (step1 _ _ _ _ p o)); exact Hs.
    + destruct (c_reqs _ c !! tid); by left.
  - left. by destruct (s_conns _ s !! cid).
  - left. by destruct (s_conns _ s !! cid).
  - cbn [step]. destruct (direct_okb d) eqn:Ed; [|split; [done|intros n; lia]].
    unfold rows_of. cbn [s_sh]. split; [apply direct_prefix|]. intros n Hn. right.
    destruct (direct_rows g os (s_sh _ s) (direct_prog g d) n) as (os1 & os2 & -> & E); [lia|].
    exists d, os1, os2. split; [done|]. rewrite Ed. exact E.
  - cbn [step]. split; [done|]. intros n. unfold rows_of at 2. cbn. unfold sql_reopen, rows_of. lia.
Qed.

Lemma up_to_snoc evs evs' e : up_to evs evs' -> up_to (evs ++ [e]) evs'.
Proof.
  intros [[rest ->]|(b & d & os & os' & rest & -> & ->)].
  - left. exists (rest ++ [e]). by rewrite app_assoc.
  - right. exists b, d, os, os', (rest ++ [e]). split; [|done]. by rewrite <- app_assoc.
Qed.

(** The first rows are what the table was at an earlier moment. *)
Lemma earlier g evs n : n <= length (rows_of (run sql_store g evs)) ->
  exists evs', up_to evs evs' /\ rows_of (run sql_store g evs') = take n (rows_of (run sql_store g evs)).
Proof.
  revert n. induction evs as [|e evs IH] using rev_ind; intros n Hn.
  - exists []. split; [left; by exists []|]. destruct n; [done|cbn in Hn; lia].
  - rewrite run_snoc in Hn |- *. destruct (step_rows g (run sql_store g evs) e) as [[k Hk] H].
    destruct (decide (n <= length (rows_of (run sql_store g evs)))) as [Hle|Hlt].
    + destruct (IH n Hle) as (evs' & Hu & E). exists evs'. split; [by apply up_to_snoc|].
      rewrite E, Hk. by rewrite take_app_le.
    + destruct (H n ltac:(lia)) as [Hl|(d & os & os' & -> & E)].
      * exists (evs ++ [e]). split; [left; exists []; by rewrite app_nil_r|].
        rewrite run_snoc, take_ge by lia. done.
      * exists (evs ++ [EvDirect d os]). split; [|by rewrite run_snoc].
        right. exists evs, d, os, os', []. done.
Qed.

Lemma prun_snoc g evs e : prun g (evs ++ [e]) = pstep g (prun g evs) e.
Proof. unfold prun. by rewrite fold_left_app. Qed.

(** ** C74: what was created survives a power cut *)

(** Whatever happens, power cuts included: the keystore is in the state that it reaches without
    power cuts, when at each of them the process ends and what was done after some earlier
    moment is not done at all.  So everything that is proved of all histories of a server
    holds with power cuts too. *)
Theorem C74_as_if_earlier :
  forall g pevs, exists evs, as_if pevs evs /\ m_sys (prun g pevs) = run sql_store g evs.
Proof.
  intros g pevs. induction pevs as [|e pevs (evs & Ha & E)] using rev_ind.
  - exists []. split; [constructor|done].
  - rewrite prun_snoc. destruct e as [e| |n junk]; cbn [pstep].
    + exists (evs ++ [e]). split; [by constructor|]. cbn [m_sys]. by rewrite run_snoc, E.
    + exists evs. split; [by constructor|done].
    + change (orderly write_settings) with true. cbv iota.
      destruct (Nat.leb _ _); [|exists evs; split; [by constructor|done]].
      destruct (earlier g evs (Nat.min n (length (rows_of (run sql_store g evs))))) as (evs' & Hu & E'); [lia|].
      exists (evs' ++ [EvRestart]). split; [by econstructor|]. cbn [m_sys]. rewrite run_snoc, E. cbn [step].
      unfold started_on. cbn [st_reopen sql_store]. unfold sql_reopen.
      change (sh_store sql_store (s_sh sql_store (run sql_store g evs'))) with (rows_of (run sql_store g evs')).
      rewrite E'. do 2 f_equal. destruct (decide (n <= length (rows_of (run sql_store g evs)))).
      * by rewrite Nat.min_l by done.
      * by rewrite Nat.min_r, !take_ge by lia.
Qed.
Print Assumptions C74_as_if_earlier.

(** *** What is not lost *)

Lemma holds_prefix t t' e : t `prefix_of` t' -> holds sql_store t e -> holds sql_store t' e.
Proof.
  intros [k ->]. unfold holds. cbn [st_get sql_store]. unfold sql_get.
  assert (forall f : row -> bool, find f (t ++ k) = match find f t with Some x => Some x | None => find f k end) as ->.
  { intros f. induction t as [|x t IH]; [done|]. cbn. by destruct (f x). }
  by destruct (find _ t).
Qed.

(** A table that keeps its beginning. *)
Lemma keeps_beginning g t pevs : forall m,
  t `prefix_of` rows_of (m_sys m) -> length t <= m_flushed m ->
  t `prefix_of` rows_of (m_sys (fold_left (pstep g) pevs m))
  /\ length t <= m_flushed (fold_left (pstep g) pevs m).
Proof.
  induction pevs as [|e pevs IH]; intros m Hp Hl; [done|]. cbn [fold_left]. apply IH.
  - destruct e as [e| |n junk]; cbn [pstep]; [|done|].
    + cbn [m_sys]. etrans; [exact Hp|apply step_rows].
    + change (orderly write_settings) with true. cbv iota. destruct (Nat.leb_spec (m_flushed m) n); [|done].
      cbn [m_sys]. unfold started_on, rows_of at 1. cbn. destruct Hp as [k ->].
      rewrite take_app_ge by lia. by eexists.
  - destruct e as [e| |n junk]; cbn [pstep]; [done| |].
    + cbn [m_flushed]. by apply prefix_length.
    + change (orderly write_settings) with true. cbv iota. destruct (Nat.leb_spec (m_flushed m) n); [|done].
      cbn [m_flushed]. destruct Hp as [k ->]. rewrite take_app_ge by lia. rewrite app_length. lia.
Qed.

(** What was there at a checkpoint is there for ever, power cuts or not. *)
Theorem C74_checkpointed :
  forall g p1 p2 e, there g p1 e -> there g (p1 ++ PCheckpoint :: p2) e.
Proof.
  intros g p1 p2 e H. unfold there, prun in *. rewrite fold_left_app. cbn [fold_left pstep].
  eapply holds_prefix; [|exact H]. by apply keeps_beginning.
Qed.
Print Assumptions C74_checkpointed.

Definition is_cut (e : pevent) : bool := match e with PCut _ _ => true | _ => false end.

Lemma no_cut_rows g pevs : existsb is_cut pevs = false -> forall m,
  rows_of (m_sys m) `prefix_of` rows_of (m_sys (fold_left (pstep g) pevs m)).
Proof.
  induction pevs as [|e pevs IH]; [done|]. cbn [existsb]. intros [He Hn]%orb_false_iff m. cbn [fold_left].
  etrans; [|by apply IH]. destruct e as [e| |]; [|done|done]. apply step_rows.
Qed.

(** While the power stays on, nothing is lost, however often the process ends. *)
Theorem C74_power_on :
  forall g p1 p2 e, existsb is_cut p2 = false -> there g p1 e -> there g (p1 ++ p2) e.
Proof.
  intros g p1 p2 e Hc H. unfold there, prun in *. rewrite fold_left_app.
  eapply holds_prefix; [|exact H]. by apply no_cut_rows.
Qed.
Print Assumptions C74_power_on.

(** What a power cut takes are the newest entries: one that survives has all those with it that
    were there before it. *)
Theorem C74_newest_go :
  forall g p1 p2 n junk older newer,
    existsb is_cut p2 = false ->
    there g p1 older -> ~ there g p1 newer ->
    there g (p1 ++ p2 ++ [PCut n junk]) newer -> there g (p1 ++ p2 ++ [PCut n junk]) older.
Proof.
  intros g p1 p2 n junk older newer Hc Ho Hn. unfold there, prun in *. rewrite !fold_left_app. cbn [fold_left].
  set (m := fold_left (pstep g) p1 _) in *. pose proof (no_cut_rows g p2 Hc m) as Hp.
  set (m' := fold_left (pstep g) p2 m) in *. cbn [pstep]. change (orderly write_settings) with true. cbv iota.
  destruct (Nat.leb (m_flushed m') n); [|by intros _; eapply holds_prefix].
  cbn [m_sys]. unfold started_on, rows_of at 1 3. cbn [s_sh fresh_shared sh_store]. destruct Hp as [k Hk].
  destruct (decide (n <= length (rows_of (m_sys m)))) as [Hle|Hgt].
  - rewrite Hk, take_app_le by done. intros H. exfalso. apply Hn. eapply holds_prefix; [|exact H].
    exists (drop n (rows_of (m_sys m))). by rewrite take_drop.
  - intros _. rewrite Hk, take_app_ge by lia. eapply holds_prefix; [|exact Ho]. by eexists.
Qed.
Print Assumptions C74_newest_go.

(** *** What is lost *)

Lemma events_flush_nothing g evs m : m_flushed (fold_left (pstep g) (map PEv evs) m) = m_flushed m.
Proof. revert m. induction evs as [|ev evs IH]; intros m; [done|]. cbn [map fold_left]. by rewrite IH. Qed.

Lemma cut_back g p1 evs junk :
  rows_of (m_sys (prun g (p1 ++ PCheckpoint :: map PEv evs ++ [PCut (length (rows_of (m_sys (prun g p1)))) junk])))
  = rows_of (m_sys (prun g p1)).
Proof.
  unfold prun. rewrite app_comm_cons, app_assoc, fold_left_app.
  rewrite fold_left_app. cbn [fold_left pstep].
  set (m := fold_left (pstep g) p1 _) in *.
  rewrite events_flush_nothing. cbn [m_flushed]. change (orderly write_settings) with true. cbv iota. rewrite Nat.leb_refl.
  cbn [m_sys]. unfold started_on, rows_of at 1. cbn [s_sh fresh_shared sh_store].
  assert (existsb is_cut (map PEv evs) = false) as Hc by (clear; by induction evs).
  destruct (no_cut_rows g (map PEv evs) Hc (Machine (m_sys m) (length (rows_of (m_sys m))))) as [k Hk].
  cbn [m_sys] in Hk. rewrite Hk, take_app. done.
Qed.

(** False of the code: everything made since the last checkpoint can be lost.  Commits are
    not flushed. *)
Theorem C74_recent_refuted :
  forall g p1 evs e, ~ there g p1 e -> there g (p1 ++ PCheckpoint :: map PEv evs) e ->
    exists n, forall junk, ~ there g (p1 ++ PCheckpoint :: map PEv evs ++ [PCut n junk]) e.
Proof.
  intros g p1 evs e Hn _. exists (length (rows_of (m_sys (prun g p1)))). intros junk. unfold there. by rewrite cut_back.
Qed.
Print Assumptions C74_recent_refuted.

(** An entry is safe from power cuts exactly when it was there at the last checkpoint. *)
Theorem C74_exactly :
  forall g p1 evs e,
    (forall n junk, there g (p1 ++ PCheckpoint :: map PEv evs ++ [PCut n junk]) e) <-> there g p1 e.
Proof.
  intros g p1 evs e. split; [|by intros H n junk; apply C74_checkpointed].
  intros H. specialize (H (length (rows_of (m_sys (prun g p1)))) []). unfold there in *. by rewrite cut_back in H.
Qed.
Print Assumptions C74_exactly.

Lemma cut_all_away g m junk e : m_flushed m = 0 -> ~ holds sql_store (rows_of (m_sys (pstep g m (PCut 0 junk)))) e.
Proof. intros H. cbn [pstep]. rewrite H. done. Qed.

(** So it is for a client that was told of its new seed. *)
Definition ex_new_seed : list event :=
  demo_open 1 ++ ask 1 1 (ReqNewSeed (str "a") (str "seed") None true) x0a.
Theorem C74_told_refuted :
  exists g evs cid c tid rq id t si,
    CryptoOk (g_crypto g) /\ conn_at sql_store g evs cid c /\ received sql_store c tid rq
    /\ rq_msg sql_store rq = ReqNewSeed id t None true /\ undisturbed sql_store rq
    /\ delivered sql_store c tid (ResNewSeed id t si)
    /\ forall junk e, there g (map PEv evs ++ [PCut 0 junk]) e -> tag_of e <> t.
Proof.
  destruct (answer_checked sql_store (demo_env false) ex_new_seed 1 1
    (ReqNewSeed (str "a") (str "seed") None true)
    (ResNewSeed (str "a") (str "seed") (SeedInfo (fill 32 x0a) (fill 32 x0a) true))
    (fun _ _ => true)) as (c & rq & H1 & H2 & H3 & H4 & H5 & H6 & H7); [by vm_compute|].
  exists (demo_env false), ex_new_seed, 1, c, 1, rq, (str "a"), (str "seed"),
    (SeedInfo (fill 32 x0a) (fill 32 x0a) true).
  split; [exact toy_ok|]. split; [exact H1|]. split; [exact H2|]. split; [exact H3|].
  split; [exact H5|]. split.
  - clear -H6. unfold answers in H6. unfold delivered.
    assert ((ResNewSeed (str "a") (str "seed") (SeedInfo (fill 32 x0a) (fill 32 x0a) true), true)
      ∈ omap (fun x : nat * api * bool => match x with (t, m, b) => if Nat.eqb t 1 then Some (m, b) else None end)
          (c_log sql_store c)) as H by (rewrite H6; constructor).
    apply elem_of_list_omap in H as ([[t m] b] & Hin & E). destruct (Nat.eqb_spec t 1); [|done].
    subst t. by injection E as -> ->.
  - intros junk e H. exfalso. unfold there in H. rewrite prun_snoc in H.
    eapply cut_all_away; [|exact H]. unfold prun. by rewrite events_flush_nothing.
Qed.
Print Assumptions C74_told_refuted.

(** A seed that is there at a checkpoint and one that is made after it, a power cut, and a third
    seed under the tag of the second. *)
Example C74_ex :
  let evs1 := demo_open 1 ++ ask 1 1 (ReqNewSeed (str "a") (str "one") None true) x0a in
  let evs2 := ask 1 2 (ReqNewSeed (str "b") (str "two") None true) x0b in
  let evs3 := demo_open 2 ++ ask 2 1 (ReqNewSeed (str "c") (str "two") None true) x0c in
  let tags p := map r_tag (rows_of (m_sys (prun (demo_env false) p))) in
  let before := map PEv evs1 ++ [PCheckpoint] ++ map PEv evs2 in
  tags before = [str "one"; str "two"]
  /\ tags (before ++ [PCut 1 []]) = [str "one"]
  /\ tags (before ++ [PCut 1 []] ++ map PEv evs3) = [str "one"; str "two"]
  /\ tags (before ++ [PCut 2 []]) = [str "one"; str "two"]
  /\ tags (before ++ [PCut 0 []]) = [str "one"; str "two"]   (* not possible, nothing happens *)
  /\ m_flushed (prun (demo_env false) before) = 1.
Proof. by vm_compute. Qed.

(** *** The configuration *)

Lemma safe_file_stays w : f_safe w = true ->
  (forall r c, d_runs (f_dir w) !! r = Some c -> writing c -> c = IDone) -> is_Some (d_file (f_dir w)) ->
  forall evs, d_file (f_dir (fold_left fstep evs w)) = d_file (f_dir w).
Proof.
  intros Hs Hw [t Ht] evs. rewrite Ht. revert w Hs Hw Ht. induction evs as [|e evs IH]; intros w Hs Hw Hf; [done|].
  cbn [fold_left].
  destruct e as [e| |found]; cbn [fstep].
  - assert (d_file (istep (f_dir w) e) = Some t
      /\ forall r c, d_runs (istep (f_dir w) e) !! r = Some c -> writing c -> c = IDone) as [H1 H2].
    { destruct e as [r|r|r text|r n|r]; cbn [istep].
      - destruct (d_runs (f_dir w) !! r) eqn:E; [done|]. split; [done|].
        cbn. intros r' c [[-> ->]|[_ H]]%lookup_set; [done|eauto].
      - destruct (d_runs (f_dir w) !! r) as [[| | |[|]| |]|] eqn:E; try done.
        + rewrite Hf. split; [done|]. cbn. intros r' c [[-> ->]|[_ H]]%lookup_set; [done|eauto].
        + rewrite Hf. split; [done|]. cbn. intros r' c [[-> ->]|[_ H]]%lookup_set; [done|eauto].
        + split; [done|]. cbn. intros r' c [[-> ->]|[_ H]]%lookup_set; [done|eauto].
      - destruct (d_runs (f_dir w) !! r) as [[| | |[|]| |]|] eqn:E; try done.
        split; [done|]. cbn. intros r' c [[-> ->]|[_ H]]%lookup_set; [done|eauto].
      - destruct (d_runs (f_dir w) !! r) as [[| | |rest| |]|] eqn:E; try done. by specialize (Hw _ _ E I).
      - split; [done|]. cbn. intros r' c [_ H]%lookup_delete_Some. eauto. }
    apply IH; cbn [f_dir f_safe]; [|done|done]. rewrite Hs, H1, Hf. by rewrite bool_decide_eq_true_2.
  - by apply IH.
  - rewrite Hs. apply IH; cbn [f_dir f_safe idle d_file d_runs]; [done|by intros r c; rewrite lookup_empty|done].
Qed.

Lemma fdisk_inv evs : iinv (fun _ => True) (f_dir (frun evs)).
Proof.
  induction evs as [|e evs IH] using rev_ind; [by split|]. unfold frun in *. rewrite fold_left_app. cbn [fold_left].
  set (w := fold_left fstep evs _) in *. destruct e as [e| |found]; cbn [fstep].
  - cbn [f_dir]. by apply iinv_step.
  - done.
  - assert (forall f, iinv (fun _ => True) (idle f)) as Hidle.
    { intros f. split; cbn [idle d_file d_runs].
      - intros r t H. by rewrite lookup_empty in H.
      - intros _ r c H. by rewrite lookup_empty in H.
      - intros f' _. exists f', []. rewrite app_nil_r. split; [done|]. split; [done|]. split.
        + intros r rest H. by rewrite lookup_empty in H.
        + intros r H. by rewrite lookup_empty in H.
      - intros r c r' c' H. by rewrite lookup_empty in H. }
    destruct (f_safe w); [apply Hidle|]. destruct (may_find _ _); [apply Hidle|exact IH].
Qed.

(** A configuration that init reported as made, and that the system has brought to the disk since,
    stays, power cuts or not. *)
Theorem C74_configuration :
  forall evs r more, succeeded (f_dir (frun evs)) r ->
    exists text, d_file (f_dir (frun evs)) = Some text
      /\ d_file (f_dir (frun (evs ++ FFlush :: more))) = Some text.
Proof.
  intros evs r more Hs. pose proof (fdisk_inv evs) as I. unfold succeeded in Hs.
  assert (is_Some (d_file (f_dir (frun evs)))) as [text Ht].
  { destruct (d_file (f_dir (frun evs))) eqn:E; [by eexists|]. exfalso. by eapply (i_none _ _ I E _ _ Hs). }
  exists text. split; [done|]. unfold frun in *. rewrite fold_left_app. cbn [fold_left fstep].
  rewrite safe_file_stays; [exact Ht|done| |by exists text]. cbn [f_dir].
  intros r' c H Hc. assert (r' = r) as -> by (by eapply (i_one _ _ I _ _ _ _ H Hs)). congruence.
Qed.
Print Assumptions C74_configuration.

(** False of the code: init reports a configuration as made that is not on the disk.  After a power
    cut it may be gone, or there may be any beginning of it, which no later run replaces. *)
Theorem C74_configuration_refuted :
  forall text found, (forall part, found = Some part -> part `prefix_of` text) ->
    exists evs, succeeded (f_dir (frun evs)) 0 /\ d_file (f_dir (frun evs)) = Some text
      /\ f_dir (frun (evs ++ [FCut found])) = idle found
      /\ forall part more, found = Some part -> d_file (irun (idle found) more) = Some part
            /\ forall r, ~ succeeded (irun (idle found) more) r.
Proof.
  intros text found Hl0.
  assert (may_find (Some text) found = true) as Hl.
  { destruct found as [part|]; [|done]. destruct (Hl0 part eq_refl) as [k ->]. cbn. rewrite take_app. apply beq_refl. }
  exists (map FRun (steps_to_write 0 text ++ [IChunk 0 (length text); IStep 0])).
  assert (forall evs w, f_dir (fold_left fstep (map FRun evs) w) = irun (f_dir w) evs) as Hd.
  { clear. intros evs. induction evs as [|e evs IH]; intros w; [done|]. cbn [map fold_left fstep]. by rewrite IH. }
  destruct (C53_run_again [] 0 text eq_refl eq_refl) as [H1 H2]. cbv zeta in H1, H2.
  change (irun (idle None) []) with (idle None) in H1, H2.
  change [IStart 0; IStep 0; IText 0 text; IStep 0] with (steps_to_write 0 text) in H1, H2.
  set (steps := steps_to_write 0 text ++ [IChunk 0 (length text); IStep 0]) in *.
  assert (forall w, f_safe w = false -> forall evs, f_safe (fold_left fstep (map FRun evs) w) = false) as Hf.
  { clear. intros w H evs. revert w H. induction evs as [|e evs IH]; intros w H; [done|]. cbn [map fold_left fstep].
    apply IH. cbn. by rewrite H. }
  unfold frun. rewrite Hd. split; [exact H1|]. split; [exact H2|]. split.
  - rewrite fold_left_app. cbn [fold_left fstep].
    assert (f_safe (fold_left fstep (map FRun steps) (FDisk (idle None) true)) = false) as ->.
    { unfold steps. rewrite map_app, fold_left_app. apply Hf. done. }
    rewrite Hd. cbn [f_dir]. rewrite H2, Hl. done.
  - intros part more ->. apply C53_never_overwrites.
Qed.
Print Assumptions C74_configuration_refuted.

(** A power cut leaves of the file all, a beginning, or nothing, and puts nothing in its place. *)
Theorem C74_configuration_found :
  forall evs found text, d_file (f_dir (frun (evs ++ [FCut found]))) = Some text ->
    exists whole, d_file (f_dir (frun evs)) = Some whole /\ text `prefix_of` whole.
Proof.
  intros evs found text. unfold frun. rewrite fold_left_app. cbn [fold_left fstep].
  destruct (fold_left fstep evs (FDisk (idle None) true)) as [d safe]. cbn [f_dir f_safe].
  destruct safe; cbn [f_dir idle d_file]; [intros ->; by exists text|].
  destruct found as [part|]; cbn [may_find].
  - destruct (d_file d) as [whole|] eqn:E; [|cbn [f_dir]; congruence].
    destruct (beq part (take (length part) whole)) eqn:Eb; cbn [f_dir idle d_file].
    + intros [= ->]. exists whole. split; [done|]. apply beq_true in Eb. rewrite Eb. exists (drop (length text) whole).
      by rewrite take_drop.
    + rewrite E. intros [= ->]. by exists text.
  - destruct (d_file d); done.
Qed.
Print Assumptions C74_configuration_found.

(** The configuration is gone, and the next run makes another. *)
Example C74_configuration_ex :
  let init r text := map FRun [IStart r; IStep r; IText r text; IStep r; IChunk r 9; IStep r] in
  d_file (f_dir (frun (init 1 (str "one") ++ [FCut None] ++ init 2 (str "two"))))%N = Some (str "two")
  /\ d_file (f_dir (frun (init 1 (str "one") ++ [FFlush; FCut None] ++ init 2 (str "two"))))%N = Some (str "one")
  /\ d_file (f_dir (frun (init 1 (str "one") ++ [FCut (Some (str "o"))] ++ init 2 (str "two"))))%N = Some (str "o").
Proof. by vm_compute. Qed.
