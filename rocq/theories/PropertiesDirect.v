(** * PropertiesDirect: what callers of the store itself are told (C07), how requests are taken in (C04) *)

From Verif Require Import Base Utf8 Crypto Toy Types Codec CodecProofs2 Secret Store StoreProofs Lru Server System ServerSpec
  ServerVocab SystemProofs ServerTheorems PropertiesServer1 Demo.

(** ** The outcome of a call of the store *)

(** Such a call makes its draws and then, last, writes one entry and returns what came of it. *)
Fixpoint last_write (p : prog (res unit)) : Prop :=
  match p with
  | Ret (Err _) => True
  | Rand n k => forall b, length b = n -> last_write (k b)
  | CertGen k => (forall e, last_write (k (Err e))) /\ forall gc, gencert_okb gc = true -> last_write (k (Ok gc))
  | StWrite e k => entry_ok e /\ k (Ok tt) = Ret (Ok tt) /\ forall x, k (Err x) = Ret (Err x)
  | _ => False
  end.

Section Calls.
  Variable S : store_impl.
  Variable SO : StoreOk S.
  Variable g : genv.
  Hypothesis HC : CryptoOk (g_crypto g).
  Let C := g_crypto g.

  Lemma ret_stays sh (v : res unit) os : run_direct S g sh (Ret v) os = sh.
  Proof. induction os as [|o os IH]; [done|]. exact IH. Qed.
  Lemma ret_told sh (v : res unit) os : direct_told S g sh (Ret v) os = Some v.
  Proof. by destruct os. Qed.

  (** Either the store is as it was and the caller is not told that all went well, or an entry was written
      and the caller is told what the store said. *)
  Lemma told os : forall sh p, last_write p ->
    (run_direct S g sh p os = sh /\ forall v, direct_told S g sh p os <> Some (Ok v))
    \/ exists e v, entry_ok e /\ st_write S (sh_store S sh) e = (v, sh_store S (run_direct S g sh p os))
         /\ direct_told S g sh p os = Some v.
  Proof.
    induction os as [|o os IH]; intros sh p Hp.
    { left. split; [done|]. by destruct p as [[|]| | | | | | | | | | | |]. }
    destruct p as [[v|e]| | |n k|e k| | | | |k| | |]; try done.
    - left. split; [by rewrite ret_stays|]. by rewrite ret_told.
    - cbn [run_direct direct_told step1 r_prog r_sh]. apply IH, Hp. by rewrite fit_length.
    - destruct Hp as (He & Hk & Hx). cbn [run_direct direct_told step1].
      destruct (o_fail o); cbn [r_prog r_sh].
      { rewrite Hx, ret_stays, ret_told. by left. }
      right. destruct (st_write S (sh_store S sh) e) as [v s'] eqn:Ew. cbn [r_prog r_sh].
      exists e, v. split; [done|]. rewrite Ew. destruct v as [[]|x]; [rewrite Hk|rewrite Hx]; by rewrite ret_stays, ret_told.
    - destruct Hp as [H1 H2]. cbn [run_direct direct_told step1].
      destruct (o_cert o) as [gc|]; [destruct (g_rcgen g gc && gencert_okb gc) eqn:E|]; cbn [r_prog r_sh]; apply IH; auto.
      apply H2. by apply andb_true_iff in E as [_ ->].
  Qed.

  Lemma direct_last d : direct_okb d = true -> last_write (direct_prog g d).
  Proof.
    assert (forall seed, length seed = 32 -> forall x, seed_info_ok (SeedInfo (sign_pk C seed) (box_pk C seed) x)) as Hsi.
    { intros seed Hl x. split; [by apply (sign_pk_len C HC)|by apply (x_base_len C HC), (box_sk_len C HC)]. }
    assert (forall seed k hdr, length seed = 32 -> length hdr = 24 -> secret_ok 49 (sec_encrypt C k hdr seed)) as Hsec.
    { intros seed k hdr Hl Hh. change 49 with (32 + ABYTES). rewrite <- Hl at 1. by apply (sec_encrypt_ok C HC). }
    assert (forall seed t x, length seed = 32 -> text_ok t -> last_write (ignore (insert_seed g seed t x))) as H1.
    { intros seed t x Hl Ht. cbn. intros hdr Hh. split; [|done]. split; [done|]. split; [by apply Hsi|by apply Hsec]. }
    assert (forall seed t ops mem p x, length seed = 32 -> text_ok t -> u32_ok ops -> u32_ok mem ->
      last_write (ignore (insert_deep_locked_seed g seed t ops mem p x))) as H2.
    { intros seed t ops mem p x Hl Ht Ho Hm. cbn. intros salt Hs. fold C.
      destruct (argon2id C p salt ops mem); cbn; [|done]. intros hdr Hh. split; [|done].
      split; [done|]. split; [by apply Hsi|]. split; [done|]. split; [done|]. split; [done|]. by apply Hsec. }
    destruct d as [t x|sd t x|t o m p x|sd t o m p x|t]; cbn [direct_okb direct_prog];
      rewrite ?andb_true_iff, ?Nat.eqb_eq; unfold u32_okb; rewrite ?N.ltb_lt.
    - intros Ht%text_okb_ok. cbn. intros seed Hl. by apply (H1 seed).
    - intros [Hl Ht%text_okb_ok]. by apply H1.
    - intros [[[Ht%text_okb_ok Ho] Hm] Hp]. cbn. intros seed Hl. by apply (H2 seed).
    - intros [[[[Hl Ht%text_okb_ok] Ho] Hm] Hp]. by apply H2.
    - intros Ht%text_okb_ok. cbn. split; [done|]. intros gc Hgc hdr Hh. split; [|done].
      unfold gencert_okb in Hgc. rewrite !andb_true_iff, !N.ltb_lt in Hgc. destruct Hgc as [[[G1 G2] G3] G4].
      split; [done|]. split.
      + split; [split; [done|cbn in *; lia]|]. split; [apply (blake2b_len C HC)|unfold bin_ok; cbn in *; lia].
      + split; [done|]. unfold bin_ok. cbn [s_cipher sec_encrypt]. rewrite (ss_push_len C HC). unfold ABYTES. lia.
  Qed.
End Calls.

(** The caller of a function of the store is told that it went well exactly when an entry was stored, which
    is as asked for; when told of an error, or when the call is given up, the store holds what it held. *)
Theorem C07_direct_told :
  forall S (SO : StoreOk S) g, CryptoOk (g_crypto g) ->
  forall evs d os,
    match direct_result S g (run S g evs) d os with
    | Some (Ok _) => exists e, ~ stored S g evs e /\ direct_asked g d e
        /\ forall e', stored S g (evs ++ [EvDirect d os]) e' <-> stored S g evs e' \/ e' = e
    | Some (Err _) | None => forall e, stored S g (evs ++ [EvDirect d os]) e <-> stored S g evs e
    end.
Proof.
  intros S SO g HC evs d os.
  destruct (reach S SO g HC evs) as (L & HL & _ & HLe).
  destruct (step_inv S SO g HC L (run S g evs) (EvDirect d os) HL) as (L' & HL' & Hc).
  rewrite <- run_snoc in HL'.
  pose proof (lists_all S SO g L' (evs ++ [EvDirect d os]) HL') as HLe'.
  unfold direct_result. destruct (direct_okb d) eqn:Ed.
  2: { intros e. unfold stored, store_at. rewrite run_snoc. cbn [step]. by rewrite Ed. }
  destruct (told S g os (s_sh S (run S g evs)) (direct_prog g d) (direct_last g HC d Ed)) as [[Hr Ht]|(e & v & He & Hw & Ht)].
  - assert (forall e, stored S g (evs ++ [EvDirect d os]) e <-> stored S g evs e) as Hs.
    { intros e. unfold stored, store_at. rewrite run_snoc. cbn [step]. rewrite Ed. cbn [s_sh]. by rewrite Hr. }
    destruct (direct_told _ _ _ _ _) as [[v|x]|]; try exact Hs. by specialize (Ht v).
  - rewrite Ht. pose proof HL as ((Hrel & Hd & _) & _).
    pose proof (st_write_ok S SO _ L e Hrel He) as Hok. rewrite Hw in Hok. cbn [fst snd] in Hok.
    unfold spec_write in Hok. destruct (taken L e) eqn:Et.
    + destruct Hok as [Hv Hrel']. destruct v as [|x]; [done|]. intros e'. rewrite <- HLe.
      unfold stored, store_at. rewrite run_snoc. cbn [step]. rewrite Ed. cbn [s_sh].
      symmetry. by apply (rel_holds S SO).
    + destruct Hok as [-> Hrel'].
      assert (forall e', e' ∈ L ++ [e] <-> stored S g (evs ++ [EvDirect d os]) e') as Hs.
      { intros e'. unfold stored, store_at. rewrite run_snoc. cbn [step]. rewrite Ed. cbn [s_sh].
        apply (rel_holds S SO); [exact Hrel'|by apply distinct_snoc]. }
      assert (e ∉ L) as Hnew.
      { intros Hin. assert (taken L e = true) as Ht'; [|congruence]. apply taken_spec. exists (ByTag (tag_of e)), e.
        split; [apply keys_tag|]. split; [done|apply keys_tag]. }
      exists e. split; [by rewrite <- HLe|]. split.
      * assert (e ∈ L') as Hin. { apply HLe', Hs, elem_of_app. right. by constructor. }
        cbn [change] in Hc. destruct Hc as [->|(e2 & -> & Ha)]; [done|].
        apply elem_of_app in Hin as [Hin| ->%elem_of_list_singleton]; [done|exact Ha].
      * intros e'. rewrite <- Hs, <- HLe, elem_of_app, elem_of_list_singleton. done.
Qed.
Print Assumptions C07_direct_told.

(** No entry has this tag or one of the public keys of this seed. *)
Definition unused (S : store_impl) (g : genv) (evs : list event) (tag seed : bytes) : Prop :=
  forall e, stored S g evs e ->
    tag_of e <> tag /\ ed_of e <> Some (sign_pk (g_crypto g) seed) /\ x_of e <> Some (box_pk (g_crypto g) seed).

Lemma write_works S (SO : StoreOk S) g (HC : CryptoOk (g_crypto g)) evs e seed :
  unused S g evs (tag_of e) seed -> entry_ok e ->
  (forall si, seed_info_of e = Some si -> si_ed si = sign_pk (g_crypto g) seed /\ si_x si = box_pk (g_crypto g) seed) ->
  fst (st_write S (sh_store S (s_sh S (run S g evs))) e) = Ok tt.
Proof.
  intros Hun He Hsi. destruct (reach S SO g HC evs) as (L & ((Hr & Hd & _) & _) & _ & HL).
  assert (taken L e = false) as Ht.
  { destruct (taken L e) eqn:E; [|done]. apply taken_spec in E as (k & e' & Hk & He' & Hk').
    destruct (Hun e') as (U1 & U2 & U3); [by apply HL|].
    apply keys_cases in Hk, Hk'.
    destruct Hk as [->|(si & Hsi1 & Hk)].
    - destruct Hk' as [[= E]|(si' & _ & [?|?])]; [by rewrite E in U1|done|done].
    - destruct (Hsi si Hsi1) as [E1 E2]. destruct Hk' as [->|(si' & Hsi' & Hk')]; [by destruct Hk|].
      unfold ed_of, x_of in U2, U3. rewrite Hsi' in U2, U3. cbn in U2, U3.
      destruct Hk as [-> | ->], Hk' as [[= E]|[= E]]; congruence. }
  pose proof (st_write_ok S SO _ L e Hr He) as Hw. unfold spec_write in Hw. rewrite Ht in Hw. apply Hw.
Qed.

(** [d] is the call that puts a given seed under a tag; the passphrase of a deep lock can be hashed. *)
Definition inserts (C : Crypto) (d : direct) (seed tag : bytes) : Prop :=
  match d with
  | DInsertSeed s t _ => s = seed /\ t = tag
  | DInsertDeep s t ops mem p _ => s = seed /\ t = tag
      /\ forall salt, length salt = 16 -> is_ok (argon2id C p salt ops mem) = true
  | _ => False
  end.

(** When nothing fails outside and neither the tag nor the keys are in use, the seed is stored: the caller is
    told so (and [C07_direct_told] says what that means). *)
Theorem C07_direct_works :
  forall S (SO : StoreOk S) g, CryptoOk (g_crypto g) ->
  forall evs d seed tag o1 o2 o3 os,
    inserts (g_crypto g) d seed tag -> direct_okb d = true -> unused S g evs tag seed ->
    o_fail o1 = false -> o_fail o2 = false -> o_fail o3 = false ->
    direct_result S g (run S g evs) d (o1 :: o2 :: o3 :: os) = Some (Ok tt).
Proof.
  intros S SO g HC evs d seed tag o1 o2 o3 os Hd Hok Hun F1 F2 F3. unfold direct_result. rewrite Hok.
  pose proof (direct_last g HC d Hok) as Hlast. set (C := g_crypto g) in *.
  destruct d as [| s t x| |s t ops mem p x|]; try done.
  - destruct Hd as [-> ->]. cbn in Hlast. specialize (Hlast (fit 24 (o_rand o1)) (fit_length _ _)) as (He & _ & _).
    unfold direct_prog, insert_seed, ignore, rand. cbn [bindr bind orelse direct_told step1 r_prog r_sh]. rewrite F2. fold C.
    change HEADERBYTES with 24.
    pose proof (write_works S SO g HC evs (ESeed tag (SeedInfo (sign_pk C seed) (box_pk C seed) x)
      (sec_encrypt C (g_bidi g) (fit 24 (o_rand o1)) seed)) seed Hun He (fun si E => ltac:(injection E as <-; done))) as Hw.
    fold C in Hw. destruct (st_write S _ _) as [v s']. cbn [fst] in Hw. subst v. cbn [r_prog r_sh bind orelse]. done.
  - destruct Hd as (-> & -> & Ha). cbn in Hlast. specialize (Hlast (fit 16 (o_rand o1)) (fit_length _ _)). fold C in Hlast.
    specialize (Ha (fit 16 (o_rand o1)) (fit_length _ _)).
    unfold direct_prog, insert_deep_locked_seed, ignore, rand. cbn [bindr bind orelse direct_told step1 r_prog r_sh]. fold C.
    destruct (argon2id C p (fit 16 (o_rand o1)) ops mem) as [k|]; [|done]. cbn in Hlast.
    specialize (Hlast (fit 24 (o_rand o2)) (fit_length _ _)) as (He & _ & _).
    cbn [bindr bind orelse direct_told step1 r_prog r_sh]. rewrite F3. fold C. change HEADERBYTES with 24.
    pose proof (write_works S SO g HC evs (EDeep tag (SeedInfo (sign_pk C seed) (box_pk C seed) x) (fit 16 (o_rand o1)) ops mem
      (sec_encrypt C k (fit 24 (o_rand o2)) seed)) seed Hun He (fun si E => ltac:(injection E as <-; done))) as Hw.
    fold C in Hw. destruct (st_write S _ _) as [v s']. cbn [fst] in Hw. subst v. cbn [r_prog r_sh bind orelse]. by destruct os.
Qed.
Print Assumptions C07_direct_works.

(** A seed is put in, a second one is refused the same tag, and one under a deep lock is given up halfway. *)
Definition ex_direct (d : direct) (n : nat) := EvDirect d (take n [fine x01; fine x02; fine x03]).
Example C07_direct_ex :
  let g := demo_env false in
  let a := DInsertSeed (fill 32 x09) (str "a") true in
  let b := DInsertSeed (fill 32 x0a) (str "a") true in
  let c := DInsertDeep (fill 32 x0a) (str "c") 2 3 (fill 64 x01) true in
  let os := [fine x01; fine x02; fine x03] in
  let evs := [EvDirect a os] in
  direct_okb a = true /\ inserts (g_crypto g) a (fill 32 x09) (str "a") /\ unused sql_store g [] (str "a") (fill 32 x09)
  /\ inserts (g_crypto g) c (fill 32 x0a) (str "c")
  /\ direct_result sql_store g (run sql_store g []) a os = Some (Ok tt)
  /\ option_map is_ok (direct_result sql_store g (run sql_store g evs) b os) = Some false
  /\ direct_result sql_store g (run sql_store g evs) c (take 2 os) = None
  /\ direct_result sql_store g (run sql_store g evs) c os = Some (Ok tt).
Proof.
  cbv zeta. split; [by vm_compute|]. split; [done|]. split; [by intros e He; vm_compute in He|].
  split; [by split; [done|split; [done|]]; intros salt _; vm_compute|]. vm_compute. repeat split.
Qed.

(** ** Taking requests in (C04) *)

(** Received, and not yet dealt with. *)
Definition in_progress {S} (c : conn S) (tid : nat) : Prop := (exists rq, received S c tid rq) /\ ~ finished S c tid.

Lemma reads m : api_ok m -> decode_api (encode_api m) = Ok m.
Proof. intros H. rewrite <- (app_nil_r (encode_api m)). by apply decode_encode_api. Qed.

Section Intake.
  Variable S : store_impl.
  Variable g : genv.

  Definition within_limit (c : conn S) : Prop := (N.of_nat (size (c_thr S c)) <= 4096)%N.

  Lemma size_insert_old {A} (m : gmap nat A) k a b : m !! k = Some a -> size (<[k := b]> m) = size m.
  Proof. intros H. rewrite map_size_insert, H. done. Qed.
  Lemma size_insert_le {A} (m : gmap nat A) k a : size (<[k := a]> m) <= 1 + size m.
  Proof. rewrite map_size_insert. destruct (m !! k); cbn; lia. Qed.
  Lemma size_delete_le {A} (m : gmap nat A) k : size (delete k m) <= size m.
  Proof. rewrite map_size_delete. destruct (m !! k); cbn; lia. Qed.

  Lemma step_limit s ev : (forall cid c, s_conns S s !! cid = Some c -> within_limit c) ->
    forall cid c, s_conns S (step S g s ev) !! cid = Some c -> within_limit c.
  Proof.
    intros H cid c Hc.
    assert (forall sh' cid' c', within_limit c' ->
      s_conns S (Sys S sh' (<[cid' := c']> (s_conns S s))) !! cid = Some c -> within_limit c) as Hins.
    { intros sh' cid' c' Hw. cbn [s_conns]. destruct (decide (cid' = cid)) as [->|Hne].
      - rewrite lookup_insert. by intros [= <-].
      - rewrite lookup_insert_ne by done. apply H. }
    destruct ev as [cid' rx tx|cid' raw|cid' tid o|cid' tid e|cid'|d os|]; cbn [step] in Hc.
    - destruct (s_conns S s !! cid') as [c'|]; [by eapply H|]. destruct (_ && _); [|by eapply H].
      eapply Hins; [|exact Hc]. unfold within_limit. cbn [connect c_thr]. rewrite map_size_empty. lia.
    - destruct (s_conns S s !! cid') as [c'|] eqn:E; [|by eapply H]. eapply Hins; [|exact Hc].
      pose proof (H _ _ E) as Hw. unfold receive.
      destruct (c_open S c' && N.ltb (N.of_nat (size (c_thr S c'))) MAX_TASKS) eqn:Eo; [|done].
      apply andb_true_iff in Eo as [_ Hlt]. apply N.ltb_lt in Hlt.
      destruct (decode_api raw) as [a|]; [|done]. unfold within_limit. cbn [c_thr]. unfold set_thr.
      change MAX_TASKS with 4096%N in Hlt.
      destruct (settle _) as [t|].
      + pose proof (size_insert_le (c_thr S c') (length (c_reqs S c')) t). lia.
      + pose proof (size_delete_le (c_thr S c') (length (c_reqs S c'))). unfold within_limit in Hw. lia.
    - destruct (s_conns S s !! cid') as [c'|] eqn:E; [|by eapply H].
      pose proof (H _ _ E) as Hw.
      destruct (step_thread S g (s_sh S s) c' tid o) as [sh' c''] eqn:Es. eapply Hins; [|exact Hc].
      unfold step_thread in Es. destruct (c_thr S c' !! tid) as [[p|e]|] eqn:Et.
      + destruct (r_prog S _) as [p'|]; injection Es as <- <-; unfold within_limit; cbn [c_thr]; [|rewrite map_size_empty; lia].
        unfold set_thr. destruct (settle p') as [t|]; [rewrite (size_insert_old _ _ _ _ Et); exact Hw|].
        pose proof (size_delete_le (c_thr S c') tid). unfold within_limit in Hw. lia.
      + destruct (c_reqs S c' !! tid); apply (f_equal snd) in Es; cbn [snd] in Es; rewrite <- Es; [|exact Hw]. unfold within_limit; cbn [c_thr].
        pose proof (size_delete_le (c_thr S c') tid). unfold within_limit in Hw. lia.
      + injection Es as <- <-. exact Hw.
    - destruct (s_conns S s !! cid') as [c'|] eqn:E; [|by eapply H]. eapply Hins; [|exact Hc].
      pose proof (H _ _ E) as Hw. unfold abort_thread. destruct (c_thr S c' !! tid) as [[p|x]|] eqn:Et; [|exact Hw..].
      unfold within_limit. cbn [c_thr]. rewrite (size_insert_old _ _ _ _ Et). exact Hw.
    - destruct (s_conns S s !! cid') as [c'|] eqn:E; [|by eapply H]. eapply Hins; [|exact Hc]. exact (H _ _ E).
    - destruct (direct_okb d); by eapply H.
    - cbn [s_conns] in Hc. by rewrite lookup_empty in Hc.
  Qed.

  Lemma run_limit evs cid c : conn_at S g evs cid c -> within_limit c.
  Proof.
    revert cid c. unfold conn_at, run. induction evs as [|ev evs IH] using rev_ind; intros cid c.
    - cbn [fold_left init s_conns]. by rewrite lookup_empty.
    - rewrite fold_left_app. cbn [fold_left]. apply step_limit. exact IH.
  Qed.

  Lemma in_progress_size (c : conn S) l : NoDup l -> (forall tid, tid ∈ l -> in_progress c tid) -> length l <= size (c_thr S c).
  Proof.
    intros Hn Hl. rewrite <- (size_list_to_set (C := gset nat) l Hn), <- size_dom. apply subseteq_size.
    intros tid Ht%elem_of_list_to_set. apply elem_of_dom. destruct (Hl tid Ht) as [_ Hf]. unfold finished in Hf.
    destruct (c_thr S c !! tid); [by eexists|done].
  Qed.
End Intake.

(** A connection never has more than 4096 requests in progress. *)
Theorem C04_limit :
  forall S g evs cid c tids,
    conn_at S g evs cid c -> NoDup tids -> (forall tid, tid ∈ tids -> in_progress c tid) ->
    (N.of_nat (length tids) <= 4096)%N.
Proof.
  intros S g evs cid c tids Hc Hn Hl. pose proof (run_limit S g evs cid c Hc) as Hw. unfold within_limit in Hw.
  pose proof (in_progress_size S c tids Hn Hl). lia.
Qed.
Print Assumptions C04_limit.

(** With fewer, a message that arrives on an open connection becomes a request, the next in number. *)
Theorem C04_taken :
  forall S (SO : StoreOk S) g, CryptoOk (g_crypto g) ->
  forall evs cid c m,
    conn_at S g evs cid c -> c_open S c = true -> api_ok m ->
    (forall tids, NoDup tids -> (forall tid, tid ∈ tids -> in_progress c tid) -> (N.of_nat (length tids) < 4096)%N) ->
    exists c' rq, conn_at S g (evs ++ [EvReceive cid (encode_api m)]) cid c'
      /\ received S c' (length (c_reqs S c)) rq /\ rq_msg S rq = m
      /\ forall tid rq', received S c tid rq' -> received S c' tid rq'.
Proof.
  intros S SO g HC evs cid c m Hc Ho Hm Hl.
  destruct (reach S SO g HC evs) as (L & (_ & Hconns & _) & _).
  destruct (Hconns cid c Hc) as (_ & Hthr & _).
  assert (N.ltb (N.of_nat (size (c_thr S c))) MAX_TASKS = true) as Hlt.
  { apply N.ltb_lt. change MAX_TASKS with 4096%N. rewrite <- size_dom.
    specialize (Hl (elements (dom (c_thr S c)))). apply Hl; [apply NoDup_elements|].
    intros tid Ht%elem_of_elements%elem_of_dom. split; [|intros E; unfold finished in E; rewrite E in Ht; by destruct Ht].
    apply Hthr in Ht. apply lookup_lt_is_Some in Ht. exact Ht. }
  eexists _, _. split; [|split; [|split]].
  - unfold conn_at. rewrite run_snoc. cbn [step]. unfold conn_at in Hc. rewrite Hc. cbn [s_conns]. by rewrite lookup_insert.
  - unfold receive. rewrite Ho, Hlt. cbn [andb]. rewrite (reads m Hm). unfold received. cbn [c_reqs].
    by rewrite lookup_app_r, Nat.sub_diag.
  - done.
  - intros tid rq' Hr. unfold receive. rewrite Ho, Hlt. cbn [andb]. rewrite (reads m Hm). unfold received. cbn [c_reqs].
    by apply lookup_app_l_Some.
Qed.
Print Assumptions C04_taken.

Example C04_taken_ex :
  let g := demo_env false in
  let evs := [EvConnect 1 (fill 32 x01) (fill 32 x02)] in
  exists c, conn_at sql_store g evs 1 c /\ c_open sql_store c = true /\ api_ok (ReqListEntries (str "id"))
    /\ forall tids, NoDup tids -> (forall tid, tid ∈ tids -> in_progress c tid) -> (N.of_nat (length tids) < 4096)%N.
Proof.
  cbv zeta.
  assert (match s_conns sql_store (run sql_store (demo_env false) [EvConnect 1 (fill 32 x01) (fill 32 x02)]) !! 1 with
          | Some c => match c_reqs sql_store c with [] => c_open sql_store c | _ => false end
          | None => false
          end = true) as H by (vm_compute; reflexivity).
  destruct (s_conns sql_store (run sql_store (demo_env false) [EvConnect 1 (fill 32 x01) (fill 32 x02)]) !! 1) as [c|] eqn:E;
    [|discriminate H].
  destruct (c_reqs sql_store c) eqn:Hr; [|discriminate H].
  exists c. split; [exact E|]. split; [exact H|]. split; [by split|].
  intros [|t l] _ Hl; [done|]. destruct (Hl t) as [[rq Hq] _]; [by constructor|]. unfold received in Hq. by rewrite Hr in Hq.
Qed.
