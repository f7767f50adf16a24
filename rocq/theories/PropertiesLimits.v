(** * C43, continued: deep locks are made with the limits in force where the client called *)

From Verif Require Import Base Crypto Toy Types Codec Secret Store StoreProofs Lru Server System ServerSpec ServerVocab
  ServerTheorems SeedBundle Client Asks World WorldVocab WorldProofs WorldProofs2 WorldProofs3.
From Verif Require PropertiesClient Demo.
From Verif Require Import DemoWorld.

(** The passphrase with which the seed that the function makes is to be locked. *)
Definition lock_of (a : ask) : option bytes :=
  match a with
  | ANewSeed _ p _ | AImport _ _ p _ _ _ _ | ADerive _ _ _ p _ => p
  | _ => None
  end.

(** Which call an event makes. *)
Lemma asked S (SO : StoreOk S) g : CryptoOk (g_crypto g) ->
  forall evs cid d a more l l' c, Forall typed (evs ++ WAsk cid d a :: more) -> link_at S g evs cid l ->
    call_at S g (evs ++ WAsk cid d a :: more) cid (length (k_calls (l_cli l))) l' c ->
    c_req c = request_of (g_crypto g) (l_enc l') d a.
Proof.
  intros HC evs cid d a more l l' c Ht Hl [Hl' Hc].
  replace (evs ++ WAsk cid d a :: more) with ((evs ++ [WAsk cid d a]) ++ more) in * by (by rewrite <- app_assoc).
  set (l1 := cli_step l (NewCall (request_of (g_crypto g) (l_enc l) d a))).
  assert (H1 : w_links (wrun S g (evs ++ [WAsk cid d a])) !! cid = Some l1).
  { rewrite wrun_snoc. cbn [wstep]. unfold link_at in Hl. rewrite Hl. cbn [set_link w_links]. apply lookup_insert. }
  destruct (wrun_adds S SO g HC _ _ Ht) as (post & (_ & _ & A) & _). destruct (A cid l1 H1) as (l2 & Hl2 & [E1 _ _ Hcalls]).
  unfold link_at in Hl'. rewrite Hl2 in Hl'. injection Hl' as <-.
  assert (Hk : exists c1, k_calls (l_cli l1) !! length (k_calls (l_cli l)) = Some c1
    /\ c_req c1 = request_of (g_crypto g) (l_enc l) d a).
  { subst l1. cbn [cli_step l_cli cstep]. set (req := request_of _ _ _ _). unfold register, unregister.
    cbn [set_pending k_pending k_calls]. destruct (k_pending (l_cli l) !! msg_id req) as [j|].
    - unfold lose. cbn [k_calls set_pending].
      assert (Hlen : (k_calls (l_cli l) ++ [Call req CSend MEmpty]) !! length (k_calls (l_cli l)) = Some (Call req CSend MEmpty))
        by (by rewrite lookup_app_r, Nat.sub_diag by lia).
      destruct ((k_calls (l_cli l) ++ [Call req CSend MEmpty]) !! j) as [[r st []]|] eqn:Ej;
        cbn [set_call k_calls set_pending]; try (by eexists).
      destruct (decide (j = length (k_calls (l_cli l)))) as [->|Hne].
      + rewrite list_lookup_insert by (by eapply lookup_lt_Some). rewrite Hlen in Ej. injection Ej as <- <-. by eexists.
      + rewrite list_lookup_insert_ne by done. rewrite Hlen. by eexists.
    - cbn [k_calls]. rewrite lookup_app_r, Nat.sub_diag by lia. by eexists. }
  destruct Hk as (c1 & Hk1 & E). destruct (Hcalls _ _ Hk1) as (c2 & Hk2 & E2 & _). rewrite Hk2 in Hc. injection Hc as <-.
  rewrite E2, E, E1. done.
Qed.

(** A call of a function that creates a deep-locked seed, made where the limits [d_limits d] are in
    force, and which succeeds, leaves in the keystore a seed that is locked with the passphrase
    given and with exactly these limits: of work and of memory. *)
Theorem C43_in_deep_locks :
  forall S (SO : StoreOk S) g, CryptoOk (g_crypto g) ->
  forall before cid d a after l v t si, let evs := before ++ WAsk cid d a :: after in
    Forall typed evs -> ids_differ S g evs -> keeps S SO evs ->
    link_at S g before cid l -> gives S g evs cid (length (k_calls (l_cli l))) a (Ok v) ->
    creates a v = Some (IDeep t si) ->
    exists p salt sec key seed, lock_of a = Some p
      /\ stored S g (server_evs S g evs) (EDeep t si salt (ops_limit (d_limits d)) (mem_limit (d_limits d)) sec)
      /\ argon2id (g_crypto g) (blake2b (g_crypto g) 64 p) salt (ops_limit (d_limits d)) (mem_limit (d_limits d)) = Ok key
      /\ sec_open (g_crypto g) 32 key sec = Ok seed
      /\ si_ed si = sign_pk (g_crypto g) seed /\ si_x si = box_pk (g_crypto g) seed.
Proof.
  intros S SO g HC before cid d a after l v t si evs Ht Hd Hk Hl Hg Hc.
  destruct (ok_served S SO g HC evs cid _ a v Ht Hd Hg) as (pre & c & tid & rq & d1 & m & Hs & He & Hv).
  destruct (served_right S SO g HC _ _ _ _ _ _ _ _ _ _ Hs He) as (L0 & w & M & [_ R]).
  assert (Hreq : exists enc, request_of (g_crypto g) (c_dec S c) d1 a = request_of (g_crypto g) enc d a).
  { destruct Hs as [_ _ _ Emsg _ _ (l' & cl & Hcall & Ecl)]. exists (l_enc l').
    rewrite <- (asked S SO g HC before cid d a after l l' cl Ht Hl Hcall). congruence. }
  destruct Hreq as [enc Hreq].
  assert (Hx : exists p seed e, lock_of a = Some p /\ e ∈ w_L w
    /\ holds_seed g (c_dec S c) e t (Some (dlp_of (d_limits d1) (hide (g_crypto g) (c_dec S c)
         (match a with ADerive _ _ _ _ _ => d_hdr2 d1 | _ => d_hdr d1 end) p))) si seed
    /\ ops_limit (d_limits d1) = ops_limit (d_limits d) /\ mem_limit (d_limits d1) = mem_limit (d_limits d)).
  { destruct a, v; try done; cbn [creates] in Hc; try done.
    - destruct pass as [p|]; [|done]. injection Hc as <- <-. cbn [request_of option_map] in R, Hreq.
      destruct m; try done. cbn [value_of] in Hv. injection Hv as ->. destruct R as (_ & _ & _ & e & seed & Hin & Hh).
      assert (ops_limit (d_limits d1) = ops_limit (d_limits d) /\ mem_limit (d_limits d1) = mem_limit (d_limits d)) as [E1 E2]
        by (by injection Hreq).
      exists p, seed, e. done.
    - destruct pass as [p|]; [|done]. injection Hc as <- <-. cbn [request_of option_map] in R, Hreq.
      destruct m; try done. cbn [value_of] in Hv. injection Hv as ->.
      destruct R as (_ & _ & _ & e & seed & e2 & seed2 & _ & _ & _ & _ & Hin & Hh).
      assert (ops_limit (d_limits d1) = ops_limit (d_limits d) /\ mem_limit (d_limits d1) = mem_limit (d_limits d)) as [E1 E2]
        by (by injection Hreq).
      exists p, seed, e. done.
    - destruct dst_pass as [p|]; [|done]. injection Hc as <- <-. cbn [request_of option_map] in R, Hreq.
      destruct m; try done. cbn [value_of] in Hv. injection Hv as ->.
      destruct R as (_ & e & seed & e2 & _ & _ & _ & Hin & _ & Hh).
      assert (ops_limit (d_limits d1) = ops_limit (d_limits d) /\ mem_limit (d_limits d1) = mem_limit (d_limits d)) as [E1 E2].
      { destruct src_pass; cbn [option_map] in Hreq; injection Hreq; done. }
      eexists p, _, e2. done. }
  destruct Hx as (p & seed & e & Hp & Hin & (pw & salt & sec & Epw & -> & key & Hkey & Hopen & Hm) & E1 & E2).
  cbn [dlp_of dl_pass dl_ops dl_mem] in *. rewrite (hide_opens g HC) in Epw. injection Epw as <-.
  exists p, salt, sec, key, seed. split; [done|]. split.
  { rewrite <- E1, <- E2. eapply (served_stored S SO g HC); try done. by apply (me_now _ _ _ _ _ _ _ _ M). }
  rewrite <- E1, <- E2. destruct Hm as [? ?]. done.
Qed.
Print Assumptions C43_in_deep_locks.

(** The first client of the example keystore makes its call number 3 under the limits [Minimum]. *)
Example C43_in_deep_locks_ex :
  exists before after l, first = before ++ WAsk 1 (drawn "a3") (ANewSeed (str "d") (Some (str "deep")) false) :: after
    /\ d_limits (drawn "a3") = Minimum /\ Forall typed first /\ ids_differ sql_store env first
    /\ link_at sql_store env before 1 l /\ length (k_calls (l_cli l)) = 3
    /\ gives sql_store env first 1 3 (ANewSeed (str "d") (Some (str "deep")) false) (Ok (VSeed infoD))
    /\ creates (ANewSeed (str "d") (Some (str "deep")) false) (VSeed infoD) = Some (IDeep (str "d") infoD).
Proof.
  set (before := [WConnect 1 Demo.demo_rx Demo.demo_tx]
    ++ call 1 0 "a0" (AHello (box_pk toy Demo.demo_seed)) x00 ++ call 1 1 "a1" (AUnlock pass) x00
    ++ call 1 2 "a2" (ANewSeed (str "s") None true) x0a).
  assert (H : option_map (fun l => length (k_calls (l_cli l))) (w_links (wrun sql_store env before) !! 1) = Some 3)
    by (vm_compute; reflexivity).
  destruct (w_links (wrun sql_store env before) !! 1) as [l|] eqn:El; [|done]. injection H as H.
  eexists before, _, l. split; [reflexivity|]. split; [done|]. split; [apply first_typed|]. split; [apply first_ids|].
  split; [done|]. split; [done|]. split; [|done]. apply (gave_gives sql_store first 1 3 "a3"); [txt|]. vm_compute. reflexivity.
Qed.
