(** * WireProofs2: sizes of answers, the handshake *)

From Verif Require Import Base Base64 Base64Proofs Msgpack Crypto Types Codec CodecProofs CodecProofs2
  Secret Store StoreProofs Lru Server System ServerSpec ServerVocab ServerProofs ServerProofs2
  SystemProofs AnswerProofs ServerTheorems Wire Sender WireVocab WireProofs SenderProofs Handshake.
From Coq Require Import ZifyBool ZifyNat ZifyN.

(** ** What the transport took fits a frame *)

Section Fits.
  Variable S : store_impl.
  Variable g : genv.

  Definition log_fits (c : conn S) : Prop :=
    forall tid m, (tid, m, true) ∈ c_log S c -> fits m = true.

  Lemma step1_fits {A} sh unl (p : prog A) o m :
    r_out S (step1 S g sh unl p o) = Some (m, true) -> fits m = true.
  Proof.
    destruct p; cbn; try done.
    - by destruct (o_fail o); [|destruct (st_write _ _ _)].
    - by destruct (o_fail o).
    - by destruct (o_fail o).
    - by destruct (cache_get S sh q).
    - destruct (o_cert o); [by destruct (_ && _)|done].
    - intros [= <- H]. by apply andb_prop in H as [? _].
  Qed.

  Lemma step_fits s e :
    (forall cid c, s_conns S s !! cid = Some c -> log_fits c) ->
    forall cid c, s_conns S (step S g s e) !! cid = Some c -> log_fits c.
  Proof.
    intros H. 
    assert (forall cid0 c0 c1 sh, s_conns S s !! cid0 = Some c0 -> (log_fits c0 -> log_fits c1) ->
      forall cid c, s_conns S (Sys S sh (<[cid0 := c1]> (s_conns S s))) !! cid = Some c ->
        log_fits c) as Q.
    { intros cid0 c0 c1 sh Hc0 H1 cid c. cbn. destruct (decide (cid0 = cid)) as [->|Hn].
      - rewrite lookup_insert. intros [= <-]. by eapply H1, H.
      - rewrite lookup_insert_ne by done. apply H. }
    destruct e as [cid0 rx tx|cid0 raw|cid0 tid o|cid0 tid er|cid0|d os|]; cbn [step].
    - destruct (s_conns S s !! cid0) eqn:E; [exact H|]. destruct (_ && _); [|exact H].
      intros cid c. cbn. destruct (decide (cid0 = cid)) as [->|Hn].
      + rewrite lookup_insert. intros [= <-] t m Hin. by apply elem_of_nil in Hin.
      + rewrite lookup_insert_ne by done. apply H.
    - destruct (s_conns S s !! cid0) as [c0|] eqn:E; [|exact H]. eapply Q; [exact E|].
      intros HL. unfold receive. destruct (_ && _); [|exact HL].
      by destruct (decode_api raw).
    - destruct (s_conns S s !! cid0) as [c0|] eqn:E; [|exact H].
      destruct (step_thread S g (s_sh S s) c0 tid o) as [sh c1] eqn:Es. eapply Q; [exact E|].
      intros HL. apply (f_equal snd) in Es. cbn [snd] in Es. subst c1. unfold step_thread.
      destruct (c_thr S c0 !! tid) as [[p|er]|]; [| |exact HL].
      + destruct (r_prog S _) as [p'|] eqn:Ep; cbn [snd]; [|exact HL].
        intros t m. cbn [c_log]. unfold log_add.
        destruct (r_out S _) as [[m' b]|] eqn:Eo; [|apply HL].
        intros [Hin|Hin]%elem_of_app; [by eapply HL|].
        apply elem_of_list_singleton in Hin. injection Hin as -> -> <-. by apply step1_fits in Eo.
      + destruct (c_reqs S c0 !! tid); cbn [snd]; [|exact HL].
        intros t m. cbn [c_log]. intros [Hin|Hin]%elem_of_app; [by eapply HL|].
        apply elem_of_list_singleton in Hin. 
        pose proof (f_equal snd Hin) as Hb. cbn [snd] in Hb. symmetry in Hb.
        pose proof (f_equal (fun x => snd (fst x)) Hin) as Hm. cbn [fst snd] in Hm. subst m.
        apply andb_prop in Hb as [Hb _]. exact Hb.
    - destruct (s_conns S s !! cid0) as [c0|] eqn:E; [|exact H]. eapply Q; [exact E|].
      intros HL. unfold abort_thread. by destruct (c_thr S c0 !! tid) as [[]|].
    - destruct (s_conns S s !! cid0) as [c0|] eqn:E; [|exact H]. eapply Q; [exact E|]. done.
    - destruct (direct_okb d); exact H.
    - intros cid c. cbn. by rewrite lookup_empty.
  Qed.

  Lemma run_fits evs cid c : conn_at S g evs cid c -> log_fits c.
  Proof.
    revert cid c. unfold conn_at. induction evs as [|e evs IH] using rev_ind; intros cid c.
    - unfold run, init. cbn. by rewrite lookup_empty.
    - rewrite run_snoc. by apply step_fits.
  Qed.

  (** The store when a request came held only usable entries. *)
  Lemma before_ok (SO : StoreOk S) (HC : CryptoOk (g_crypto g)) evs cid c tid rq e :
    conn_at S g evs cid c -> received S c tid rq -> held_before S rq e -> entry_ok e.
  Proof.
    intros Hc Hq He. destruct (reach S SO g HC evs) as (L & ((Hr & Hd & HF & _) & _) & _ & HL).
    pose proof (before_now S SO g HC evs cid c tid rq e Hc Hq He) as Hs. apply HL in Hs.
    rewrite Forall_forall in HF. by apply HF in Hs as [? _].
  Qed.
End Fits.

(** ** The size of a list of entries *)

(** The sum of some numbers. *)
Definition total (l : list nat) : nat := foldr Nat.add 0 l.

(** A lower bound of the space an entry takes in a list. *)
Definition weight (e : entry) : nat :=
  length (tag_of e) + match e with ECert _ _ _ => 90 | _ => 140 end.

Lemma enc_str_ge s : 1 + length s <= length (enc (MStr s)).
Proof.
  cbn [enc]. rewrite app_length. enough (1 <= length (enc_str_len (nlen s))) by lia.
  unfold enc_str_len. repeat destruct (N.ltb _ _); cbn [length]; lia.
Qed.

Lemma enc_lit_ge s n : n = length s -> 1 + n <= length (enc (MStr s)).
Proof. intros ->. apply enc_str_ge. Qed.

Lemma enc_bin32_ge s : length s = 32 -> 45 <= length (enc (wbin s)).
Proof.
  intros H. unfold wbin. cbn [enc]. rewrite app_length.
  assert (length (to_b64url s) = 43) as E.
  { unfold to_b64url. rewrite encode_np_length, H. done. }
  rewrite E. unfold nlen. rewrite E. done.
Qed.

Lemma enc_map_ge l :
  total (map (fun '(k, v) => length (enc k) + length (enc v)) l) <= length (enc (MMap l)).
Proof.
  cbn [enc]. rewrite app_length.
  enough (total (map (fun '(k, v) => length (enc k) + length (enc v)) l)
          = length (concat (map (fun '(k, v) => enc k ++ enc v) l))) by lia.
  unfold total in *. induction l as [|[k v] l IH]; [done|]. cbn. rewrite IH, !app_length. done.
Qed.

Lemma enc_arr_ge l : total (map (fun v => length (enc v)) l) <= length (enc (MArr l)).
Proof.
  cbn [enc]. rewrite app_length.
  enough (total (map (fun v => length (enc v)) l) = length (concat (map enc l))) by lia.
  unfold total in *. induction l as [|v l IH]; [done|]. cbn. rewrite IH, !app_length. done.
Qed.

Lemma enc_wmap_ge l :
  total (map (fun kv => 1 + length (fst kv) + length (enc (snd kv))) l) <= length (enc (wmap l)).
Proof.
  unfold wmap. etransitivity; [|apply enc_map_ge]. rewrite map_map.
  induction l as [|[k v] l IH]; [done|]. cbn [map total fst snd].
  cbn [map] in IH. pose proof (enc_str_ge k). unfold total in *. cbn [foldr] in *. lia.
Qed.

Lemma seed_info_ge si : seed_info_ok si -> 117 <= length (enc (wseed_info si)).
Proof.
  intros [H1 H2]. unfold wseed_info. etransitivity; [|apply enc_wmap_ge].
  rewrite map_app. cbn [map app total foldr fst snd].
  pose proof (enc_bin32_ge _ H1). pose proof (enc_bin32_ge _ H2). cbn [length str list_byte_of_string].
  unfold total in *. cbn [foldr]. 
  change (length (str "ed25519PubKey")) with 13. change (length (str "x25519PubKey")) with 12. lia.
Qed.

Lemma cert_info_ge ci : cert_info_ok ci -> 60 <= length (enc (wcert_info ci)).
Proof.
  intros (_ & H & _). unfold wcert_info. etransitivity; [|apply enc_wmap_ge].
  cbn [map total foldr fst snd]. pose proof (enc_bin32_ge _ H).
  change (length (str "sni")) with 3. change (length (str "digest")) with 6.
  change (length (str "cert")) with 4. unfold total. cbn [foldr]. lia.
Qed.

Lemma info_ge e : entry_ok e -> weight e <= length (enc (winfo (info_of e))).
Proof.
  intros H. unfold weight.
  destruct e as [t si s|t si salt ops mem s|t ci s]; cbn [info_of winfo tag_of]; unfold wtyped;
    (etransitivity; [|apply enc_wmap_ge]); cbn [map fst snd]; unfold total; cbn [foldr];
    pose proof (enc_str_ge t);
    change (length (str "type")) with 4; change (length (str "tag")) with 3.
  - destruct H as (_ & H & _). pose proof (seed_info_ge _ H).
    change (length (str "seed_info")) with 9. change (length (enc (MStr (str "seed")))) with 5. lia.
  - destruct H as (_ & H & _). pose proof (seed_info_ge _ H).
    change (length (str "seed_info")) with 9.
    change (length (enc (MStr (str "deepLockedSeed")))) with 15. lia.
  - destruct H as (_ & H & _). pose proof (cert_info_ge _ H).
    change (length (str "cert_info")) with 9.
    change (length (enc (MStr (str "wkaTlsCert")))) with 11. lia.
Qed.

Lemma sum_submseteq {A} (f : A -> nat) l k :
  l ⊆+ k -> total (map f l) <= total (map f k).
Proof. unfold total. induction 1; cbn in *; lia. Qed.

Lemma list_answer_ge id es l :
  NoDup (map tag_of es) -> (forall e, e ∈ es -> entry_ok e) ->
  (forall e, e ∈ es -> info_of e ∈ l) ->
  total (map weight es) <= length (encode_api (ResListEntries id l)).
Proof.
  intros Hn Hok Hin.
  assert (total (map weight es) <= total (map (fun i => length (enc (winfo i))) l)) as H1.
  { transitivity (total (map (fun i => length (enc (winfo i))) (map info_of es))).
    - rewrite map_map. clear Hn Hin. induction es as [|e es IH]; [done|]. cbn.
      pose proof (info_ge e (Hok e ltac:(apply elem_of_cons; by left))).
      assert (forall e', e' ∈ es -> entry_ok e') as Hok' by (intros e' He'; apply Hok, elem_of_cons; by right).
      specialize (IH Hok'). unfold total in *. lia.
    - apply sum_submseteq, NoDup_submseteq.
      + clear -Hn. induction es as [|e es IH]; [constructor|]. cbn in *. inversion Hn; subst.
        constructor; [|by apply IH]. intros Hx. apply elem_of_list_fmap in Hx as (e' & E & He').
        apply H1. apply elem_of_list_fmap. exists e'. split; [|done]. by destruct e, e'; cbn in *; congruence.
      + intros i Hi. apply elem_of_list_fmap in Hi as (e & -> & He). by apply Hin. }
  etransitivity; [exact H1|]. unfold encode_api. cbn [wapi]. unfold wtyped.
  etransitivity; [|apply enc_wmap_ge]. cbn [map fst snd]. unfold total at 2. cbn [foldr].
  pose proof (enc_arr_ge (map winfo l)) as H2. rewrite map_map in H2. lia.
Qed.

(** Upper bounds. *)
Lemma enc_str_le s : length (enc (MStr s)) <= 5 + length s.
Proof.
  cbn [enc]. rewrite app_length. enough (length (enc_str_len (nlen s)) <= 5) by lia.
  unfold enc_str_len. repeat destruct (N.ltb _ _); cbn [length]; rewrite ?be_bytes_length; lia.
Qed.

Lemma enc_lit_le s n : n = length s -> length (enc (MStr s)) <= 5 + n.
Proof. intros ->. apply enc_str_le. Qed.

Lemma enc_bin32_le s : length s = 32 -> length (enc (wbin s)) <= 48.
Proof.
  intros H. unfold wbin. etransitivity; [apply enc_str_le|].
  unfold to_b64url. rewrite encode_np_length, H. cbn. lia.
Qed.

Lemma enc_map_le l :
  length (enc (MMap l)) <= 5 + total (map (fun '(k, v) => length (enc k) + length (enc v)) l).
Proof.
  cbn [enc]. rewrite app_length.
  assert (length (enc_map_len (nlen l)) <= 5).
  { unfold enc_map_len. repeat destruct (N.ltb _ _); cbn [length]; rewrite ?be_bytes_length; lia. }
  enough (total (map (fun '(k, v) => length (enc k) + length (enc v)) l)
          = length (concat (map (fun '(k, v) => enc k ++ enc v) l))) by lia.
  clear. unfold total in *. induction l as [|[k v] l IH]; [done|]. cbn. rewrite IH, !app_length. done.
Qed.

Lemma enc_arr_le l : length (enc (MArr l)) <= 5 + total (map (fun v => length (enc v)) l).
Proof.
  cbn [enc]. rewrite app_length.
  assert (length (enc_arr_len (nlen l)) <= 5).
  { unfold enc_arr_len. repeat destruct (N.ltb _ _); cbn [length]; rewrite ?be_bytes_length; lia. }
  enough (total (map (fun v => length (enc v)) l) = length (concat (map enc l))) by lia.
  clear. unfold total in *. induction l as [|v l IH]; [done|]. cbn. rewrite IH, !app_length. done.
Qed.

Lemma enc_wmap_le l :
  length (enc (wmap l)) <= 5 + total (map (fun kv => 5 + length (fst kv) + length (enc (snd kv))) l).
Proof.
  unfold wmap. etransitivity; [apply enc_map_le|]. rewrite map_map. apply le_n_S, le_n_S, le_n_S, le_n_S, le_n_S.
  induction l as [|[k v] l IH]; [done|]. cbn [map total fst snd].
  cbn [map] in IH. pose proof (enc_str_le k). unfold total in *. cbn [foldr] in *. lia.
Qed.

Lemma seed_info_le si : seed_info_ok si -> length (enc (wseed_info si)) <= 160.
Proof.
  intros [H1 H2]. unfold wseed_info. etransitivity; [apply enc_wmap_le|].
  rewrite map_app. pose proof (enc_bin32_le _ H1). pose proof (enc_bin32_le _ H2).
  unfold total. rewrite foldr_app. destruct (si_exportable si); cbn [map foldr fst snd];
    change (length (str "ed25519PubKey")) with 13; change (length (str "x25519PubKey")) with 12;
    change (length (str "exportable")) with 10;
    try change (length (enc (MBool true))) with 1; lia.
Qed.

Lemma list_answer_le id l :
  (forall i, i ∈ l -> exists t si, (i = ISeed t si \/ i = IDeep t si) /\ seed_info_ok si) ->
  length (encode_api (ResListEntries id l))
    <= length id + total (map (fun i => length (info_tag i) + 220) l) + 70.
Proof.
  intros H. unfold encode_api, wapi, wtyped. etransitivity; [apply enc_wmap_le|].
  cbn [map fst snd total foldr].
  pose proof (enc_str_le id). pose proof (enc_lit_le (str "resListEntries") 14 eq_refl).
  pose proof (enc_arr_le (map winfo l)) as HA. rewrite map_map in HA.
  assert (total (map (fun i => length (enc (winfo i))) l)
          <= total (map (fun i => length (info_tag i) + 220) l)) as HT.
  { clear -H. unfold total. induction l as [|i l IH]; [done|]. cbn [map foldr].
    apply Nat.add_le_mono.
    - destruct (H i) as (t & si & Hi & Hok); [by left|]. pose proof (seed_info_le si Hok).
      pose proof (enc_str_le t).
      destruct Hi as [-> | ->]; unfold winfo, wtyped; (etransitivity; [apply enc_wmap_le|]);
        cbn [map fst snd total foldr info_tag].
      + pose proof (enc_lit_le (str "seed") 4 eq_refl).
        change (length (str "type")) with 4. change (length (str "tag")) with 3.
        change (length (str "seed_info")) with 9. lia.
      + pose proof (enc_lit_le (str "deepLockedSeed") 14 eq_refl).
        change (length (str "type")) with 4. change (length (str "tag")) with 3.
        change (length (str "seed_info")) with 9. lia.
    - apply IH. intros j Hj. apply H. by right. }
  change (length (str "type")) with 4. change (length (str "msgId")) with 5.
  change (length (str "entryList")) with 9. lia.
Qed.

(** ** The handshake *)

Section Handshake.
  Variable C : Crypto.
  Hypothesis CK : CryptoOk C.

  (** What the client writes first does not depend on what it reads. *)
  Lemma client_first id bk ck r hdr cs :
    length id = 32 -> length bk = 32 -> length ck = 32 ->
    exists out rest, (s3_client C (x_base C id) bk ck r hdr cs).1 = out ++ rest /\
      length out = 64 + SEALBYTES /\ seal C r (x_base C bk ++ x_base C ck) (x_base C id) = Ok out /\
      seal_open C out (x_base C id) id = Ok (x_base C bk ++ x_base C ck) /\
      (rest = [] \/ rest = hdr).
  Proof.
    intros Hi Hb Hc. destruct (seal_ok C CK r (x_base C bk ++ x_base C ck) id Hi) as (out & E1 & E2 & E3).
    assert (length out = 64 + SEALBYTES) as El.
    { rewrite E2, app_length, !(x_base_len C CK) by done. done. }
    unfold s3_client. rewrite E1.
    destruct (read_exact (32 + SEALBYTES) cs) as [[cipher cs']|]; [|exists out, []; cbn; rewrite app_nil_r; auto 10].
    destruct (seal_open C cipher (x_base C bk) bk) as [oth|]; [|exists out, []; cbn; rewrite app_nil_r; auto 10].
    destruct (kx_server C (x_base C ck) ck oth) as [[rx tx]|]; [|exists out, []; cbn; rewrite app_nil_r; auto 10].
    exists out, hdr. cbn. auto 10.
  Qed.

  Lemma server_after id bk ck sk rs hdr cs out rest :
    length id = 32 -> length bk = 32 -> length ck = 32 -> length sk = 32 ->
    length out = 64 + SEALBYTES ->
    seal_open C out (x_base C id) id = Ok (x_base C bk ++ x_base C ck) ->
    concat cs = out ++ rest ->
    exists reply k1 k2 cs',
      seal C rs (x_base C sk) (x_base C bk) = Ok reply /\ length reply = 32 + SEALBYTES /\
      seal_open C reply (x_base C bk) bk = Ok (x_base C sk) /\
      kx_client C (x_base C sk) sk (x_base C ck) = Ok (k1, k2) /\
      kx_server C (x_base C ck) ck (x_base C sk) = Ok (k2, k1) /\
      concat cs' = rest /\
      s3_server C (x_base C id) id sk rs hdr cs = init_ss C reply k2 k1 hdr cs'.
  Proof.
    intros Hi Hb Hc Hs Hl Ho E.
    destruct (read_exact_app _ _ _ _ E Hl) as (cs' & Er & Ec).
    destruct (seal_ok C CK rs (x_base C sk) bk Hb) as (reply & E1 & E2 & E3).
    destruct (kx_ok C CK sk ck Hs Hc) as (k1 & k2 & E4 & E5 & _ & _).
    exists reply, k1, k2, cs'. split; [done|].
    split; [rewrite E2, (x_base_len C CK) by done; done|]. split; [done|]. split; [done|].
    split; [done|]. split; [done|]. unfold s3_server. rewrite Er, Ho.
    rewrite take_app_alt, drop_app_alt by (by rewrite (x_base_len C CK)).
    by rewrite E1, E4.
  Qed.

  Lemma handshake_agrees id bk ck sk rc rs hc hs cc cs more_c more_s :
    length id = 32 -> length bk = 32 -> length ck = 32 -> length sk = 32 ->
    length hc = HEADERBYTES -> length hs = HEADERBYTES ->
    concat cs = (s3_client C (x_base C id) bk ck rc hc cc).1 ++ more_c ->
    concat cc = (s3_server C (x_base C id) id sk rs hs cs).1 ++ more_s ->
    exists c s,
      (s3_client C (x_base C id) bk ck rc hc cc).2 = Ok c /\
      (s3_server C (x_base C id) id sk rs hs cs).2 = Ok s /\
      h_tx c = h_rx s /\ h_rx c = h_tx s /\ h_enc c = h_dec s /\ h_dec c = h_enc s /\
      length (h_tx c) = 32 /\ length (h_rx c) = 32 /\
      concat (h_rest s) = more_c /\ concat (h_rest c) = more_s.
  Proof.
    intros Hi Hb Hc Hs Hhc Hhs Ecs Ecc.
    destruct (client_first id bk ck rc hc cc Hi Hb Hc) as (out & rest & Eo & Lo & Es & Eop & _).
    rewrite Eo, <- app_assoc in Ecs.
    destruct (server_after id bk ck sk rs hs cs out _ Hi Hb Hc Hs Lo Eop Ecs)
      as (reply & k1 & k2 & cs' & E1 & E2 & E3 & E4 & E5 & E6 & E7).
    pose proof (kx_ok C CK sk ck Hs Hc) as (k1' & k2' & F1 & F2 & F3 & F4).
    rewrite E4 in F1. injection F1 as <- <-.
    rewrite E7 in *. unfold init_ss in Ecc at 1. cbn [fst] in Ecc. rewrite <- app_assoc in Ecc.
    destruct (read_exact_app _ _ _ _ Ecc E2) as (cc' & Er & Ec).
    assert (s3_client C (x_base C id) bk ck rc hc cc = init_ss C out k1 k2 hc cc') as Ecl.
    { unfold s3_client. by rewrite Es, Er, E3, E5. }
    rewrite Ecl in *. unfold init_ss in Eo. cbn [fst] in Eo. apply app_inv_head in Eo as <-.
    unfold init_ss. cbn [snd].
    destruct (read_exact_app _ _ _ _ Ec Hhs) as (cc2 & -> & Ec2).
    destruct (read_exact_app _ _ _ _ E6 Hhc) as (cs2 & -> & Es2).
    eexists _, _. split; [done|]. split; [done|]. cbn. auto 20.
  Qed.

  (** A cut transport: whoever finishes, agrees. *)
  Lemma handshake_cut id bk ck sk rc rs hc hs cc cs more_c more_s c s :
    length id = 32 -> length bk = 32 -> length ck = 32 -> length sk = 32 ->
    length hc = HEADERBYTES -> length hs = HEADERBYTES ->
    concat cs `prefix_of` (s3_client C (x_base C id) bk ck rc hc cc).1 ++ more_c ->
    concat cc `prefix_of` (s3_server C (x_base C id) id sk rs hs cs).1 ++ more_s ->
    (s3_client C (x_base C id) bk ck rc hc cc).2 = Ok c ->
    (s3_server C (x_base C id) id sk rs hs cs).2 = Ok s ->
    h_tx c = h_rx s /\ h_rx c = h_tx s /\ h_enc c = h_dec s /\ h_dec c = h_enc s /\
    concat (h_rest s) `prefix_of` more_c /\ concat (h_rest c) `prefix_of` more_s.
  Proof.
    intros Hi Hb Hc Hs Hhc Hhs [dc Ecs] [ds Ecc] Hrc Hrs.
    destruct (client_first id bk ck rc hc cc Hi Hb Hc) as (out & rest & Eo & Lo & Es & Eop & _).
    assert (exists x, concat cs = out ++ x /\ rest ++ more_c = x ++ dc) as (x & Ex & Ex2).
    { rewrite Eo, <- app_assoc in Ecs.
      assert (length out <= length (concat cs)) as Hl.
      { rewrite Lo. unfold s3_server in Hrs.
        pose proof (read_exact_spec (64 + SEALBYTES) cs) as H.
        destruct (read_exact (64 + SEALBYTES) cs) as [[d r]|]; [|done].
        destruct H as [-> <-]. rewrite app_length. lia. }
      pose proof (whole_of _ _ _ _ Ecs Hl) as E. eexists. split; [exact E|].
      rewrite E, <- app_assoc in Ecs. by apply app_inv_head in Ecs. }
    destruct (server_after id bk ck sk rs hs cs out _ Hi Hb Hc Hs Lo Eop Ex)
      as (reply & k1 & k2 & cs' & E1 & E2 & E3 & E4 & E5 & E6 & E7).
    rewrite E7 in *. unfold init_ss in Ecc at 1. cbn [fst] in Ecc. rewrite <- app_assoc in Ecc.
    assert (exists y, concat cc = reply ++ y /\ hs ++ more_s = y ++ ds) as (y & Ey & Ey2).
    { assert (length reply <= length (concat cc)) as Hl.
      { rewrite E2. unfold s3_client in Hrc. rewrite Es in Hrc.
        pose proof (read_exact_spec (32 + SEALBYTES) cc) as H.
        destruct (read_exact (32 + SEALBYTES) cc) as [[d r]|]; [|done].
        destruct H as [-> <-]. rewrite app_length. lia. }
      pose proof (whole_of _ _ _ _ Ecc Hl) as E. eexists. split; [exact E|].
      rewrite E, <- app_assoc in Ecc. by apply app_inv_head in Ecc. }
    destruct (read_exact_app _ _ _ _ Ey E2) as (cc' & Er & Ec).
    assert (s3_client C (x_base C id) bk ck rc hc cc = init_ss C out k1 k2 hc cc') as Ecl.
    { unfold s3_client. by rewrite Es, Er, E3, E5. }
    rewrite Ecl in *. unfold init_ss in Eo. cbn [fst] in Eo. apply app_inv_head in Eo as <-.
    unfold init_ss in Hrc, Hrs. cbn [snd] in Hrc, Hrs.
    pose proof (read_exact_spec HEADERBYTES cc') as P.
    destruct (read_exact HEADERBYTES cc') as [[h1 cc2]|]; [|done]. destruct P as [P1 P2].
    pose proof (read_exact_spec HEADERBYTES cs') as Q.
    destruct (read_exact HEADERBYTES cs') as [[h2 cs2]|]; [|done]. destruct Q as [Q1 Q2].
    injection Hrc as <-. injection Hrs as <-. cbn.
    rewrite <- Ec, P1, <- app_assoc in Ey2. rewrite <- E6, Q1, <- app_assoc in Ex2.
    apply app_inj_1 in Ey2 as [<- Ey2]; [|congruence].
    apply app_inj_1 in Ex2 as [<- Ex2]; [|congruence].
    split; [done|]. split; [done|]. split; [done|]. split; [done|]. split; by eexists.
  Qed.
End Handshake.
