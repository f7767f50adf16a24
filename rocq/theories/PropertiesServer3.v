(** * PropertiesServer3: signing, boxes, certificates, restarts (C18 to C24, C49) *)

From Verif Require Import Base Utf8 Crypto Toy Types Codec CodecProofs CodecProofs2 Secret Store
  StoreProofs Lru Server System ServerSpec ServerVocab ServerProofs ServerProofs2 SystemProofs
  AnswerProofs ServerTheorems Demo PropertiesServer1 PropertiesServer2.

(** ** C18: a signature is made with the key that was asked for *)

(** For a key held when the request came, and not deep locked, the signature verifies under
    exactly that key for exactly the data. *)
Theorem C18_signature_verifies :
  forall S (SO : StoreOk S) g, CryptoOk (g_crypto g) ->
  forall evs cid c tid rq id k d data sig e,
    conn_at S g evs cid c -> received S c tid rq -> rq_msg S rq = ReqSign id k d data ->
    sent S c tid (ResSign id sig) -> undisturbed S rq ->
    held_before S rq e -> ed_of e = Some k -> is_deep e = false ->
    sign_verify (g_crypto g) k sig data = true.
Proof.
  intros S SO g HC evs cid c tid rq id k d data sig e Hc Hq Hrq Hm Hd He Hk Hdeep.
  destruct (right_meaning S SO g HC _ cid c tid rq _ Hc Hq Hm eq_refl) as (L0 & w & M & _ & H).
  rewrite Hrq in H. destruct H as (_ & [(e1 & seed & H1 & H2 & H3 & ->)|(_ & _ & _ & [H|H])]).
  - assert (e1 = e) as ->.
    { eapply (same_ed S SO g HC evs); [by apply (me_now _ _ _ _ _ _ _ _ M)|by eapply before_now| |done].
      by apply ed_key. }
    destruct e as [t si sec| |]; try done. pose proof (plain_ed_of g _ _ H3) as E.
    assert (k = sign_pk (g_crypto g) seed) as -> by congruence.
    apply (sign_ok _ HC). exact (plain_seed_len g _ _ H3).
  - apply (me_fail _ _ _ _ _ _ _ _ M) in H. unfold undisturbed in Hd. congruence.
  - exfalso. apply (H e); [by apply (me_before _ _ _ _ _ _ _ _ M)|by apply ed_key].
Qed.
Print Assumptions C18_signature_verifies.

(** For a deep-locked key: the signature verifies, or the passphrase sent is one under
    which the stored ciphertext opens to the seed of another key. *)
Theorem C18_deep_signature :
  forall S (SO : StoreOk S) g, CryptoOk (g_crypto g) ->
  forall evs cid c tid rq id k d data sig t si salt ops mem sec,
    conn_at S g evs cid c -> received S c tid rq -> rq_msg S rq = ReqSign id k d data ->
    sent S c tid (ResSign id sig) -> undisturbed S rq ->
    held_before S rq (EDeep t si salt ops mem sec) -> si_ed si = k ->
    sign_verify (g_crypto g) k sig data = true
    \/ exists psec pass key seed, d = Some psec /\ sec_open (g_crypto g) 64 (c_dec S c) psec = Ok pass
         /\ argon2id (g_crypto g) pass salt ops mem = Ok key
         /\ sec_open (g_crypto g) 32 key sec = Ok seed /\ sign_pk (g_crypto g) seed <> k.
Proof.
  intros S SO g HC evs cid c tid rq id k d data sig t si salt ops mem sec Hc Hq Hrq Hm Hd He Hk.
  destruct (right_meaning S SO g HC _ cid c tid rq _ Hc Hq Hm eq_refl) as (L0 & w & M & _ & H).
  rewrite Hrq in H. destruct H as (_ & [(e1 & seed & H1 & H2 & H3 & ->)|(_ & _ & _ & [H|H])]).
  - assert (e1 = EDeep t si salt ops mem sec) as ->.
    { eapply (same_ed S SO g HC evs _ _ k); [by apply (me_now _ _ _ _ _ _ _ _ M)|by eapply before_now| |cbn; congruence].
      by apply ed_key. }
    destruct H3 as (psec & pass & key & -> & X1 & X2 & X3).
    destruct (decide (sign_pk (g_crypto g) seed = k)) as [<-|Hne].
    + left. apply (sign_ok _ HC). by eapply sec_open_length.
    + right. by exists psec, pass, key, seed.
  - apply (me_fail _ _ _ _ _ _ _ _ M) in H. unfold undisturbed in Hd. congruence.
  - exfalso. eapply H; [by apply (me_before _ _ _ _ _ _ _ _ M)|]. apply ed_key. cbn. congruence.
Qed.
Print Assumptions C18_deep_signature.

(** A key that is held and not deep locked always signs. *)
Theorem C18_sign_succeeds :
  forall S (SO : StoreOk S) g, CryptoOk (g_crypto g) ->
  forall evs cid c tid rq m id k d data e seed,
    conn_at S g evs cid c -> received S c tid rq -> rq_msg S rq = ReqSign id k d data ->
    sent S c tid m -> came_unlocked S rq -> undisturbed S rq ->
    held_before S rq e -> ed_of e = Some k -> plain_seed g e seed ->
    m = ResSign id (sign_detached (g_crypto g) (sign_sk (g_crypto g) seed) data).
Proof.
  intros S SO g HC evs cid c tid rq m id k d data e seed Hc Hq Hrq Hm Hu Hd He Hk Hp.
  destruct (fine_answer S SO g HC evs cid c tid rq m Hc Hq Hm Hd Hu) as (L0 & w & M & HG).
  rewrite Hrq in HG. destruct HG as [[Hid H]|(err & -> & H)].
  - destruct m; try done. cbn in Hid. subst.
    destruct H as (_ & [(e1 & seed1 & H1 & H2 & H3 & ->)|(_ & _ & _ & [H|H])]).
    + assert (e1 = e) as ->.
      { eapply (same_ed S SO g HC evs); [by apply (me_now _ _ _ _ _ _ _ _ M)|by eapply before_now| |done].
        by apply ed_key. }
      assert (seed1 = seed) as ->; [|done].
      destruct e; try done. eapply plain_seed_det; [exact H3|exact Hp].
    + apply (me_fail _ _ _ _ _ _ _ _ M) in H. unfold undisturbed in Hd. congruence.
    + exfalso. apply (H e); [by apply (me_before _ _ _ _ _ _ _ _ M)|by apply ed_key].
  - exfalso. destruct H as [H _]. eapply (H e seed); [by apply (me_before _ _ _ _ _ _ _ _ M)|by apply ed_key|].
    by destruct e.
Qed.
Print Assumptions C18_sign_succeeds.

Example C18_ex :
  exists sig, map (fun x => snd (fst x)) (drop 5 (replies sql_store (demo_env false) ex_deep 1))
    = [ResSign (str "e") sig] /\ sign_verify toy (fill 32 x0b) sig (str "hi") = true
      /\ sign_verify toy (fill 32 x0a) sig (str "hi") = false.
Proof. eexists. split; [by vm_compute|]. split; by vm_compute. Qed.

(** ** C19: who signs is decided by who holds the key *)

(** Every question the fallback signer is asked is that of a Sign request, from an
    unlocked connection, for a key that was not held when the request came, or whose
    lookup failed for an outside reason. *)
Theorem C19_fallback_only_if_not_held :
  forall S (SO : StoreOk S) g, CryptoOk (g_crypto g) ->
  forall evs fc, fc ∈ sh_fb S (s_sh S (run S g evs)) ->
    g_fallback g = true
    /\ exists cid c tid rq d, conn_at S g evs cid c /\ received S c tid rq /\ c_unl S c = true
         /\ rq_msg S rq = ReqSign (fb_id fc) (fb_pk fc) d (fb_data fc)
         /\ (~ undisturbed S rq \/ forall e, held_before S rq e -> ed_of e <> Some (fb_pk fc)).
Proof.
  intros S SO g HC evs fc Hfc.
  destruct (reach S SO g HC evs) as (L & (HS & HCs & HF) & _ & HL).
  destruct (HF fc Hfc) as (H1 & H2 & cid & c & tid & rq & dp & A1 & A2 & A3 & A4 & L0 & A5 & A7).
  split; [done|]. exists cid, c, tid, rq, dp. split; [done|]. split; [done|]. split; [done|]. split; [done|].
  destruct A7 as [A7|A7].
  - left. unfold undisturbed. by rewrite A7.
  - right. intros e He Hk.
    destruct (HCs _ _ A1) as (B1 & _). destruct (B1 _ _ A2) as (L0' & D1 & D2 & _).
    apply (rel_holds S SO _ _ _ D1 D2) in He. apply ed_key in Hk.
    pose proof (st_get_ok S SO _ _ (ByEd (fb_pk fc)) D1) as E1.
    rewrite (distinct_get _ _ _ D2 He Hk) in E1.
    pose proof (st_get_ok S SO _ _ (ByEd (fb_pk fc)) A5) as E2.
    destruct (spec_get L0 (ByEd (fb_pk fc))) as [e'|] eqn:E; [|by rewrite E1 in E2].
    apply spec_get_Some in E as [E3 E4]. by apply (A7 e').
Qed.
Print Assumptions C19_fallback_only_if_not_held.

(** For a key nobody holds: what the fallback answered is the answer; without a fallback
    the answer is an error. *)
Theorem C19_not_held :
  forall S (SO : StoreOk S) g, CryptoOk (g_crypto g) ->
  forall evs cid c tid rq m id k d data,
    conn_at S g evs cid c -> received S c tid rq -> rq_msg S rq = ReqSign id k d data ->
    sent S c tid m -> came_unlocked S rq -> undisturbed S rq ->
    (forall e, stored S g evs e -> ed_of e <> Some k) ->
    (g_fallback g = false -> is_error m = true)
    /\ (g_fallback g = true ->
        (exists sig, m = ResSign id sig /\ FbCall id k data (Ok sig) ∈ sh_fb S (s_sh S (run S g evs)))
        \/ (is_error m = true
            /\ exists er, FbCall id k data (Err er) ∈ sh_fb S (s_sh S (run S g evs)))).
Proof.
  intros S SO g HC evs cid c tid rq m id k d data Hc Hq Hrq Hm Hu Hd Hno.
  destruct (fine_answer S SO g HC evs cid c tid rq m Hc Hq Hm Hd Hu) as (L0 & w & M & HG).
  rewrite Hrq in HG. destruct HG as [[Hid H]|(err & -> & H)].
  - destruct m; try done. cbn in Hid. subst.
    destruct H as (_ & [(e1 & seed1 & H1 & H2 & H3 & ->)|(Hf & Hfc & _)]).
    + exfalso. apply (Hno e1); [by apply (me_now _ _ _ _ _ _ _ _ M)|by apply ed_key].
    + split; [congruence|]. intros _. left. eexists. split; [done|].
      by apply (me_fb _ _ _ _ _ _ _ _ M).
  - split; [done|]. intros Hf. right. split; [done|]. destruct H as [_ H].
    destruct (H Hf) as [(er & Her)|(e1 & H1 & H2)].
    + intros e He Hk. apply (Hno e); [|by apply ed_key].
      apply (me_now _ _ _ _ _ _ _ _ M). by apply (me_later _ _ _ _ _ _ _ _ M).
    + exists er. by apply (me_fb _ _ _ _ _ _ _ _ M).
    + exfalso. apply (Hno e1); [by apply (me_now _ _ _ _ _ _ _ _ M)|by apply ed_key].
Qed.
Print Assumptions C19_not_held.

(** A key held when the request came is not signed by the fallback, in the sense that the
    answer is the one made with that key. *)
Theorem C19_held_signs_itself :
  forall S (SO : StoreOk S) g, CryptoOk (g_crypto g) ->
  forall evs cid c tid rq id k d data sig e,
    conn_at S g evs cid c -> received S c tid rq -> rq_msg S rq = ReqSign id k d data ->
    sent S c tid (ResSign id sig) -> undisturbed S rq ->
    held_before S rq e -> ed_of e = Some k ->
    exists seed, signing_seed g (c_dec S c) e d seed
      /\ sig = sign_detached (g_crypto g) (sign_sk (g_crypto g) seed) data.
Proof.
  intros S SO g HC evs cid c tid rq id k d data sig e Hc Hq Hrq Hm Hd He Hk.
  destruct (right_meaning S SO g HC _ cid c tid rq _ Hc Hq Hm eq_refl) as (L0 & w & M & _ & H).
  rewrite Hrq in H. destruct H as (_ & [(e1 & seed & H1 & H2 & H3 & ->)|(_ & _ & _ & [H|H])]).
  - assert (e1 = e) as ->.
    { eapply (same_ed S SO g HC evs); [by apply (me_now _ _ _ _ _ _ _ _ M)|by eapply before_now| |done].
      by apply ed_key. }
    by exists seed.
  - apply (me_fail _ _ _ _ _ _ _ _ M) in H. unfold undisturbed in Hd. congruence.
  - exfalso. apply (H e); [by apply (me_before _ _ _ _ _ _ _ _ M)|by apply ed_key].
Qed.
Print Assumptions C19_held_signs_itself.

(** What the fallback returns is not checked: any 64 bytes are passed on as the
    signature, whether or not they verify under the key.  Here the signer answers with
    64 times the byte 0x77. *)
Definition ex_fallback : list event :=
  demo_open 1 ++ ask 1 1 (ReqSign (str "a") (fill 32 x99) None (str "hi")) x00.
Theorem C19_fallback_signature_refuted :
  exists S (SO : StoreOk S) g evs cid c tid rq id k data sig,
    CryptoOk (g_crypto g) /\ conn_at S g evs cid c /\ received S c tid rq
    /\ rq_msg S rq = ReqSign id k None data /\ came_unlocked S rq /\ undisturbed S rq
    /\ answers S c tid = [(ResSign id sig, true)]
    /\ sign_verify (g_crypto g) k sig data = false.
Proof.
  destruct (answer_checked sql_store (demo_env true) ex_fallback 1 1
    (ReqSign (str "a") (fill 32 x99) None (str "hi")) (ResSign (str "a") (fill 64 x77))
    (fun _ _ => true)) as (c & rq & H1 & H2 & H3 & H4 & H5 & H6 & H7); [by vm_compute|].
  exists sql_store, sql_store_ok, (demo_env true), ex_fallback, 1, c, 1, rq, (str "a"), (fill 32 x99),
    (str "hi"), (fill 64 x77).
  split; [exact toy_ok|]. split; [exact H1|]. split; [exact H2|]. split; [exact H3|].
  split; [exact H4|]. split; [exact H5|]. split; [exact H6|]. by vm_compute.
Qed.
Print Assumptions C19_fallback_signature_refuted.

(** The same request without a fallback signer. *)
Example C19_ex :
  map (fun x => is_error (snd (fst x))) (drop 1 (replies sql_store (demo_env false) ex_fallback 1))
    = [true].
Proof. by vm_compute. Qed.

(** ** C20: deep-locked seeds sign with their passphrase and only then *)

Theorem C20_deep_sign_succeeds :
  forall S (SO : StoreOk S) g, CryptoOk (g_crypto g) ->
  forall evs cid c tid rq m id k psec data e pass seed,
    conn_at S g evs cid c -> received S c tid rq -> rq_msg S rq = ReqSign id k (Some psec) data ->
    sent S c tid m -> came_unlocked S rq -> undisturbed S rq ->
    held_before S rq e -> ed_of e = Some k -> locked_seed g e pass seed ->
    sec_open (g_crypto g) 64 (c_dec S c) psec = Ok pass ->
    m = ResSign id (sign_detached (g_crypto g) (sign_sk (g_crypto g) seed) data)
    /\ sign_verify (g_crypto g) k (sign_detached (g_crypto g) (sign_sk (g_crypto g) seed) data) data = true.
Proof.
  intros S SO g HC evs cid c tid rq m id k psec data e pass seed Hc Hq Hrq Hm Hu Hd He Hk Hl Hps.
  destruct e as [t si sec|t si salt ops mem sec|t ci sec]; try done.
  destruct Hl as (key & L1 & L2 & L3).
  assert (Hs : forall seed', signing_seed g (c_dec S c) (EDeep t si salt ops mem sec) (Some psec) seed' <-> seed' = seed).
  { intros seed'. cbn. split.
    - intros (s & pass' & k' & [= <-] & X1 & X2 & X3). rewrite Hps in X1. injection X1 as <-.
      rewrite L1 in X2. injection X2 as <-. congruence.
    - intros ->. by exists psec, pass, key. }
  split.
  2:{ destruct L3 as (K1 & K2 & _). cbn in Hk. injection Hk as <-. rewrite K2. by apply (sign_ok _ HC). }
  destruct (fine_answer S SO g HC evs cid c tid rq m Hc Hq Hm Hd Hu) as (L0 & w & M & HG).
  rewrite Hrq in HG. destruct HG as [[Hid H]|(err & -> & H)].
  - destruct m; try done. cbn in Hid. subst id0.
    destruct (C19_held_signs_itself S SO g HC evs cid c tid rq id k (Some psec) data _ _ Hc Hq Hrq Hm Hd He Hk)
      as (seed' & H1 & ->). apply Hs in H1 as ->. done.
  - exfalso. destruct H as [H _]. eapply (H _ seed); [by apply (me_before _ _ _ _ _ _ _ _ M)|by apply ed_key|].
    by apply Hs.
Qed.
Print Assumptions C20_deep_sign_succeeds.

(** Without a passphrase a deep-locked seed never signs. *)
Theorem C20_no_passphrase :
  forall S (SO : StoreOk S) g, CryptoOk (g_crypto g) ->
  forall evs cid c tid rq m id k data e,
    conn_at S g evs cid c -> received S c tid rq -> rq_msg S rq = ReqSign id k None data ->
    sent S c tid m -> undisturbed S rq ->
    held_before S rq e -> ed_of e = Some k -> is_deep e = true ->
    is_error m = true.
Proof.
  intros S SO g HC evs cid c tid rq m id k data e Hc Hq Hrq Hm Hd He Hk Hdeep.
  destruct (is_error m) eqn:E; [done|].
  destruct (right_meaning S SO g HC _ cid c tid rq m Hc Hq Hm E) as (L0 & w & M & Hid & H).
  rewrite Hrq in H, Hid. destruct m; try done. cbn in Hid. subst id0.
  destruct (C19_held_signs_itself S SO g HC evs cid c tid rq id k None data _ _ Hc Hq Hrq Hm Hd He Hk)
    as (seed & H1 & _). destruct e; try done. by destruct H1 as (? & ? & ? & ? & _).
Qed.
Print Assumptions C20_no_passphrase.

(** With a passphrase whose key does not open the entry, neither. *)
Theorem C20_wrong_passphrase :
  forall S (SO : StoreOk S) g, CryptoOk (g_crypto g) ->
  forall evs cid c tid rq m id k psec data t si salt ops mem sec pass,
    conn_at S g evs cid c -> received S c tid rq -> rq_msg S rq = ReqSign id k (Some psec) data ->
    sent S c tid m -> undisturbed S rq ->
    held_before S rq (EDeep t si salt ops mem sec) -> si_ed si = k ->
    sec_open (g_crypto g) 64 (c_dec S c) psec = Ok pass ->
    (forall key, argon2id (g_crypto g) pass salt ops mem = Ok key ->
       is_ok (sec_open (g_crypto g) 32 key sec) = false) ->
    is_error m = true.
Proof.
  intros S SO g HC evs cid c tid rq m id k psec data t si salt ops mem sec pass
    Hc Hq Hrq Hm Hd He Hk Hps Hno.
  destruct (is_error m) eqn:E; [done|].
  destruct (right_meaning S SO g HC _ cid c tid rq m Hc Hq Hm E) as (L0 & w & M & Hid & H).
  rewrite Hrq in H, Hid. destruct m; try done. cbn in Hid. subst id0.
  destruct (C19_held_signs_itself S SO g HC evs cid c tid rq id k (Some psec) data _ (EDeep t si salt ops mem sec) Hc Hq Hrq Hm Hd He)
    as (seed & H1 & _); [cbn; congruence|].
  destruct H1 as (? & pass' & key & [= <-] & X1 & X2 & X3). rewrite Hps in X1. injection X1 as <-.
  specialize (Hno key X2). by rewrite X3 in Hno.
Qed.
Print Assumptions C20_wrong_passphrase.

(** Signing with the right passphrase, without one, with a wrong one. *)
Definition ex_deep_sign : list event :=
  demo_open 1
    ++ ask 1 1 (ReqNewSeed (str "a") (str "deep") (Some (Dlp 1 1 (demo_sec (fill 64 x44)))) true) x0a
    ++ ask 1 2 (ReqSign (str "b") (fill 32 x0a) (Some (demo_sec (fill 64 x44))) (str "hi")) x00
    ++ ask 1 3 (ReqSign (str "c") (fill 32 x0a) None (str "hi")) x00
    ++ ask 1 4 (ReqSign (str "d") (fill 32 x0a) (Some (demo_sec (fill 64 x45))) (str "hi")) x00.
Example C20_ex :
  map (fun x => is_error (snd (fst x))) (replies sql_store (demo_env true) ex_deep_sign 1)
    = [false; false; false; true; true].
Proof. by vm_compute. Qed.

(** ** C14, continued: the same signatures

    A seed exported from one keystore and imported into another signs there, at any later time
    and after any restart, exactly as it does in the first; if it was imported deep locked, given
    the passphrase of the import. *)
Theorem C14_same_signatures :
  forall S1 (SO1 : StoreOk S1) g1 S2 (SO2 : StoreOk S2) g2,
  CryptoOk (g_crypto g1) -> g_crypto g2 = g_crypto g1 ->
  forall evs1 cid1 c1 tid1 rq1 id1 t s r p n cipher e k,
    conn_at S1 g1 evs1 cid1 c1 -> received S1 c1 tid1 rq1 ->
    rq_msg S1 rq1 = ReqExportSeed id1 t s r p ->
    sent S1 c1 tid1 (ResExportSeed id1 n cipher) ->
    stored S1 g1 evs1 e -> tag_of e = t -> ed_of e = Some k ->
  forall cidS cS tidS rqS idS dS data sig,
    conn_at S1 g1 evs1 cidS cS -> received S1 cS tidS rqS ->
    rq_msg S1 rqS = ReqSign idS k dS data -> sent S1 cS tidS (ResSign idS sig) ->
    undisturbed S1 rqS -> held_before S1 rqS e ->
  forall evs2 cid2 c2 tid2 rq2 id2 d t' x si,
    conn_at S2 g2 evs2 cid2 c2 -> received S2 c2 tid2 rq2 ->
    rq_msg S2 rq2 = ReqImportSeed id2 s r d n cipher t' x ->
    sent S2 c2 tid2 (ResImportSeed id2 t' si) ->
  forall evs2' cid3 c3 tid3 rq3 id3 d3 m,
    lasting S2 SO2 evs2' -> fresh S2 g2 evs2 evs2' cid3 tid3 ->
    conn_at S2 g2 (evs2 ++ evs2') cid3 c3 -> received S2 c3 tid3 rq3 ->
    rq_msg S2 rq3 = ReqSign id3 k d3 data -> sent S2 c3 tid3 m ->
    came_unlocked S2 rq3 -> undisturbed S2 rq3 ->
    (d = None
     \/ exists dl psec pass, d = Some dl /\ d3 = Some psec
          /\ sec_open (g_crypto g2) 64 (c_dec S2 c2) (dl_pass dl) = Ok pass
          /\ sec_open (g_crypto g2) 64 (c_dec S2 c3) psec = Ok pass) ->
    m = ResSign id3 sig.
Proof.
  intros S1 SO1 g1 S2 SO2 g2 HC HE evs1 cid1 c1 tid1 rq1 id1 t s r p n cipher e k Hc1 Hq1 Hrq1 Hm1 He Ht Hk
    cidS cS tidS rqS idS dS data sig HcS HqS HrqS HmS HdS HeS
    evs2 cid2 c2 tid2 rq2 id2 d t' x si Hc2 Hq2 Hrq2 Hm2
    evs2' cid3 c3 tid3 rq3 id3 d3 m Hl Hf Hc3 Hq3 Hrq3 Hm3 Hu3 Hd3 Hp.
  assert (HC2 : CryptoOk (g_crypto g2)) by (by rewrite HE).
  destruct (right_meaning S1 SO1 g1 HC evs1 cid1 c1 tid1 rq1 _ Hc1 Hq1 Hm1 eq_refl) as (L1 & w1 & M1 & _ & H1).
  rewrite Hrq1 in H1.
  destruct H1 as (_ & Hn & e' & seed & es & seeds & A1 & A2 & A3 & A4 & A5 & A6 & A7 & A8).
  assert (e' = e) as ->.
  { apply (same_tag S1 SO1 g1 HC evs1); [by apply (me_now _ _ _ _ _ _ _ _ M1)|done|congruence]. }
  pose proof (plain_ed_of g1 e seed A3) as Hed. assert (k = sign_pk (g_crypto g1) seed) as -> by congruence.
  pose proof (plain_seed_len g1 es seeds A6) as Hlens.
  destruct (C19_held_signs_itself S1 SO1 g1 HC evs1 cidS cS tidS rqS idS _ dS data sig e HcS HqS HrqS HmS HdS HeS Hk)
    as (seedS & B1 & ->).
  assert (seedS = seed) as ->.
  { destruct e; [|done|done]. eapply plain_seed_det; [exact B1|exact A3]. }
  destruct (right_meaning S2 SO2 g2 HC2 evs2 cid2 c2 tid2 rq2 _ Hc2 Hq2 Hm2 eq_refl) as (L2 & w2 & M2 & _ & H2).
  rewrite Hrq2 in H2. destruct H2 as (_ & _ & _ & e3 & seed3 & e4 & seed4 & D1 & D2 & D3 & D4 & D5 & D6).
  assert (seed3 = seed) as ->.
  { pose proof (plain_seed_len g2 e4 seed4 D2) as Hl4. subst r. rewrite HE in *.
    destruct (box_ok _ HC n seed (box_sk (g_crypto g1) seeds) (box_sk (g_crypto g1) seed4))
      as (c' & E1 & _ & E3); [done|by apply box_sk_len..|].
    unfold box_pk in A8. rewrite E1 in A8. injection A8 as <-. subst s. unfold box_pk in D4. congruence. }
  apply (me_now _ _ _ _ _ _ _ _ M2) in D5.
  pose proof (fresh_request S2 SO2 g2 HC2 evs2' evs2 cid3 c3 tid3 rq3 e3 D5 Hl Hf Hc3 Hq3) as He3.
  rewrite <- HE in *. destruct Hp as [->|(dl & psec & pass & -> & -> & P1 & P2)].
  - destruct D6 as (sec & -> & D6).
    eapply (C18_sign_succeeds S2 SO2 g2 HC2); try done. exact (plain_ed_of g2 _ seed D6).
  - destruct D6 as (pass' & salt & sec & Q1 & -> & D6). assert (pass' = pass) as -> by congruence.
    eapply (C20_deep_sign_succeeds S2 SO2 g2 HC2); try done.
    destruct D6 as (key & _ & _ & _ & K & _). unfold ed_of. cbn. by rewrite K.
Qed.
Print Assumptions C14_same_signatures.

(** One keystore exports a seed and signs with it; another imports it, restarts, and signs. *)
Definition ex_signs1 : list event :=
  demo_open 1 ++ ask 1 1 (ReqNewSeed (str "a") (str "seed") None true) x0a
    ++ ask 1 2 (ReqNewSeed (str "b") (str "me") None true) x0c
    ++ ask 1 3 (ReqExportSeed (str "c") (str "seed") (fill 32 x0c) (fill 32 x0d) None) x00
    ++ ask 1 4 (ReqSign (str "d") (fill 32 x0a) None (str "hi")) x00.
Definition ex_signs2 : list event :=
  ex_import ++ EvRestart :: demo_open 2 ++ ask 2 1 (ReqSign (str "e") (fill 32 x0a) None (str "hi")) x00.
Example C14_same_signatures_ex :
  exists sig,
    map (fun x => snd (fst x)) (drop 3 (replies sql_store (demo_env false) ex_signs1 1))
      = [ResExportSeed (str "c") (fill 24 x00) (fill 32 x0a ++ fill 16 x19); ResSign (str "d") sig]
    /\ map (fun x => snd (fst x)) (drop 1 (replies sql_store (demo_env false) ex_signs2 2)) = [ResSign (str "e") sig].
Proof. eexists. split; by vm_compute. Qed.

(** ** C21: boxes opened by the recipient give back the message *)

(** A box made by one keystore is opened by a keystore that holds the recipient key. *)
Theorem C21_box_open :
  forall S1 (SO1 : StoreOk S1) g1 S2 (SO2 : StoreOk S2) g2,
  CryptoOk (g_crypto g1) -> g_crypto g2 = g_crypto g1 ->
  forall evs1 cid1 c1 tid1 rq1 id1 s r p data n cipher,
    conn_at S1 g1 evs1 cid1 c1 -> received S1 c1 tid1 rq1 ->
    rq_msg S1 rq1 = ReqBox id1 s r p data -> sent S1 c1 tid1 (ResBox id1 n cipher) ->
  forall evs2 cid2 c2 tid2 rq2 id2 p' m er,
    conn_at S2 g2 evs2 cid2 c2 -> received S2 c2 tid2 rq2 ->
    rq_msg S2 rq2 = ReqBoxOpen id2 s r p' n cipher -> sent S2 c2 tid2 m ->
    came_unlocked S2 rq2 -> undisturbed S2 rq2 ->
    held_before S2 rq2 er -> is_deep er = false -> x_of er = Some r ->
    m = ResBoxOpen id2 data.
Proof.
  intros S1 SO1 g1 S2 SO2 g2 HC HE evs1 cid1 c1 tid1 rq1 id1 s r p data n cipher Hc1 Hq1 Hrq1 Hm1
    evs2 cid2 c2 tid2 rq2 id2 p' m er Hc2 Hq2 Hrq2 Hm2 Hu Hd Her Hder Hxer.
  assert (HC2 : CryptoOk (g_crypto g2)) by (by rewrite HE).
  destruct (right_meaning S1 SO1 g1 HC evs1 cid1 c1 tid1 rq1 _ Hc1 Hq1 Hm1 eq_refl) as (L1 & w1 & M1 & _ & H1).
  rewrite Hrq1 in H1. destruct H1 as (_ & Hn & es & seeds & A1 & A2 & A3 & A4).
  pose proof (plain_seed_len g1 es seeds A2) as Hlens.
  assert (Hopen : forall seedr, length seedr = 32 -> r = box_pk (g_crypto g2) seedr ->
    box_open (g_crypto g2) n cipher s (box_sk (g_crypto g2) seedr) = Ok data).
  { intros seedr Hl ->. rewrite HE in *.
    destruct (box_ok _ HC n data (box_sk (g_crypto g1) seeds) (box_sk (g_crypto g1) seedr))
      as (c' & B1 & _ & B3); [done|by apply box_sk_len..|].
    unfold box_pk in A4. rewrite B1 in A4. injection A4 as <-. rewrite A3. exact B3. }
  destruct (fine_answer S2 SO2 g2 HC2 evs2 cid2 c2 tid2 rq2 m Hc2 Hq2 Hm2 Hd Hu) as (L2 & w2 & M2 & HG).
  rewrite Hrq2 in HG. destruct HG as [[Hid H]|(err & -> & H)].
  - destruct m; try done. cbn in Hid. subst.
    destruct H as (_ & e3 & seed3 & D1 & D2 & D3 & D4).
    rewrite (Hopen seed3) in D4; [|by eapply plain_seed_len|done]. by injection D4 as <-.
  - exfalso.
    assert (Hst : stored S2 g2 evs2 er) by (by eapply before_now).
    destruct (seed_info_of er) as [sir|] eqn:Esi; [|unfold x_of in Hxer; by rewrite Esi in Hxer].
    destruct (stored_plain S2 SO2 g2 HC2 evs2 er sir Hst Hder Esi) as (seedr & Hr).
    pose proof (plain_x_of g2 er seedr Hr) as Hxr. assert (r = box_pk (g_crypto g2) seedr) by congruence.
    apply (H er seedr) with data; [by apply (me_before _ _ _ _ _ _ _ _ M2)|done|done|].
    apply Hopen; [by eapply plain_seed_len|done].
Qed.
Print Assumptions C21_box_open.

(** The same for boxes between signing keys. *)
Theorem C21_box_sign_open :
  forall S1 (SO1 : StoreOk S1) g1 S2 (SO2 : StoreOk S2) g2,
  CryptoOk (g_crypto g1) -> g_crypto g2 = g_crypto g1 ->
  forall evs1 cid1 c1 tid1 rq1 id1 s r p data n cipher,
    conn_at S1 g1 evs1 cid1 c1 -> received S1 c1 tid1 rq1 ->
    rq_msg S1 rq1 = ReqBoxSign id1 s r p data -> sent S1 c1 tid1 (ResBoxSign id1 n cipher) ->
  forall evs2 cid2 c2 tid2 rq2 id2 p' m er,
    conn_at S2 g2 evs2 cid2 c2 -> received S2 c2 tid2 rq2 ->
    rq_msg S2 rq2 = ReqBoxSignOpen id2 s r p' n cipher -> sent S2 c2 tid2 m ->
    came_unlocked S2 rq2 -> undisturbed S2 rq2 ->
    held_before S2 rq2 er -> is_deep er = false -> ed_of er = Some r ->
    m = ResBoxSignOpen id2 data.
Proof.
  intros S1 SO1 g1 S2 SO2 g2 HC HE evs1 cid1 c1 tid1 rq1 id1 s r p data n cipher Hc1 Hq1 Hrq1 Hm1
    evs2 cid2 c2 tid2 rq2 id2 p' m er Hc2 Hq2 Hrq2 Hm2 Hu Hd Her Hder Hxer.
  assert (HC2 : CryptoOk (g_crypto g2)) by (by rewrite HE).
  destruct (right_meaning S1 SO1 g1 HC evs1 cid1 c1 tid1 rq1 _ Hc1 Hq1 Hm1 eq_refl) as (L1 & w1 & M1 & _ & H1).
  rewrite Hrq1 in H1. destruct H1 as (_ & Hn & es & seeds & xp & xs & A1 & A2 & A3 & A4 & A5 & A6).
  pose proof (plain_seed_len g1 es seeds A2) as Hlens.
  assert (Hopen : forall seedr, length seedr = 32 -> r = sign_pk (g_crypto g2) seedr ->
    exists xp xs, ed_pk_to_x (g_crypto g2) s = Ok xp
      /\ ed_sk_to_x (g_crypto g2) (sign_sk (g_crypto g2) seedr) = Ok xs
      /\ box_open (g_crypto g2) n cipher xp xs = Ok data).
  { intros seedr Hl ->. rewrite HE in *.
    destruct (ed_to_x_ok _ HC seeds Hlens) as (ks & K1 & K2 & K3).
    destruct (ed_to_x_ok _ HC seedr Hl) as (kr & R1 & R2 & R3).
    rewrite K1 in A5. injection A5 as <-. rewrite R3 in A4. injection A4 as <-.
    exists (x_base (g_crypto g1) ks), kr. rewrite A3. split; [done|]. split; [done|].
    destruct (box_ok _ HC n data ks kr) as (c' & B1 & _ & B3); [done..|].
    rewrite B1 in A6. by injection A6 as <-. }
  destruct (fine_answer S2 SO2 g2 HC2 evs2 cid2 c2 tid2 rq2 m Hc2 Hq2 Hm2 Hd Hu) as (L2 & w2 & M2 & HG).
  rewrite Hrq2 in HG. destruct HG as [[Hid H]|(err & -> & H)].
  - destruct m; try done. cbn in Hid. subst.
    destruct H as (_ & e3 & seed3 & xp3 & xs3 & D1 & D2 & D3 & D4 & D5 & D6).
    destruct (Hopen seed3) as (xp' & xs' & O1 & O2 & O3); [by eapply plain_seed_len|done|]. congruence.
  - exfalso.
    assert (Hst : stored S2 g2 evs2 er) by (by eapply before_now).
    destruct (seed_info_of er) as [sir|] eqn:Esi; [|unfold ed_of in Hxer; by rewrite Esi in Hxer].
    destruct (stored_plain S2 SO2 g2 HC2 evs2 er sir Hst Hder Esi) as (seedr & Hr).
    pose proof (plain_ed_of g2 er seedr Hr) as Hxr. assert (Er : r = sign_pk (g_crypto g2) seedr) by congruence.
    destruct (Hopen seedr) as (xp' & xs' & O1 & O2 & O3); [by eapply plain_seed_len|done|].
    apply (H er seedr xp' xs') with data; [by apply (me_before _ _ _ _ _ _ _ _ M2)|done..].
Qed.
Print Assumptions C21_box_sign_open.

(** Making a box succeeds when the sender is held, for every recipient key that is the
    public key of something. *)
Theorem C21_box_succeeds :
  forall S (SO : StoreOk S) g, CryptoOk (g_crypto g) ->
  forall evs cid c tid rq m id s sk p data es,
    conn_at S g evs cid c -> received S c tid rq -> sent S c tid m ->
    length sk = 32 -> rq_msg S rq = ReqBox id s (x_base (g_crypto g) sk) p data ->
    came_unlocked S rq -> undisturbed S rq ->
    held_before S rq es -> x_of es = Some s -> is_deep es = false ->
    exists n cipher, m = ResBox id n cipher.
Proof.
  intros S SO g HC evs cid c tid rq m id s sk p data es Hc Hq Hm Hsk Hrq Hu Hd Hes Hxs Hds.
  destruct (fine_answer S SO g HC evs cid c tid rq m Hc Hq Hm Hd Hu) as (L0 & w & M & HG).
  rewrite Hrq in HG. destruct HG as [[Hid H]|(err & -> & H)].
  - destruct m; try done. cbn in Hid. subst. by eexists _, _.
  - exfalso.
    assert (Hst2 : stored S g evs es) by (by eapply before_now).
    assert (exists seed, plain_seed g es seed) as [seed2 Hp2].
    { unfold x_of in Hxs. destruct (seed_info_of es) as [si|] eqn:E; [|done].
      by eapply stored_plain. }
    pose proof (plain_x_of g _ _ Hp2) as E2.
    destruct (H es seed2) as (n & Hn & F); [by apply (me_before _ _ _ _ _ _ _ _ M)|done|congruence|].
    destruct (box_ok _ HC n data (box_sk (g_crypto g) seed2) sk Hn) as (c' & B1 & _);
      [apply box_sk_len; [done|by eapply plain_seed_len]|done|].
    by rewrite B1 in F.
Qed.
Print Assumptions C21_box_succeeds.

(** So it does with signing keys. *)
Theorem C21_box_sign_succeeds :
  forall S (SO : StoreOk S) g, CryptoOk (g_crypto g) ->
  forall evs cid c tid rq m id s r p data es,
    conn_at S g evs cid c -> received S c tid rq -> sent S c tid m ->
    length r = 32 -> rq_msg S rq = ReqBoxSign id s (sign_pk (g_crypto g) r) p data ->
    came_unlocked S rq -> undisturbed S rq ->
    held_before S rq es -> ed_of es = Some s -> is_deep es = false ->
    exists n cipher, m = ResBoxSign id n cipher.
Proof.
  intros S SO g HC evs cid c tid rq m id s r p data es Hc Hq Hm Hr Hrq Hu Hd Hes Hxs Hds.
  destruct (fine_answer S SO g HC evs cid c tid rq m Hc Hq Hm Hd Hu) as (L0 & w & M & HG).
  rewrite Hrq in HG. destruct HG as [[Hid H]|(err & -> & H)].
  - destruct m; try done. cbn in Hid. subst. by eexists _, _.
  - exfalso.
    assert (Hst2 : stored S g evs es) by (by eapply before_now).
    assert (exists seed, plain_seed g es seed) as [seed2 Hp2].
    { unfold ed_of in Hxs. destruct (seed_info_of es) as [si|] eqn:E; [|done].
      by eapply stored_plain. }
    pose proof (plain_ed_of g _ _ Hp2) as E2.
    destruct (ed_to_x_ok _ HC r Hr) as (kr & _ & R2 & R3).
    destruct (ed_to_x_ok _ HC seed2) as (ks & K1 & K2 & _); [by eapply plain_seed_len|].
    destruct (H es seed2 (x_base (g_crypto g) kr) ks) as (n & Hn & F); [by apply (me_before _ _ _ _ _ _ _ _ M)|done|congruence|done|done|].
    destruct (box_ok _ HC n data ks kr Hn) as (c' & B1 & _); [done..|].
    by rewrite B1 in F.
Qed.
Print Assumptions C21_box_sign_succeeds.

(** A ciphertext shorter than the authenticator is refused with an error message. *)
Theorem C21_short_refused :
  forall S (SO : StoreOk S) g, CryptoOk (g_crypto g) ->
  forall evs cid c tid rq m id s r p n cipher,
    conn_at S g evs cid c -> received S c tid rq -> sent S c tid m ->
    rq_msg S rq = ReqBoxOpen id s r p n cipher \/ rq_msg S rq = ReqBoxSignOpen id s r p n cipher
    \/ rq_msg S rq = ReqSecretBoxOpen id s p n cipher ->
    length cipher < 16 -> is_error m = true.
Proof.
  intros S SO g HC evs cid c tid rq m id s r p n cipher Hc Hq Hm Hrq Hl.
  destruct (is_error m) eqn:E; [done|].
  destruct (right_meaning S SO g HC _ cid c tid rq m Hc Hq Hm E) as (L0 & w & M & Hid & H).
  destruct Hrq as [Hrq|[Hrq|Hrq]]; rewrite Hrq in H; destruct m; try done.
  - destruct H as (_ & ? & ? & _ & _ & _ & H). apply (box_open_len _ HC) in H. unfold MACBYTES in H. lia.
  - destruct H as (_ & ? & ? & ? & ? & _ & _ & _ & _ & _ & H). apply (box_open_len _ HC) in H.
    unfold MACBYTES in H. lia.
  - destruct H as (_ & ? & ? & _ & _ & _ & H). apply (sbox_open_len _ HC) in H. unfold MACBYTES in H. lia.
Qed.
Print Assumptions C21_short_refused.

(** Boxed by one key of the keystore for another, both ways of naming keys. *)
Definition ex_box : list event :=
  demo_open 1
    ++ ask 1 1 (ReqNewSeed (str "a") (str "s") None true) x0a
    ++ ask 1 2 (ReqNewSeed (str "b") (str "r") None true) x0b
    ++ ask 1 3 (ReqBox (str "c") (fill 32 x0a) (fill 32 x0b) None (str "hi")) x01
    ++ ask 1 4 (ReqBoxOpen (str "d") (fill 32 x0a) (fill 32 x0b) None (fill 24 x01) (str "hi" ++ fill 16 x15)) x00
    ++ ask 1 5 (ReqBoxSignOpen (str "e") (fill 32 x0a) (fill 32 x0b) None (fill 24 x01) (str "hi" ++ fill 16 x15)) x00
    ++ ask 1 6 (ReqBoxOpen (str "f") (fill 32 x0a) (fill 32 x0b) None (fill 24 x01) (str "hi")) x00.
Example C21_ex :
  map (fun x => snd (fst x)) (drop 3 (replies sql_store (demo_env true) ex_box 1))
    = [ResBox (str "c") (fill 24 x01) (str "hi" ++ fill 16 x15); ResBoxOpen (str "d") (str "hi");
       ResBoxSignOpen (str "e") (str "hi"); ResError (str "f") (str "InvalidCipherLength")].
Proof. by vm_compute. Qed.

(** ** C22: secret boxes are opened by the same tag *)

Theorem C22_secret_box_open :
  forall S (SO : StoreOk S) g, CryptoOk (g_crypto g) ->
  forall evs cid1 c1 tid1 rq1 id1 t p data n cipher,
    conn_at S g evs cid1 c1 -> received S c1 tid1 rq1 ->
    rq_msg S rq1 = ReqSecretBox id1 t p data -> sent S c1 tid1 (ResSecretBox id1 n cipher) ->
  forall evs' cid2 c2 tid2 rq2 id2 p' m,
    lasting S SO evs' -> fresh S g evs evs' cid2 tid2 ->
    conn_at S g (evs ++ evs') cid2 c2 -> received S c2 tid2 rq2 ->
    rq_msg S rq2 = ReqSecretBoxOpen id2 t p' n cipher -> sent S c2 tid2 m ->
    came_unlocked S rq2 -> undisturbed S rq2 ->
    m = ResSecretBoxOpen id2 data.
Proof.
  intros S SO g HC evs cid1 c1 tid1 rq1 id1 t p data n cipher Hc1 Hq1 Hrq1 Hm1
    evs' cid2 c2 tid2 rq2 id2 p' m Hl Hf Hc2 Hq2 Hrq2 Hm2 Hu Hd.
  destruct (right_meaning S SO g HC evs cid1 c1 tid1 rq1 _ Hc1 Hq1 Hm1 eq_refl) as (L1 & w1 & M1 & _ & H1).
  rewrite Hrq1 in H1. destruct H1 as (_ & Hn & e & seed & A1 & A2 & A3 & A4).
  apply (me_now _ _ _ _ _ _ _ _ M1) in A1.
  pose proof (fresh_request S SO g HC evs' evs cid2 c2 tid2 rq2 e A1 Hl Hf Hc2 Hq2) as He.
  assert (Hopen : sbox_open (g_crypto g) n cipher seed = Ok data).
  { rewrite A4. apply (sbox_ok _ HC); [done|]. exact (plain_seed_len g _ _ A3). }
  destruct (fine_answer S SO g HC _ cid2 c2 tid2 rq2 m Hc2 Hq2 Hm2 Hd Hu) as (L2 & w2 & M2 & HG).
  rewrite Hrq2 in HG. destruct HG as [[Hid H]|(err & -> & H)].
  - destruct m; try done. cbn in Hid. subst.
    destruct H as (_ & e3 & seed3 & D1 & D2 & D3 & D4).
    assert (e3 = e) as ->.
    { eapply (same_tag S SO g HC (evs ++ evs')); [by apply (me_now _ _ _ _ _ _ _ _ M2)|by eapply before_now|done]. }
    assert (seed3 = seed) as -> by (eapply plain_seed_det; [exact D3|exact A3]). congruence.
  - exfalso. by apply (H e seed) with data; [apply (me_before _ _ _ _ _ _ _ _ M2)|..].
Qed.
Print Assumptions C22_secret_box_open.

(** Boxing under the tag of a seed that is not deep locked always succeeds; under any
    other tag it never does. *)
Theorem C22_secret_box_answer :
  forall S (SO : StoreOk S) g, CryptoOk (g_crypto g) ->
  forall evs cid c tid rq m id t p data,
    conn_at S g evs cid c -> received S c tid rq -> rq_msg S rq = ReqSecretBox id t p data ->
    sent S c tid m -> came_unlocked S rq -> undisturbed S rq ->
    (forall e si, held_before S rq e -> tag_of e = t -> seed_info_of e = Some si -> is_deep e = false ->
       exists n cipher, m = ResSecretBox id n cipher)
    /\ (forall e, stored S g evs e -> tag_of e = t -> is_deep e = true \/ seed_info_of e = None ->
         is_error m = true)
    /\ ((forall e, stored S g evs e -> tag_of e <> t) -> is_error m = true).
Proof.
  intros S SO g HC evs cid c tid rq m id t p data Hc Hq Hrq Hm Hu Hd.
  destruct (fine_answer S SO g HC _ cid c tid rq m Hc Hq Hm Hd Hu) as (L0 & w & M & HG).
  rewrite Hrq in HG. destruct HG as [[Hid H]|(err & -> & H)].
  - destruct m; try done. cbn in Hid. subst id0. destruct H as (_ & Hn & e & seed & A1 & A2 & A3 & A4).
    split; [by eexists _, _|]. apply (me_now _ _ _ _ _ _ _ _ M) in A1. split.
    + intros e' He' Ht Hx. exfalso.
      assert (e' = e) as -> by (eapply (same_tag S SO g HC evs); [done|done|congruence]).
      destruct e; try done. by destruct Hx.
    + intros Hno. exfalso. by apply (Hno e).
  - split; [|done]. intros e si He Ht Hs Hdp. exfalso.
    destruct (stored_plain S SO g HC evs e si) as [seed Hp]; [by eapply before_now|done|done|].
    apply (H e seed); [by apply (me_before _ _ _ _ _ _ _ _ M)|done|done].
Qed.
Print Assumptions C22_secret_box_answer.

Definition ex_sbox1 : list event :=
  demo_open 1
    ++ ask 1 1 (ReqNewSeed (str "a") (str "t") None true) x0a
    ++ ask 1 2 (ReqSecretBox (str "b") (str "t") None (str "hi")) x01.
Definition ex_sbox2 : list event :=
  EvRestart :: demo_open 1
    ++ ask 1 1 (ReqSecretBoxOpen (str "c") (str "t") None (fill 24 x01) (str "hi" ++ fill 16 x0a)) x00
    ++ ask 1 2 (ReqSecretBoxOpen (str "d") (str "u") None (fill 24 x01) (str "hi" ++ fill 16 x0a)) x00.
Example C22_ex :
  map (fun x => snd (fst x)) (drop 2 (replies sql_store (demo_env true) ex_sbox1 1))
    = [ResSecretBox (str "b") (fill 24 x01) (str "hi" ++ fill 16 x0a)]
  /\ map (fun x => snd (fst x)) (take 1 (drop 1 (replies sql_store (demo_env true) (ex_sbox1 ++ ex_sbox2) 1)))
    = [ResSecretBoxOpen (str "c") (str "hi")]
  /\ map (fun x => is_error (snd (fst x))) (replies sql_store (demo_env true) (ex_sbox1 ++ ex_sbox2) 1)
    = [false; false; true].
Proof. split; [by vm_compute|]. split; by vm_compute. Qed.

(** ** C23: a TLS private key comes back as created, only for certificates *)

(** The certificate announced and the private key returned later were generated
    together; the client decrypts the key with the connection's own key. *)
Theorem C23_key_of_certificate :
  forall S (SO : StoreOk S) g, CryptoOk (g_crypto g) ->
  forall evs cid1 c1 tid1 rq1 id1 t ci,
    conn_at S g evs cid1 c1 -> received S c1 tid1 rq1 ->
    rq_msg S rq1 = ReqNewCert id1 t -> sent S c1 tid1 (ResNewCert id1 t ci) ->
    exists gc, g_rcgen g gc = true
      /\ ci = CertInfo (gc_sni gc) (blake2b (g_crypto g) 32 (gc_cert gc)) (gc_cert gc) /\
  forall evs' cid2 c2 tid2 rq2 id2 m,
    lasting S SO evs' -> fresh S g evs evs' cid2 tid2 ->
    conn_at S g (evs ++ evs') cid2 c2 -> received S c2 tid2 rq2 ->
    rq_msg S rq2 = ReqCertKey id2 t -> sent S c2 tid2 m ->
    came_unlocked S rq2 -> undisturbed S rq2 ->
    exists sec, m = ResCertKey id2 sec
      /\ sec_open_any (g_crypto g) (c_enc S c2) sec = Some (Ok (gc_priv gc)).
Proof.
  intros S SO g HC evs cid1 c1 tid1 rq1 id1 t ci Hc1 Hq1 Hrq1 Hm1.
  destruct (right_meaning S SO g HC evs cid1 c1 tid1 rq1 _ Hc1 Hq1 Hm1 eq_refl) as (L1 & w1 & M1 & _ & H1).
  rewrite Hrq1 in H1. destruct H1 as (_ & _ & gc & sec & A1 & A2 & A3 & A4).
  exists gc. split; [done|]. split; [done|].
  intros evs' cid2 c2 tid2 rq2 id2 m Hl Hf Hc2 Hq2 Hrq2 Hm2 Hu Hd.
  apply (me_now _ _ _ _ _ _ _ _ M1) in A3.
  pose proof (fresh_request S SO g HC evs' evs cid2 c2 tid2 rq2 _ A3 Hl Hf Hc2 Hq2) as He.
  destruct (fine_answer S SO g HC _ cid2 c2 tid2 rq2 m Hc2 Hq2 Hm2 Hd Hu) as (L2 & w2 & M2 & HG).
  rewrite Hrq2 in HG. destruct HG as [[Hid H]|(err & -> & H)].
  - destruct m; try done. cbn in Hid. subst id.
    destruct H as (_ & e3 & priv & hdr & D1 & D2 & D3 & D4 & ->). eexists. split; [done|].
    assert (e3 = ECert t ci sec) as ->.
    { eapply (same_tag S SO g HC (evs ++ evs')); [by apply (me_now _ _ _ _ _ _ _ _ M2)|by eapply before_now|done]. }
    rewrite (sec_open_any_encrypt _ HC). cbn in A4, D3. congruence.
  - exfalso. by apply (H (ECert t ci sec) (gc_priv gc)); [apply (me_before _ _ _ _ _ _ _ _ M2)|..].
Qed.
Print Assumptions C23_key_of_certificate.

(** Whatever private key comes out belongs to the certificate under that tag. *)
Theorem C23_only_that_key :
  forall S (SO : StoreOk S) g, CryptoOk (g_crypto g) ->
  forall evs cid c tid rq id t sec,
    conn_at S g evs cid c -> received S c tid rq -> rq_msg S rq = ReqCertKey id t ->
    sent S c tid (ResCertKey id sec) ->
    exists gc es, g_rcgen g gc = true /\ stored S g evs (ECert t (cert_of g gc) es)
      /\ sec_open_any (g_crypto g) (c_enc S c) sec = Some (Ok (gc_priv gc)).
Proof.
  intros S SO g HC evs cid c tid rq id t sec Hc Hq Hrq Hm.
  destruct (right_meaning S SO g HC evs cid c tid rq _ Hc Hq Hm eq_refl) as (L1 & w1 & M1 & _ & H1).
  rewrite Hrq in H1. destruct H1 as (_ & e & priv & hdr & A1 & A2 & A3 & A4 & ->).
  apply (me_now _ _ _ _ _ _ _ _ M1) in A1.
  destruct (stored_fine S SO g HC evs e A1) as [_ Hok]. destruct e as [| |t' ci es]; try done.
  destruct Hok as (gc & B1 & -> & B2). exists gc, es. split; [done|]. cbn in A2. subst t'. split; [done|].
  rewrite (sec_open_any_encrypt _ HC). cbn in A3, B2. congruence.
Qed.
Print Assumptions C23_only_that_key.

Theorem C23_not_for_seeds :
  forall S (SO : StoreOk S) g, CryptoOk (g_crypto g) ->
  forall evs cid c tid rq id t m e si,
    conn_at S g evs cid c -> received S c tid rq -> rq_msg S rq = ReqCertKey id t ->
    sent S c tid m -> stored S g evs e -> tag_of e = t -> seed_info_of e = Some si ->
    is_error m = true.
Proof.
  intros S SO g HC evs cid c tid rq id t m e si Hc Hq Hrq Hm He Ht Hs.
  destruct (is_error m) eqn:E; [done|].
  destruct (right_meaning S SO g HC _ cid c tid rq m Hc Hq Hm E) as (L0 & w & M & Hid & H).
  rewrite Hrq in Hid, H. destruct m; try done. cbn in Hid. subst id0.
  destruct (C23_only_that_key S SO g HC evs cid c tid rq id t _ Hc Hq Hrq Hm) as (gc & es & _ & H1 & _).
  assert (e = ECert t (cert_of g gc) es) as -> by (by eapply (same_tag S SO g HC evs)). done.
Qed.
Print Assumptions C23_not_for_seeds.

Definition ex_cert1 : list event :=
  demo_open 1 ++ ask 1 1 (ReqNewCert (str "a") (str "t")) x0a
    ++ ask 1 2 (ReqNewSeed (str "b") (str "s") None true) x0b.
Definition ex_cert2 : list event :=
  EvRestart :: demo_open 2 ++ ask 2 1 (ReqCertKey (str "c") (str "t")) x0c
    ++ ask 2 2 (ReqCertKey (str "d") (str "s")) x0c.
Example C23_ex :
  exists ci sec,
    map (fun x => snd (fst x)) (take 1 (drop 1 (replies sql_store (demo_env true) ex_cert1 1)))
      = [ResNewCert (str "a") (str "t") ci]
    /\ map (fun x => snd (fst x)) (take 1 (drop 1 (replies sql_store (demo_env true) (ex_cert1 ++ ex_cert2) 2)))
      = [ResCertKey (str "c") sec]
    /\ sec_open_any toy (kdf toy 42 (str "ToCliCxK") demo_tx) sec = Some (Ok (str "sni"))
    /\ map (fun x => is_error (snd (fst x))) (replies sql_store (demo_env true) (ex_cert1 ++ ex_cert2) 2)
      = [false; false; true].
Proof. eexists _, _. split; [by vm_compute|]. split; [by vm_compute|]. split; by vm_compute. Qed.

(** ** C24, server side: no message makes the server panic

    A panic in a handler would end the task serving the connection.  An open connection
    is closed only by the other side hanging up or by bytes that are no message. *)
Theorem C24_server_never_panics :
  forall S (SO : StoreOk S) g, CryptoOk (g_crypto g) ->
  forall evs ev cid c c',
    conn_at S g evs cid c -> c_open S c = true ->
    conn_at S g (evs ++ [ev]) cid c' ->
    c_open S c' = true
    \/ ev = EvHangup cid
    \/ exists raw, ev = EvReceive cid raw /\ is_ok (decode_api raw) = false.
Proof.
  intros S SO g HC evs ev cid c c' Hc Ho Hc'.
  destruct (reach S SO g HC evs) as (L & (HS & HCs & HF) & _ & HL).
  unfold conn_at in *. rewrite run_snoc in Hc'.
  assert (Hsame : c' = c -> c_open S c' = true) by (by intros ->).
  destruct ev as [cid' rx tx|cid' raw|cid' tid' o|cid' tid' e|cid'|d os|]; cbn [step] in Hc'.
  - destruct (s_conns S (run S g evs) !! cid') eqn:E; [left; apply Hsame; congruence|].
    destruct (_ && _); [|left; apply Hsame; congruence]. cbn in Hc'.
    destruct (decide (cid' = cid)) as [->|Hne]; [congruence|].
    rewrite lookup_insert_ne in Hc' by done. left; apply Hsame; congruence.
  - destruct (s_conns S (run S g evs) !! cid') as [c2|] eqn:E; [|left; apply Hsame; congruence].
    cbn [s_conns] in Hc'. destruct (decide (cid' = cid)) as [->|Hne].
    2:{ rewrite lookup_insert_ne in Hc' by done. left; apply Hsame; congruence. }
    rewrite lookup_insert in Hc'. assert (c2 = c) as -> by congruence.
    unfold receive in Hc'. rewrite Ho in Hc'. cbn [andb] in Hc'.
    destruct (N.ltb _ _); [|left; apply Hsame; congruence].
    destruct (decode_api raw) as [a|er] eqn:Ed; injection Hc' as <-; [by left|].
    right; right. exists raw. by rewrite Ed.
  - destruct (s_conns S (run S g evs) !! cid') as [c2|] eqn:E; [|left; apply Hsame; congruence].
    destruct (step_thread S g (s_sh S (run S g evs)) c2 tid' o) as [sh' c3] eqn:Es.
    cbn [s_conns] in Hc'. destruct (decide (cid' = cid)) as [->|Hne].
    2:{ rewrite lookup_insert_ne in Hc' by done. left; apply Hsame; congruence. }
    rewrite lookup_insert in Hc'. assert (c2 = c) as -> by congruence. injection Hc' as ->.
    left. destruct (HCs _ _ Hc) as (H1 & H2 & _). unfold step_thread in Es.
    destruct (c_thr S c !! tid') as [[p|er]|] eqn:Et.
    + pose proof (H2 tid' (ex_intro _ _ Et)) as Hlt. apply lookup_lt_is_Some in Hlt as [rq Hq].
      destruct (H1 _ _ Hq) as (L0 & _ & _ & _ & _ & _ & Hthr & _). unfold thread_ok in Hthr.
      rewrite Et in Hthr. cbv zeta in Es.
      destruct (r_prog S (step1 S g (s_sh S (run S g evs)) (c_unl S c) p o)) as [p'|] eqn:Ep.
      * apply (f_equal snd) in Es. cbn [snd] in Es. by rewrite <- Es.
      * exfalso. destruct p; cbn in Ep; try done.
        -- destruct (o_fail o); [done|]. by destruct (st_write _ _ _).
        -- by destruct (o_fail o).
        -- by destruct (o_fail o).
        -- by destruct (cache_get S (s_sh S (run S g evs)) q).
        -- destruct (o_cert o) as [gc|]; [|done]. by destruct (_ && _).
    + destruct (c_reqs S c !! tid') as [rq|]; apply (f_equal snd) in Es; cbn [snd] in Es; by rewrite <- Es.
    + apply (f_equal snd) in Es. cbn [snd] in Es. by rewrite <- Es.
  - destruct (s_conns S (run S g evs) !! cid') as [c2|] eqn:E; [|left; apply Hsame; congruence].
    cbn [s_conns] in Hc'. destruct (decide (cid' = cid)) as [->|Hne].
    2:{ rewrite lookup_insert_ne in Hc' by done. left; apply Hsame; congruence. }
    rewrite lookup_insert in Hc'. assert (c2 = c) as -> by congruence. injection Hc' as <-.
    left. unfold abort_thread. destruct (c_thr S c !! tid') as [[p|er]|]; done.
  - destruct (s_conns S (run S g evs) !! cid') as [c2|] eqn:E; [|left; apply Hsame; congruence].
    cbn [s_conns] in Hc'. destruct (decide (cid' = cid)) as [->|Hne]; [by right; left|].
    rewrite lookup_insert_ne in Hc' by done. left; apply Hsame; congruence.
  - left. apply Hsame. destruct (direct_okb d); cbn in Hc'; congruence.
  - cbn in Hc'. by rewrite lookup_empty in Hc'.
Qed.
Print Assumptions C24_server_never_panics.

(** ** C49: entries survive a restart and remain usable *)

(** Whatever was stored is there after any number of restarts of a store that keeps its
    contents, at its tag and public keys, and nothing else is. *)
Theorem C49_restart_keeps_entries :
  forall S (SO : StoreOk S) g, CryptoOk (g_crypto g) -> st_persist S SO = true ->
  forall evs e, stored S g (evs ++ [EvRestart]) e <-> stored S g evs e.
Proof.
  intros S SO g HC Hp evs e. destruct (step_stored S SO g HC evs EvRestart) as (H1 & H2 & _).
  split.
  - intros H. destruct (H2 e H) as [H'|[(? & ? & ? & ? & ? & ? & [=] & _)|(? & ? & [=] & _)]]. done.
  - intros H. apply H1; [done|by left].
Qed.
Print Assumptions C49_restart_keeps_entries.

(** A key held before signs on every connection opened after a restart. *)
Theorem C49_signs_after_restart :
  forall S (SO : StoreOk S) g, CryptoOk (g_crypto g) -> st_persist S SO = true ->
  forall evs evs' e k cid c tid rq id d data m,
    stored S g evs e -> ed_of e = Some k -> is_deep e = false ->
    existsb is_restart evs' = true ->
    conn_at S g (evs ++ evs') cid c -> received S c tid rq ->
    rq_msg S rq = ReqSign id k d data -> sent S c tid m -> came_unlocked S rq -> undisturbed S rq ->
    exists sig, m = ResSign id sig /\ sign_verify (g_crypto g) k sig data = true.
Proof.
  intros S SO g HC Hp evs evs' e k cid c tid rq id d data m He Hk Hdp Hr Hc Hq Hrq Hm Hu Hd.
  pose proof (fresh_request S SO g HC evs' evs cid c tid rq e He (or_introl Hp) (or_introl Hr) Hc Hq) as Hb.
  assert (exists seed, plain_seed g e seed) as [seed Hps].
  { unfold ed_of in Hk. destruct (seed_info_of e) as [si|] eqn:E; [|done]. by eapply (stored_plain S SO g HC evs). }
  pose proof (C18_sign_succeeds S SO g HC _ cid c tid rq m id k d data e seed Hc Hq Hrq Hm Hu Hd Hb Hk Hps) as ->.
  eexists. split; [done|]. pose proof (plain_ed_of g _ _ Hps) as E.
  assert (k = sign_pk (g_crypto g) seed) as -> by congruence.
  apply (sign_ok _ HC). exact (plain_seed_len g _ _ Hps).
Qed.
Print Assumptions C49_signs_after_restart.

(** A deep-locked key still signs with its passphrase. *)
Theorem C49_deep_signs_after_restart :
  forall S (SO : StoreOk S) g, CryptoOk (g_crypto g) -> st_persist S SO = true ->
  forall evs evs' e k pass seed psec cid c tid rq id data m,
    stored S g evs e -> ed_of e = Some k -> locked_seed g e pass seed ->
    existsb is_restart evs' = true ->
    conn_at S g (evs ++ evs') cid c -> received S c tid rq ->
    rq_msg S rq = ReqSign id k (Some psec) data ->
    sec_open (g_crypto g) 64 (c_dec S c) psec = Ok pass ->
    sent S c tid m -> came_unlocked S rq -> undisturbed S rq ->
    exists sig, m = ResSign id sig /\ sign_verify (g_crypto g) k sig data = true.
Proof.
  intros S SO g HC Hp evs evs' e k pass seed psec cid c tid rq id data m He Hk Hl Hr Hc Hq Hrq Hps Hm Hu Hd.
  pose proof (fresh_request S SO g HC evs' evs cid c tid rq e He (or_introl Hp) (or_introl Hr) Hc Hq) as Hb.
  destruct (C20_deep_sign_succeeds S SO g HC _ cid c tid rq m id k psec data e pass seed
    Hc Hq Hrq Hm Hu Hd Hb Hk Hl Hps) as [-> H]. by eexists.
Qed.
Print Assumptions C49_deep_signs_after_restart.

(** Exactly as before: a signature made before the restart is made again, byte for byte. *)
Theorem C49_same_signature :
  forall S (SO : StoreOk S) g, CryptoOk (g_crypto g) -> st_persist S SO = true ->
  forall evs e k cid0 c0 tid0 rq0 id0 d0 data sig,
    conn_at S g evs cid0 c0 -> received S c0 tid0 rq0 -> rq_msg S rq0 = ReqSign id0 k d0 data ->
    sent S c0 tid0 (ResSign id0 sig) -> undisturbed S rq0 ->
    held_before S rq0 e -> ed_of e = Some k -> is_deep e = false ->
  forall evs' cid c tid rq id d m,
    existsb is_restart evs' = true ->
    conn_at S g (evs ++ evs') cid c -> received S c tid rq ->
    rq_msg S rq = ReqSign id k d data -> sent S c tid m -> came_unlocked S rq -> undisturbed S rq ->
    m = ResSign id sig.
Proof.
  intros S SO g HC Hp evs e k cid0 c0 tid0 rq0 id0 d0 data sig Hc0 Hq0 Hrq0 Hm0 Hd0 He Hk Hn
    evs' cid c tid rq id d m Hr Hc Hq Hrq Hm Hu Hd.
  destruct (C19_held_signs_itself S SO g HC evs cid0 c0 tid0 rq0 id0 k d0 data sig e Hc0 Hq0 Hrq0 Hm0 Hd0 He Hk)
    as (seed & Hs & ->).
  assert (stored S g evs e) as Hst by (by eapply before_now).
  pose proof (fresh_request S SO g HC evs' evs cid c tid rq e Hst (or_introl Hp) (or_introl Hr) Hc Hq) as Hb.
  eapply (C18_sign_succeeds S SO g HC); try done. by destruct e.
Qed.
Print Assumptions C49_same_signature.

(** It is derived from. *)
Theorem C49_derives_after_restart :
  forall S (SO : StoreOk S) g, CryptoOk (g_crypto g) -> st_persist S SO = true ->
  forall evs evs' e seed cid c tid rq id t td path m,
    stored S g evs e -> plain_seed g e seed ->
    existsb is_restart evs' = true ->
    conn_at S g (evs ++ evs') cid c -> received S c tid rq ->
    rq_msg S rq = ReqDeriveSeed id (tag_of e) None t td path ->
    usable_deep (g_crypto g) (c_dec S c) td ->
    sent S c tid m -> came_unlocked S rq -> undisturbed S rq ->
    (exists si, m = ResDeriveSeed id si /\ si_ed si = sign_pk (g_crypto g) (along (g_crypto g) path seed)
       /\ si_x si = box_pk (g_crypto g) (along (g_crypto g) path seed))
    \/ (is_error m = true /\ exists e', stored S g (evs ++ evs') e' /\
          (tag_of e' = t \/ ed_of e' = Some (sign_pk (g_crypto g) (along (g_crypto g) path seed))
           \/ x_of e' = Some (box_pk (g_crypto g) (along (g_crypto g) path seed)))).
Proof.
  intros S SO g HC Hp evs evs' e seed cid c tid rq id t td path m He Hs Hr Hc Hq Hrq Hus Hm Hu Hd.
  pose proof (fresh_request S SO g HC evs' evs cid c tid rq e He (or_introl Hp) (or_introl Hr) Hc Hq) as Hb.
  destruct (C16_derive_succeeds S SO g HC _ cid c tid rq id (tag_of e) t td path m e seed
    Hc Hq Hm Hrq Hu Hd Hb eq_refl Hs Hus) as [[si ->]|H]; [|by right].
  left. exists si. split; [done|].
  destruct (C16_derive_answer S SO g HC _ cid c tid rq id (tag_of e) None t td path si Hc Hq Hrq Hm)
    as (e1 & seed1 & e2 & H1 & H2 & H3 & _ & _ & -> & -> & _).
  assert (e1 = e) as -> by (eapply (same_tag S SO g HC (evs ++ evs')); [done|by eapply before_now|done]).
  assert (seed1 = seed) as ->; [|done].
  clear - H3 Hs. destruct e; try done. eapply plain_seed_det; [exact H3|exact Hs].
Qed.
Print Assumptions C49_derives_after_restart.

(** It opens what was boxed for it, by any keystore. *)
Theorem C49_opens_after_restart :
  forall S1 (SO1 : StoreOk S1) g1 S2 (SO2 : StoreOk S2) g2,
  CryptoOk (g_crypto g1) -> g_crypto g2 = g_crypto g1 -> st_persist S2 SO2 = true ->
  forall evs1 cid1 c1 tid1 rq1 id1 s r p data n cipher,
    conn_at S1 g1 evs1 cid1 c1 -> received S1 c1 tid1 rq1 ->
    rq_msg S1 rq1 = ReqBox id1 s r p data -> sent S1 c1 tid1 (ResBox id1 n cipher) ->
  forall evs evs' e cid c tid rq id p' m,
    stored S2 g2 evs e -> is_deep e = false -> x_of e = Some r ->
    existsb is_restart evs' = true ->
    conn_at S2 g2 (evs ++ evs') cid c -> received S2 c tid rq ->
    rq_msg S2 rq = ReqBoxOpen id s r p' n cipher -> sent S2 c tid m ->
    came_unlocked S2 rq -> undisturbed S2 rq ->
    m = ResBoxOpen id data.
Proof.
  intros S1 SO1 g1 S2 SO2 g2 HC HE Hp evs1 cid1 c1 tid1 rq1 id1 s r p data n cipher Hc1 Hq1 Hrq1 Hm1
    evs evs' e cid c tid rq id p' m He Hn Hx Hr Hc Hq Hrq Hm Hu Hd.
  assert (HC2 : CryptoOk (g_crypto g2)) by (by rewrite HE).
  pose proof (fresh_request S2 SO2 g2 HC2 evs' evs cid c tid rq e He (or_introl Hp) (or_introl Hr) Hc Hq) as Hb.
  eapply (C21_box_open S1 SO1 g1 S2 SO2 g2 HC HE); [exact Hc1|exact Hq1|exact Hrq1|exact Hm1|exact Hc|done..].
Qed.
Print Assumptions C49_opens_after_restart.

Definition ex_restart1 : list event :=
  demo_open 1
    ++ ask 1 1 (ReqNewSeed (str "a") (str "s") None true) x0a
    ++ ask 1 2 (ReqNewSeed (str "b") (str "d") (Some (Dlp 1 1 (demo_sec (fill 64 x44)))) true) x0b.
Definition ex_restart2 : list event :=
  EvRestart :: EvRestart :: demo_open 1
    ++ ask 1 1 (ReqSign (str "c") (fill 32 x0a) None (str "hi")) x00
    ++ ask 1 2 (ReqSign (str "d") (fill 32 x0b) (Some (demo_sec (fill 64 x44))) (str "hi")) x00
    ++ ask 1 3 (ReqDeriveSeed (str "e") (str "s") None (str "child") None [3%N]) x05
    ++ ask 1 4 (ReqBoxOpen (str "f") (fill 32 x0c) (fill 32 x0a) None (fill 24 x00)
                  (str "secret" ++ fill 16 x16)) x00.
Example C49_ex :
  map (fun x => is_error (snd (fst x))) (replies sql_store (demo_env false) (ex_restart1 ++ ex_restart2) 1)
    = [false; false; false; false; false].
Proof. by vm_compute. Qed.

(** The in-memory store does not keep anything: the same requests fail there. *)
Example C49_ex_memory :
  map (fun x => is_error (snd (fst x))) (replies mem_store (demo_env false) (ex_restart1 ++ ex_restart2) 1)
    = [false; true; true; true; true].
Proof. by vm_compute. Qed.
