(** * PropertiesServer2: what the keys are used for (C13 to C24, C49)

    As in [PropertiesServer1], the statements range over every correct store, every
    environment whose primitives obey [CryptoOk] and every list of events.  The words
    [plain_seed], [locked_seed], [source_seed], [holds_seed], [exportable], [cert_of] and
    [cert_priv] are those of [ServerSpec]. *)

From Verif Require Import Base Utf8 Crypto Toy Types Codec CodecProofs CodecProofs2 Secret Store
  StoreProofs Lru Server System ServerSpec ServerVocab ServerProofs ServerProofs2 SystemProofs
  AnswerProofs ServerTheorems Demo PropertiesServer1.

(** Along a path: key derivation with each index in turn. *)
Definition along (C : Crypto) (path : list N) (seed : bytes) : bytes :=
  fold_left (fun k i => kdf C i (str "SeedBndl") k) path seed.

(** A deep-lock passphrase that can be used: it decrypts, and the limits are in range. *)
Definition usable_deep (C : Crypto) (dec : bytes) (d : option dlp) : Prop :=
  forall dl, d = Some dl -> exists pass, sec_open C 64 dec (dl_pass dl) = Ok pass
    /\ forall salt, length salt = 16 -> is_ok (argon2id C pass salt (dl_ops dl) (dl_mem dl)) = true.

Lemma usable_not_bad g dec d : usable_deep (g_crypto g) dec d -> ~ bad_deep g dec d.
Proof.
  intros H (dl & E & Hb). destruct (H dl E) as (pass & E1 & E2).
  destruct Hb as [Hb|(pass' & salt & Hp & Hs & Hb)].
  - by rewrite E1 in Hb.
  - assert (pass' = pass) as -> by congruence. by rewrite (E2 salt Hs) in Hb.
Qed.

(** ** C13: a seed created as non-exportable is never exported *)

Theorem C13_what_is_exported :
  forall S (SO : StoreOk S) g, CryptoOk (g_crypto g) ->
  forall evs cid c tid rq id t s r p n cipher,
    conn_at S g evs cid c -> received S c tid rq -> rq_msg S rq = ReqExportSeed id t s r p ->
    sent S c tid (ResExportSeed id n cipher) ->
    exists e seed, stored S g evs e /\ tag_of e = t
      /\ is_deep e = false /\ exportable e = true /\ plain_seed g e seed
      /\ exists e2 seed2, stored S g evs e2 /\ x_of e2 = Some s /\ plain_seed g e2 seed2
           /\ box_easy (g_crypto g) n seed r (box_sk (g_crypto g) seed2) = Ok cipher.
Proof.
  intros S SO g HC evs cid c tid rq id t s r p n cipher Hc Hq Hrq Hm.
  destruct (right_meaning S SO g HC evs cid c tid rq _ Hc Hq Hm eq_refl) as (L0 & w & M & _ & H).
  rewrite Hrq in H. destruct H as (_ & _ & e & seed & e2 & seed2 & H1 & H2 & H3 & H4 & H5 & H6 & H7 & H8).
  exists e, seed. split; [by apply (me_now _ _ _ _ _ _ _ _ M)|]. split; [done|].
  split; [by destruct e|]. split; [done|]. split; [done|].
  exists e2, seed2. split; [by apply (me_now _ _ _ _ _ _ _ _ M)|]. rewrite H7.
  split; [by apply plain_x_of|]. done.
Qed.
Print Assumptions C13_what_is_exported.

(** An entry that is not exportable, or is deep locked, is refused to every export request
    for its tag, at any later time. *)
Theorem C13_never_exported :
  forall S (SO : StoreOk S) g, CryptoOk (g_crypto g) ->
  forall evs evs' e cid c tid rq id s r p m,
    stored S g evs e -> exportable e = false \/ is_deep e = true -> lasting S SO evs' ->
    conn_at S g (evs ++ evs') cid c -> received S c tid rq ->
    rq_msg S rq = ReqExportSeed id (tag_of e) s r p -> sent S c tid m ->
    is_error m = true.
Proof.
  intros S SO g HC evs evs' e cid c tid rq id s r p m He Hx Hl Hc Hq Hrq Hm.
  destruct (is_error m) eqn:E; [done|].
  destruct (right_meaning S SO g HC _ cid c tid rq m Hc Hq Hm E) as (L0 & w & M & Hid & H).
  rewrite Hrq in H, Hid. destruct m; try done. cbn in Hid. subst.
  edestruct (C13_what_is_exported S SO g HC (evs ++ evs') cid c tid rq) as (e' & seed & H1 & H2 & H3 & H4 & _);
    [done..|].
  assert (e' = e) as ->.
  { apply (same_tag S SO g HC (evs ++ evs')); [done| |done]. by apply (stored_lasts S SO g HC). }
  destruct Hx; congruence.
Qed.
Print Assumptions C13_never_exported.

(** So a seed for which the server was asked not to let it out never is let out. *)
Theorem C13_created_not_exportable :
  forall S (SO : StoreOk S) g, CryptoOk (g_crypto g) ->
  forall evs cid c tid rq id t d si evs' cid' c' tid' rq' id' s r p m,
    conn_at S g evs cid c -> received S c tid rq -> rq_msg S rq = ReqNewSeed id t d false ->
    sent S c tid (ResNewSeed id t si) ->
    lasting S SO evs' ->
    conn_at S g (evs ++ evs') cid' c' -> received S c' tid' rq' ->
    rq_msg S rq' = ReqExportSeed id' t s r p -> sent S c' tid' m ->
    is_error m = true.
Proof.
  intros S SO g HC evs cid c tid rq id t d si evs' cid' c' tid' rq' id' s r p m
    Hc Hq Hrq Hm Hl Hc' Hq' Hrq' Hm'.
  destruct (right_meaning S SO g HC evs cid c tid rq _ Hc Hq Hm eq_refl) as (L0 & w & M & _ & H).
  rewrite Hrq in H. destruct H as (_ & _ & Hx & e & seed & He & Hh).
  assert (Ht : tag_of e = t /\ exportable e = false).
  { unfold exportable. destruct d as [dl|].
    - destruct Hh as (? & ? & ? & _ & -> & _). done.
    - destruct Hh as (? & -> & _). done. }
  destruct Ht as [<- Hx'].
  eapply (C13_never_exported S SO g HC evs evs' e); eauto. by apply (me_now _ _ _ _ _ _ _ _ M).
Qed.
Print Assumptions C13_created_not_exportable.

(** Where exportable entries come from: a request to create or import an exportable seed, a
    derivation from an exportable one, or a direct call of the store with the flag set. *)
Theorem C13_exportable_origin :
  forall S (SO : StoreOk S) g, CryptoOk (g_crypto g) ->
  forall evs e, stored S g evs e -> exportable e = true ->
    exists pre ev post, evs = pre ++ ev :: post /\
      ((exists cid tid o c rq, ev = EvStep cid tid o /\ conn_at S g pre cid c
          /\ received S c tid rq /\
          match rq_msg S rq with
          | ReqNewSeed _ t _ x => t = tag_of e /\ x = true
          | ReqImportSeed _ _ _ _ _ _ t x => t = tag_of e /\ x = true
          | ReqDeriveSeed _ s _ t _ _ =>
              t = tag_of e /\ exists e0, stored S g pre e0 /\ tag_of e0 = s /\ exportable e0 = true
          | _ => False
          end)
       \/ (exists d os, ev = EvDirect d os /\
           match d with
           | DNewSeed t x | DInsertSeed _ t x | DNewDeep t _ _ _ x | DInsertDeep _ t _ _ _ x =>
               t = tag_of e /\ x = true
           | DNewCert _ => False
           end)).
Proof.
  intros S SO g HC evs e He Hx.
  destruct (provenance S SO g HC evs e He) as (pre & ev & post & -> & Ho).
  exists pre, ev, post. split; [done|].
  assert (Hh : forall dec t d si seed, holds_seed g dec e t d si seed ->
    t = tag_of e /\ si_exportable si = true).
  { intros dec t d si seed H. unfold exportable in Hx. destruct d as [dl|].
    - destruct H as (? & ? & ? & _ & -> & _). done.
    - destruct H as (? & -> & _). done. }
  destruct Ho as [(cid & tid & o & c & rq & L & -> & Hc & _ & Hq & HL & Ha)|(d & os & -> & Ha)].
  - left. exists cid, tid, o, c, rq. split; [done|]. split; [done|]. split; [done|].
    destruct (rq_msg S rq); try done.
    + destruct Ha as (si & seed & E & H). apply Hh in H as [-> H]. split; [done|congruence].
    + destruct Ha as (si & seed & e2 & seed2 & E & H & _). apply Hh in H as [-> H].
      split; [done|congruence].
    + destruct Ha as (si & e0 & seed & H1 & H2 & H3 & H4 & H). apply Hh in H as [-> H].
      split; [done|]. exists e0. split; [by apply HL|]. split; [done|congruence].
    + destruct Ha as (gc & sec & _ & -> & _). done.
  - right. exists d, os. split; [done|]. unfold direct_asked in Ha. destruct d.
    + destruct Ha as (si & seed & E & H). apply Hh in H as [-> H]. split; [done|congruence].
    + destruct Ha as (si & E & H). apply Hh in H as [-> H]. split; [done|congruence].
    + destruct Ha as (si & salt & sec & seed & -> & E & _). split; [done|]. cbn in Hx. congruence.
    + destruct Ha as (si & salt & sec & -> & E & _). split; [done|]. cbn in Hx. congruence.
    + destruct Ha as (gc & sec & _ & -> & _). done.
Qed.
Print Assumptions C13_exportable_origin.

(** Three seeds: one exportable, one not, one to send from.  The first is exported, the
    second is not. *)
Definition ex_export : list event :=
  demo_open 1
    ++ ask 1 1 (ReqNewSeed (str "a") (str "yes") None true) x0a
    ++ ask 1 2 (ReqNewSeed (str "b") (str "no") None false) x0b
    ++ ask 1 3 (ReqNewSeed (str "c") (str "me") None false) x0c
    ++ ask 1 4 (ReqExportSeed (str "d") (str "yes") (fill 32 x0c) (fill 32 x0d) None) x00
    ++ ask 1 5 (ReqExportSeed (str "e") (str "no") (fill 32 x0c) (fill 32 x0d) None) x00.
Example C13_ex :
  map (fun x => snd (fst x)) (drop 4 (replies sql_store (demo_env false) ex_export 1))
    = [ResExportSeed (str "d") (fill 24 x00) (fill 32 x0a ++ fill 16 x19);
       ResError (str "e") (str "seed is not exportable")].
Proof. by vm_compute. Qed.

(** ** C14: export then import reproduces the seed *)

(** The seed [e] is exported by one keystore for the recipient key [r], and what comes out
    is given to a keystore (the same or another one) that holds [r].  The answer of the second is
    the public keys of [e], unless an entry is there already with that tag or key. *)
Theorem C14_export_import :
  forall S1 (SO1 : StoreOk S1) g1 S2 (SO2 : StoreOk S2) g2,
  CryptoOk (g_crypto g1) -> g_crypto g2 = g_crypto g1 ->
  forall evs1 cid1 c1 tid1 rq1 id1 t s r p n cipher e,
    conn_at S1 g1 evs1 cid1 c1 -> received S1 c1 tid1 rq1 ->
    rq_msg S1 rq1 = ReqExportSeed id1 t s r p ->
    sent S1 c1 tid1 (ResExportSeed id1 n cipher) ->
    stored S1 g1 evs1 e -> tag_of e = t ->
  forall evs2 cid2 c2 tid2 rq2 id2 d t' x m er,
    conn_at S2 g2 evs2 cid2 c2 -> received S2 c2 tid2 rq2 ->
    rq_msg S2 rq2 = ReqImportSeed id2 s r d n cipher t' x -> sent S2 c2 tid2 m ->
    came_unlocked S2 rq2 -> undisturbed S2 rq2 ->
    held_before S2 rq2 er -> is_deep er = false -> x_of er = Some r ->
    usable_deep (g_crypto g2) (c_dec S2 c2) d ->
    (exists ed xk, ed_of e = Some ed /\ x_of e = Some xk /\ m = ResImportSeed id2 t' (SeedInfo ed xk x))
    \/ (is_error m = true
        /\ exists e', stored S2 g2 evs2 e' /\ (tag_of e' = t' \/ ed_of e' = ed_of e \/ x_of e' = x_of e)).
Proof.
  intros S1 SO1 g1 S2 SO2 g2 HC HE evs1 cid1 c1 tid1 rq1 id1 t s r p n cipher e
    Hc1 Hq1 Hrq1 Hm1 He Ht evs2 cid2 c2 tid2 rq2 id2 d t' x m er Hc2 Hq2 Hrq2 Hm2 Hu Hd Her Hder Hxer Hus.
  assert (HC2 : CryptoOk (g_crypto g2)) by (by rewrite HE).
  destruct (right_meaning S1 SO1 g1 HC evs1 cid1 c1 tid1 rq1 _ Hc1 Hq1 Hm1 eq_refl) as (L1 & w1 & M1 & _ & H1).
  rewrite Hrq1 in H1.
  destruct H1 as (_ & Hn & e' & seed & es & seeds & A1 & A2 & A3 & A4 & A5 & A6 & A7 & A8).
  assert (e' = e) as ->.
  { apply (same_tag S1 SO1 g1 HC evs1); [by apply (me_now _ _ _ _ _ _ _ _ M1)|done|congruence]. }
  rewrite (plain_ed_of g1 e seed A3), (plain_x_of g1 e seed A3).
  pose proof (plain_seed_len g1 e seed A3) as Hlen.
  pose proof (plain_seed_len g1 es seeds A6) as Hlens.
  (* any seed with the recipient key opens the box *)
  assert (Hopen : forall seedr, length seedr = 32 -> r = box_pk (g_crypto g2) seedr ->
    box_open (g_crypto g2) n cipher s (box_sk (g_crypto g2) seedr) = Ok seed).
  { intros seedr Hl ->. rewrite HE in *.
    destruct (box_ok _ HC n seed (box_sk (g_crypto g1) seeds) (box_sk (g_crypto g1) seedr))
      as (c' & B1 & _ & B3); [done|by apply box_sk_len..|].
    unfold box_pk in A8. rewrite B1 in A8. injection A8 as <-. rewrite A7. exact B3. }
  destruct (fine_answer S2 SO2 g2 HC2 evs2 cid2 c2 tid2 rq2 m Hc2 Hq2 Hm2 Hd Hu) as (L2 & w2 & M2 & HG).
  rewrite Hrq2 in HG. destruct HG as [[Hid H]|(err & -> & H)].
  - left. destruct m; try done. cbn in Hid. subst.
    destruct H as (_ & -> & Hx & e3 & seed3 & e4 & seed4 & D1 & D2 & D3 & D4 & D5 & D6).
    rewrite (Hopen seed4) in D4; [|by eapply plain_seed_len|done]. injection D4 as <-.
    exists (sign_pk (g_crypto g1) seed), (box_pk (g_crypto g1) seed). split; [done|]. split; [done|].
    assert (Hk : keys_match g2 si seed).
    { destruct d; [destruct D6 as (? & ? & ? & _ & -> & H)|destruct D6 as (? & -> & H)].
      - by destruct H as (? & _ & _ & ?).
      - by destruct H as (_ & ?). }
    destruct Hk as (_ & K2 & K3). rewrite HE in K2, K3. destruct si. cbn in *. by subst.
  - right. split; [done|]. destruct H as [H|[H|H]].
    + by destruct (usable_not_bad _ _ _ Hus H).
    + exfalso.
      assert (Hst : stored S2 g2 evs2 er) by (by eapply before_now).
      destruct (seed_info_of er) as [sir|] eqn:Esi; [|unfold x_of in Hxer; by rewrite Esi in Hxer].
      destruct (stored_plain S2 SO2 g2 HC2 evs2 er sir Hst Hder Esi) as (seedr & Hr).
      pose proof (plain_x_of g2 er seedr Hr) as Hxr. assert (r = box_pk (g_crypto g2) seedr) by congruence.
      apply (H er seedr seed); [by apply (me_before _ _ _ _ _ _ _ _ M2)|done|done|done|].
      apply Hopen; [by eapply plain_seed_len|done].
    + destruct H as (e4 & seed4 & seed3 & D1 & D2 & D3 & D4 & e5 & D5 & D6).
      rewrite (Hopen seed4) in D4; [|by eapply plain_seed_len|done]. injection D4 as <-.
      exists e5. split; [by apply (me_now _ _ _ _ _ _ _ _ M2)|]. rewrite HE in D6.
      destruct D6 as [D6|[D6|D6]]; [by left|right; left; by apply ed_key|right; right; by apply x_key].
Qed.
Print Assumptions C14_export_import.

(** The export itself succeeds for an exportable seed, a sender held, and any recipient key
    that is the public key of something. *)
Theorem C14_export_succeeds :
  forall S (SO : StoreOk S) g, CryptoOk (g_crypto g) ->
  forall evs cid c tid rq id t s sk p m e es,
    conn_at S g evs cid c -> received S c tid rq -> sent S c tid m ->
    length sk = 32 -> rq_msg S rq = ReqExportSeed id t s (x_base (g_crypto g) sk) p ->
    came_unlocked S rq -> undisturbed S rq ->
    held_before S rq e -> tag_of e = t -> exportable e = true -> is_deep e = false ->
    held_before S rq es -> x_of es = Some s -> is_deep es = false ->
    exists n cipher, m = ResExportSeed id n cipher.
Proof.
  intros S SO g HC evs cid c tid rq id t s sk p m e es Hc Hq Hm Hsk Hrq Hu Hd He Ht Hx Hde Hes Hxs Hds.
  destruct (fine_answer S SO g HC evs cid c tid rq m Hc Hq Hm Hd Hu) as (L0 & w & M & HG).
  rewrite Hrq in HG. destruct HG as [[Hid H]|(err & -> & H)].
  - destruct m; try done. cbn in Hid. subst. by eexists _, _.
  - exfalso.
    assert (Hst : stored S g evs e) by (by eapply before_now).
    assert (Hst2 : stored S g evs es) by (by eapply before_now).
    assert (exists seed, plain_seed g e seed) as [seed Hp].
    { unfold exportable in Hx. destruct (seed_info_of e) as [si|] eqn:E; [|done].
      by eapply stored_plain. }
    assert (exists seed, plain_seed g es seed) as [seed2 Hp2].
    { unfold x_of in Hxs. destruct (seed_info_of es) as [si|] eqn:E; [|done].
      by eapply stored_plain. }
    destruct (H e es) as [F|[F|[F|F]]]; try (by apply (me_before _ _ _ _ _ _ _ _ M)).
    + done.
    + by apply x_key.
    + congruence.
    + by eapply F.
    + by eapply F.
    + destruct F as (n & s1 & s2 & Hn & F1 & F2 & F3).
      destruct (box_ok _ HC n s1 (box_sk (g_crypto g) s2) sk Hn) as (c' & B1 & _);
        [apply box_sk_len; [done|by eapply plain_seed_len]|done|].
      by rewrite B1 in F3.
Qed.
Print Assumptions C14_export_succeeds.

(** Exported by one keystore, imported by another, under another tag. *)
Definition ex_import : list event :=
  demo_open 1
    ++ ask 1 1 (ReqNewSeed (str "a") (str "you") None true) x0d
    ++ ask 1 2 (ReqImportSeed (str "b") (fill 32 x0c) (fill 32 x0d) None (fill 24 x00)
                  (fill 32 x0a ++ fill 16 x19) (str "copy") false) x0e
    ++ ask 1 3 (ReqImportSeed (str "c") (fill 32 x0f) (fill 32 x0d) None (fill 24 x00)
                  (fill 32 x0a ++ fill 16 x19) (str "forged") false) x0e.
Example C14_ex :
  map (fun x => snd (fst x)) (drop 2 (replies mem_store (demo_env false) ex_import 1))
    = [ResImportSeed (str "b") (str "copy") (SeedInfo (fill 32 x0a) (fill 32 x0a) false);
       ResError (str "c") (str "forged")].
Proof. by vm_compute. Qed.

(** ** C15: import accepts only what the sender boxed for the recipient *)

(** If handling an import request makes an entry appear, the ciphertext has 48 bytes and
    opens, under the named sender key and the secret key of the recipient held here, to the
    seed of that entry. *)
Theorem C15_import_stores_only_boxed :
  forall S (SO : StoreOk S) g, CryptoOk (g_crypto g) ->
  forall evs cid c tid rq id s r d n cipher t x o e,
    conn_at S g evs cid c -> received S c tid rq ->
    rq_msg S rq = ReqImportSeed id s r d n cipher t x ->
    stored S g (evs ++ [EvStep cid tid o]) e -> ~ stored S g evs e ->
    length cipher = 48
    /\ exists er seedr seed si, stored S g evs er /\ x_of er = Some r /\ plain_seed g er seedr
         /\ box_open (g_crypto g) n cipher s (box_sk (g_crypto g) seedr) = Ok seed
         /\ holds_seed g (c_dec S c) e t d si seed /\ si_exportable si = x.
Proof.
  intros S SO g HC evs cid c tid rq id s r d n cipher t x o e Hc Hq Hrq He Hn.
  destruct (step_stored S SO g HC evs (EvStep cid tid o)) as (_ & H & _).
  destruct (H e He) as [?|Ho]; [done|].
  destruct Ho as [(cid' & tid' & o' & c' & rq' & L & [= <- <- <-] & Hc' & _ & Hq' & HL & Ha)
    |(d' & os & ? & _)]; [|done].
  unfold conn_at, received in *. assert (c' = c) as -> by congruence.
  assert (rq' = rq) as -> by congruence. rewrite Hrq in Ha.
  destruct Ha as (si & seed & e2 & seed2 & E & Hh & H1 & H2 & H3 & H4).
  assert (Hlen : length seed = 32).
  { destruct d; [destruct Hh as (? & ? & ? & _ & -> & Hl)|destruct Hh as (? & -> & Hl)].
    - by destruct Hl as (? & _ & _ & Hl & _).
    - by destruct Hl as (_ & Hl & _). }
  split.
  - rewrite (box_open_len _ HC _ _ _ _ _ H4). unfold MACBYTES. lia.
  - exists e2, seed2, seed, si. split; [by apply HL|]. split; [rewrite H3; by apply plain_x_of|]. done.
Qed.
Print Assumptions C15_import_stores_only_boxed.

(** Otherwise the answer is an error: no seed held opens the ciphertext to 32 bytes. *)
Theorem C15_refused :
  forall S (SO : StoreOk S) g, CryptoOk (g_crypto g) ->
  forall evs cid c tid rq id s r d n cipher t x m,
    conn_at S g evs cid c -> received S c tid rq -> sent S c tid m ->
    rq_msg S rq = ReqImportSeed id s r d n cipher t x ->
    (length cipher <> 48
     \/ forall er seedr seed, stored S g evs er -> x_of er = Some r -> plain_seed g er seedr ->
          box_open (g_crypto g) n cipher s (box_sk (g_crypto g) seedr) <> Ok seed) ->
    is_error m = true.
Proof.
  intros S SO g HC evs cid c tid rq id s r d n cipher t x m Hc Hq Hm Hrq Hbad.
  destruct (is_error m) eqn:E; [done|].
  destruct (right_meaning S SO g HC _ cid c tid rq m Hc Hq Hm E) as (L0 & w & M & Hid & H).
  rewrite Hrq in H, Hid. destruct m; try done.
  destruct H as (_ & _ & _ & e & seed & e2 & seed2 & H1 & H2 & H3 & H4 & H5 & Hh).
  destruct Hbad as [Hbad|Hbad].
  - exfalso. apply Hbad.
    assert (Hlen : length seed = 32).
    { destruct d; [destruct Hh as (? & ? & ? & _ & -> & Hl)|destruct Hh as (? & -> & Hl)].
      - by destruct Hl as (? & _ & _ & Hl & _).
      - by destruct Hl as (_ & Hl & _). }
    rewrite (box_open_len _ HC _ _ _ _ _ H4). unfold MACBYTES. lia.
  - exfalso. eapply (Hbad e2 seed2 seed); [by apply (me_now _ _ _ _ _ _ _ _ M)| |done|done].
    rewrite H3. by apply plain_x_of.
Qed.
Print Assumptions C15_refused.

(** In [ex_import] one import stores and the next, under another sender key, does not. *)
Example C15_ex :
  map (fun r => r_tag r) (store_at sql_store (demo_env false) ex_import) = [str "you"; str "copy"].
Proof. by vm_compute. Qed.

(** ** C16: derived seeds follow the path and inherit exportability *)

Theorem C16_derive_answer :
  forall S (SO : StoreOk S) g, CryptoOk (g_crypto g) ->
  forall evs cid c tid rq id s sd t td path si,
    conn_at S g evs cid c -> received S c tid rq ->
    rq_msg S rq = ReqDeriveSeed id s sd t td path -> sent S c tid (ResDeriveSeed id si) ->
    exists e seed e', stored S g evs e /\ tag_of e = s /\ source_seed g (c_dec S c) e sd seed
      /\ stored S g evs e' /\ holds_seed g (c_dec S c) e' t td si (along (g_crypto g) path seed)
      /\ si_ed si = sign_pk (g_crypto g) (along (g_crypto g) path seed)
      /\ si_x si = box_pk (g_crypto g) (along (g_crypto g) path seed)
      /\ si_exportable si = exportable e.
Proof.
  intros S SO g HC evs cid c tid rq id s sd t td path si Hc Hq Hrq Hm.
  destruct (right_meaning S SO g HC _ cid c tid rq _ Hc Hq Hm eq_refl) as (L0 & w & M & _ & H).
  rewrite Hrq in H. destruct H as (_ & e & seed & e2 & H1 & H2 & H3 & H4 & H5 & H6).
  exists e, seed, e2. split; [by apply (me_now _ _ _ _ _ _ _ _ M)|]. split; [done|]. split; [done|].
  split; [by apply (me_now _ _ _ _ _ _ _ _ M)|]. split; [done|].
  assert (Hk : keys_match g si (along (g_crypto g) path seed)).
  { destruct td; [destruct H6 as (? & ? & ? & _ & -> & Hl)|destruct H6 as (? & -> & Hl)].
    - by destruct Hl as (? & _ & _ & Hl).
    - by destruct Hl as (_ & Hl). }
  destruct Hk as (_ & -> & ->). done.
Qed.
Print Assumptions C16_derive_answer.

(** One keystore derives along [p] and from there along [q]; another keystore that holds the same
    source seed (imported from an export, say) derives along [p ++ q]: they arrive at the same
    keys. *)
Theorem C16_paths_compose :
  forall S1 (SO1 : StoreOk S1) g1 S2 (SO2 : StoreOk S2) g2,
  CryptoOk (g_crypto g1) -> g_crypto g2 = g_crypto g1 ->
  forall evs1 cid1 c1 tid1 rq1 tid2 rq2 id1 id2 s t u ud p q si1 si2 e seed,
    conn_at S1 g1 evs1 cid1 c1 ->
    received S1 c1 tid1 rq1 -> rq_msg S1 rq1 = ReqDeriveSeed id1 s None t None p ->
    sent S1 c1 tid1 (ResDeriveSeed id1 si1) ->
    received S1 c1 tid2 rq2 -> rq_msg S1 rq2 = ReqDeriveSeed id2 t None u ud q ->
    sent S1 c1 tid2 (ResDeriveSeed id2 si2) ->
    stored S1 g1 evs1 e -> tag_of e = s -> plain_seed g1 e seed ->
  forall evs2 cid2 c2 tid3 rq3 id3 s' v vd si3 e',
    conn_at S2 g2 evs2 cid2 c2 ->
    received S2 c2 tid3 rq3 -> rq_msg S2 rq3 = ReqDeriveSeed id3 s' None v vd (p ++ q) ->
    sent S2 c2 tid3 (ResDeriveSeed id3 si3) ->
    stored S2 g2 evs2 e' -> tag_of e' = s' -> plain_seed g2 e' seed ->
    si_ed si2 = si_ed si3 /\ si_x si2 = si_x si3 /\ si_exportable si2 = exportable e.
Proof.
  intros S1 SO1 g1 S2 SO2 g2 HC EC evs1 cid1 c1 tid1 rq1 tid2 rq2 id1 id2 s t u ud p q si1 si2 e seed
    Hc1 Hq1 Hr1 Hm1 Hq2 Hr2 Hm2 He Ht Hp evs2 cid2 c2 tid3 rq3 id3 s' v vd si3 e'
    Hc2 Hq3 Hr3 Hm3 He' Ht' Hp'.
  assert (HC2 : CryptoOk (g_crypto g2)) by by rewrite EC.
  destruct (C16_derive_answer S1 SO1 g1 HC evs1 cid1 c1 tid1 rq1 id1 s None t None p si1 Hc1 Hq1 Hr1 Hm1)
    as (e1 & s1 & e1' & A1 & A2 & A3 & A4 & (sec1 & A5 & A6) & A7 & A8 & A9).
  destruct (C16_derive_answer S1 SO1 g1 HC evs1 cid1 c1 tid2 rq2 id2 t None u ud q si2 Hc1 Hq2 Hr2 Hm2)
    as (e2 & s2 & e2' & B1 & B2 & B3 & B4 & B5 & -> & -> & ->).
  destruct (C16_derive_answer S2 SO2 g2 HC2 evs2 cid2 c2 tid3 rq3 id3 s' None v vd (p ++ q) si3
    Hc2 Hq3 Hr3 Hm3) as (e3 & s3 & e3' & D1 & D2 & D3 & D4 & D5 & -> & -> & _).
  assert (e1 = e) as -> by (eapply (same_tag S1 SO1 g1 HC evs1); [done..|congruence]).
  assert (e3 = e') as -> by (eapply (same_tag S2 SO2 g2 HC2 evs2); [done..|congruence]).
  assert (e2 = e1') as -> by (eapply (same_tag S1 SO1 g1 HC evs1); [done..|subst e1'; done]).
  assert (s1 = seed) as ->.
  { clear - A3 Hp. destruct e; try done. eapply plain_seed_det; [exact A3|exact Hp]. }
  assert (s3 = seed) as ->.
  { clear - D3 Hp'. destruct e'; try done. eapply plain_seed_det; [exact D3|exact Hp']. }
  assert (s2 = along (g_crypto g1) p seed) as ->.
  { subst e1'. eapply plain_seed_det; [exact B3|exact A6]. }
  rewrite EC. unfold along. rewrite fold_left_app. split; [done|]. split; [done|].
  subst e1'. unfold exportable at 1. cbn. exact A9.
Qed.
Print Assumptions C16_paths_compose.

(** Deriving from a seed that is not deep locked succeeds, unless the tag or the derived
    key is taken. *)
Theorem C16_derive_succeeds :
  forall S (SO : StoreOk S) g, CryptoOk (g_crypto g) ->
  forall evs cid c tid rq id s t td path m e seed,
    conn_at S g evs cid c -> received S c tid rq -> sent S c tid m ->
    rq_msg S rq = ReqDeriveSeed id s None t td path -> came_unlocked S rq -> undisturbed S rq ->
    held_before S rq e -> tag_of e = s -> plain_seed g e seed ->
    usable_deep (g_crypto g) (c_dec S c) td ->
    (exists si, m = ResDeriveSeed id si)
    \/ (is_error m = true /\ exists e', stored S g evs e' /\
          (tag_of e' = t \/ ed_of e' = Some (sign_pk (g_crypto g) (along (g_crypto g) path seed))
           \/ x_of e' = Some (box_pk (g_crypto g) (along (g_crypto g) path seed)))).
Proof.
  intros S SO g HC evs cid c tid rq id s t td path m e seed Hc Hq Hm Hrq Hu Hd He Ht Hp Hus.
  destruct (fine_answer S SO g HC evs cid c tid rq m Hc Hq Hm Hd Hu) as (L0 & w & M & HG).
  rewrite Hrq in HG. destruct HG as [[Hid H]|(err & -> & H)].
  - left. destruct m; try done. cbn in Hid. subst. by eexists.
  - right. split; [done|]. destruct H as [H|[H|H]].
    + by destruct (usable_not_bad _ _ _ Hus H).
    + exfalso. apply (H e seed); [by apply (me_before _ _ _ _ _ _ _ _ M)|done|]. by destruct e.
    + destruct H as (e1 & seed1 & D1 & D2 & D3 & e2 & D4 & D5).
      assert (e1 = e) as ->.
      { eapply (same_tag S SO g HC evs); [by apply (me_now _ _ _ _ _ _ _ _ M)|by eapply before_now|congruence]. }
      assert (seed1 = seed) as ->.
      { destruct e; try done. eapply plain_seed_det; [exact D3|exact Hp]. }
      exists e2. split; [by apply (me_now _ _ _ _ _ _ _ _ M)|].
      destruct D5 as [D5|[D5|D5]]; [by left|right; left; by apply ed_key|right; right; by apply x_key].
Qed.
Print Assumptions C16_derive_succeeds.

(** Along [1;2] then [3] in one keystore, along [1;2;3] in another. *)
Definition ex_derive : list event :=
  demo_open 1
    ++ ask 1 1 (ReqNewSeed (str "a") (str "src") None false) x0a
    ++ ask 1 2 (ReqDeriveSeed (str "b") (str "src") None (str "mid") None [1; 2]%N) x00
    ++ ask 1 3 (ReqDeriveSeed (str "c") (str "mid") None (str "end") None [3]%N) x00.
Definition ex_derive2 : list event :=
  demo_open 1
    ++ ask 1 1 (ReqNewSeed (str "a") (str "own") None true) x0a
    ++ ask 1 2 (ReqDeriveSeed (str "b") (str "own") None (str "all") None [1; 2; 3]%N) x00.
(** The seed stored under a tag, as a computation. *)
Definition seed_at (S : store_impl) (g : genv) (evs : list event) (t : bytes) : option bytes :=
  match st_get S (store_at S g evs) (ByTag t) with
  | Ok (ESeed t' si sec) =>
      match sec_open (g_crypto g) 32 (g_bidi g) sec with
      | Ok seed =>
          if beq t' t && Nat.eqb (length seed) 32 && beq (si_ed si) (sign_pk (g_crypto g) seed)
             && beq (si_x si) (box_pk (g_crypto g) seed) then Some seed else None
      | Err _ => None
      end
  | _ => None
  end.
Lemma seed_found S g evs t seed :
  seed_at S g evs t = Some seed ->
  exists e, stored S g evs e /\ tag_of e = t /\ plain_seed g e seed.
Proof.
  unfold seed_at, stored, holds. destruct (st_get S _ (ByTag t)) as [e|] eqn:E; [|done].
  destruct e as [t' si sec| |]; try done.
  destruct (sec_open _ _ _ sec) as [s|] eqn:E2; [|done]. destruct (_ && _) eqn:E3; [|done].
  intros [= ->]. repeat apply andb_prop in E3 as [E3 ?]. apply beq_true in E3 as ->.
  exists (ESeed t si sec). split; [done|]. split; [done|]. split; [done|].
  split; [by apply Nat.eqb_eq|]. split; by apply beq_true.
Qed.
Example C16_ex :
  exists si1 si2 si3,
    map (fun x => snd (fst x)) (drop 2 (replies sql_store (demo_env false) ex_derive 1))
      = [ResDeriveSeed (str "b") si1; ResDeriveSeed (str "c") si2]
    /\ map (fun x => snd (fst x)) (drop 2 (replies mem_store (demo_env true) ex_derive2 1))
      = [ResDeriveSeed (str "b") si3]
    /\ si_ed si2 = along toy [1; 2; 3]%N (fill 32 x0a) /\ si_exportable si2 = false
    /\ si_ed si3 = si_ed si2 /\ si_exportable si3 = true
    /\ (exists e, stored sql_store (demo_env false) ex_derive e /\ tag_of e = str "src"
         /\ plain_seed (demo_env false) e (fill 32 x0a))
    /\ (exists e, stored mem_store (demo_env true) ex_derive2 e /\ tag_of e = str "own"
         /\ plain_seed (demo_env true) e (fill 32 x0a)).
Proof.
  eexists _, _, _. split; [by vm_compute|]. split; [by vm_compute|].
  split; [by vm_compute|]. split; [by vm_compute|]. split; [by vm_compute|]. split; [by vm_compute|].
  split; apply seed_found; by vm_compute.
Qed.

(** ** C17: derivation opens a deep-locked source with its passphrase

    True when the request carries the hashing limits the source was locked with; false
    otherwise: the handler hashes the passphrase with the limits of the request. *)

Theorem C17_derive_deep_partial :
  forall S (SO : StoreOk S) g, CryptoOk (g_crypto g) ->
  forall evs cid c tid rq id s psec t td path m e si salt ops mem sec pass seed,
    conn_at S g evs cid c -> received S c tid rq -> sent S c tid m ->
    rq_msg S rq = ReqDeriveSeed id s (Some (Dlp ops mem psec)) t td path ->
    came_unlocked S rq -> undisturbed S rq ->
    held_before S rq e -> e = EDeep s si salt ops mem sec -> locked_seed g e pass seed ->
    sec_open (g_crypto g) 64 (c_dec S c) psec = Ok pass ->
    usable_deep (g_crypto g) (c_dec S c) td ->
    (exists si', m = ResDeriveSeed id si'
       /\ si_ed si' = sign_pk (g_crypto g) (along (g_crypto g) path seed)
       /\ si_x si' = box_pk (g_crypto g) (along (g_crypto g) path seed))
    \/ (is_error m = true /\ exists e', stored S g evs e' /\
          (tag_of e' = t \/ ed_of e' = Some (sign_pk (g_crypto g) (along (g_crypto g) path seed))
           \/ x_of e' = Some (box_pk (g_crypto g) (along (g_crypto g) path seed)))).
Proof.
  intros S SO g HC evs cid c tid rq id s psec t td path m e si salt ops mem sec pass seed
    Hc Hq Hm Hrq Hu Hd He Ee Hl Hps Hus.
  assert (Hsrc : forall seed', source_seed g (c_dec S c) e (Some (Dlp ops mem psec)) seed' <-> seed' = seed).
  { subst e. destruct Hl as (k & L1 & L2 & L3). intros seed'. unfold source_seed. cbn. split.
    - intros (pass' & k' & X1 & X2 & X3). rewrite Hps in X1. injection X1 as <-.
      rewrite L1 in X2. injection X2 as <-. congruence.
    - intros ->. by exists pass, k. }
  destruct (fine_answer S SO g HC evs cid c tid rq m Hc Hq Hm Hd Hu) as (L0 & w & M & HG).
  rewrite Hrq in HG. destruct HG as [[Hid H]|(err & -> & H)].
  - left. destruct m; try done. cbn in Hid. subst id. eexists. split; [done|].
    destruct (C16_derive_answer S SO g HC evs cid c tid rq _ s (Some (Dlp ops mem psec)) t td path _ Hc Hq Hrq Hm)
      as (e1 & s1 & e1' & A1 & A2 & A3 & A4 & A5 & A7 & A8 & A9).
    assert (e1 = e) as ->.
    { eapply (same_tag S SO g HC evs); [done|by eapply before_now|subst e; done]. }
    apply Hsrc in A3 as ->. done.
  - right. split; [done|]. destruct H as [H|[H|H]].
    + by destruct (usable_not_bad _ _ _ Hus H).
    + exfalso. apply (H e seed); [by apply (me_before _ _ _ _ _ _ _ _ M)|by subst e|by apply Hsrc].
    + destruct H as (e1 & seed1 & D1 & D2 & D3 & e2 & D4 & D5).
      assert (e1 = e) as ->.
      { eapply (same_tag S SO g HC evs); [by apply (me_now _ _ _ _ _ _ _ _ M)|by eapply before_now|by subst e]. }
      apply Hsrc in D3 as ->.
      exists e2. split; [by apply (me_now _ _ _ _ _ _ _ _ M)|].
      destruct D5 as [D5|[D5|D5]]; [by left|right; left; by apply ed_key|right; right; by apply x_key].
Qed.
Print Assumptions C17_derive_deep_partial.

(** The limits that count are those of the request: whenever the passphrase, hashed with them,
    opens the source, the seed is derived ([C17_other_limits_refused]: otherwise it never is).
    Missing for the full property: that the limits of the source are used. *)
Theorem C17_opens_partial :
  forall S (SO : StoreOk S) g, CryptoOk (g_crypto g) ->
  forall evs cid c tid rq id s t td path m e si salt ops mem sec d pass k seed,
    conn_at S g evs cid c -> received S c tid rq -> sent S c tid m ->
    rq_msg S rq = ReqDeriveSeed id s (Some d) t td path ->
    came_unlocked S rq -> undisturbed S rq ->
    held_before S rq e -> e = EDeep s si salt ops mem sec ->
    sec_open (g_crypto g) 64 (c_dec S c) (dl_pass d) = Ok pass ->
    argon2id (g_crypto g) pass salt (dl_ops d) (dl_mem d) = Ok k ->
    sec_open (g_crypto g) 32 k sec = Ok seed ->
    usable_deep (g_crypto g) (c_dec S c) td ->
    (exists si', m = ResDeriveSeed id si'
       /\ si_ed si' = sign_pk (g_crypto g) (along (g_crypto g) path seed)
       /\ si_x si' = box_pk (g_crypto g) (along (g_crypto g) path seed))
    \/ (is_error m = true /\ exists e', stored S g evs e' /\
          (tag_of e' = t \/ ed_of e' = Some (sign_pk (g_crypto g) (along (g_crypto g) path seed))
           \/ x_of e' = Some (box_pk (g_crypto g) (along (g_crypto g) path seed)))).
Proof.
  intros S SO g HC evs cid c tid rq id s t td path m e si salt ops mem sec d pass k seed
    Hc Hq Hm Hrq Hu Hd He Ee Hps L1 L2 Hus.
  assert (Hsrc : forall seed', source_seed g (c_dec S c) e (Some d) seed' <-> seed' = seed).
  { subst e. intros seed'. unfold source_seed. cbn. split.
    - intros (pass' & k' & X1 & X2 & X3). rewrite Hps in X1. injection X1 as <-.
      rewrite L1 in X2. injection X2 as <-. congruence.
    - intros ->. by exists pass, k. }
  destruct (fine_answer S SO g HC evs cid c tid rq m Hc Hq Hm Hd Hu) as (L0 & w & M & HG).
  rewrite Hrq in HG. destruct HG as [[Hid H]|(err & -> & H)].
  - left. destruct m; try done. cbn in Hid. subst id. eexists. split; [done|].
    destruct (C16_derive_answer S SO g HC evs cid c tid rq _ s (Some d) t td path _ Hc Hq Hrq Hm)
      as (e1 & s1 & e1' & A1 & A2 & A3 & A4 & A5 & A7 & A8 & A9).
    assert (e1 = e) as ->.
    { eapply (same_tag S SO g HC evs); [done|by eapply before_now|subst e; done]. }
    apply Hsrc in A3 as ->. done.
  - right. split; [done|]. destruct H as [H|[H|H]].
    + by destruct (usable_not_bad _ _ _ Hus H).
    + exfalso. apply (H e seed); [by apply (me_before _ _ _ _ _ _ _ _ M)|by subst e|by apply Hsrc].
    + destruct H as (e1 & seed1 & D1 & D2 & D3 & e2 & D4 & D5).
      assert (e1 = e) as ->.
      { eapply (same_tag S SO g HC evs); [by apply (me_now _ _ _ _ _ _ _ _ M)|by eapply before_now|by subst e]. }
      apply Hsrc in D3 as ->.
      exists e2. split; [by apply (me_now _ _ _ _ _ _ _ _ M)|].
      destruct D5 as [D5|[D5|D5]]; [by left|right; left; by apply ed_key|right; right; by apply x_key].
Qed.
Print Assumptions C17_opens_partial.

(** A request with the right passphrase but limits under which it hashes to a key that does
    not open the source is refused, for every keystore. *)
Theorem C17_other_limits_refused :
  forall S (SO : StoreOk S) g, CryptoOk (g_crypto g) ->
  forall evs cid c tid rq id s d t td path m e si salt ops mem sec pass,
    conn_at S g evs cid c -> received S c tid rq -> sent S c tid m ->
    rq_msg S rq = ReqDeriveSeed id s (Some d) t td path ->
    stored S g evs e -> e = EDeep s si salt ops mem sec ->
    sec_open (g_crypto g) 64 (c_dec S c) (dl_pass d) = Ok pass ->
    (forall k, argon2id (g_crypto g) pass salt (dl_ops d) (dl_mem d) = Ok k ->
       is_ok (sec_open (g_crypto g) 32 k sec) = false) ->
    is_error m = true.
Proof.
  intros S SO g HC evs cid c tid rq id s d t td path m e si salt ops mem sec pass
    Hc Hq Hm Hrq He Ee Hps Hno.
  destruct (is_error m) eqn:E; [done|].
  destruct (right_meaning S SO g HC _ cid c tid rq m Hc Hq Hm E) as (L0 & w & M & Hid & H).
  rewrite Hrq in H, Hid. destruct m; try done. cbn in Hid. subst id.
  destruct (C16_derive_answer S SO g HC evs cid c tid rq _ s (Some d) t td path _ Hc Hq Hrq Hm)
    as (e1 & s1 & e1' & A1 & A2 & A3 & _).
  assert (e1 = e) as -> by (eapply (same_tag S SO g HC evs); [done..|by subst e]).
  subst e. destruct A3 as (pass' & k & X1 & X2 & X3). rewrite Hps in X1. injection X1 as <-.
  specialize (Hno k X2). by rewrite X3 in Hno.
Qed.
Print Assumptions C17_other_limits_refused.

(** The full claim is false: a seed deep locked with limits (1, 1), used as a source with its
    passphrase, once with the limits (1, 1) and once with (2, 1). *)
Definition ex_limits : list event :=
  demo_open 1
    ++ ask 1 1 (ReqNewSeed (str "a") (str "deep") (Some (Dlp 1 1 (demo_sec (fill 64 x44)))) true) x0a
    ++ ask 1 2 (ReqDeriveSeed (str "b") (str "deep") (Some (Dlp 1 1 (demo_sec (fill 64 x44)))) (str "one") None [1]%N) x00
    ++ ask 1 3 (ReqDeriveSeed (str "c") (str "deep") (Some (Dlp 2 1 (demo_sec (fill 64 x44)))) (str "two") None [2]%N) x00.
Theorem C17_refuted :
  exists S (SO : StoreOk S) g evs cid c tid rq id m e pass seed psec ops mem t,
    CryptoOk (g_crypto g) /\ conn_at S g evs cid c /\ received S c tid rq
    /\ came_unlocked S rq /\ undisturbed S rq
    /\ held_before S rq e /\ is_deep e = true /\ locked_seed g e pass seed
    /\ rq_msg S rq = ReqDeriveSeed id (tag_of e) (Some (Dlp ops mem psec)) t None [2%N]
    /\ sec_open (g_crypto g) 64 (c_dec S c) psec = Ok pass
    /\ (forall e', stored S g evs e' -> tag_of e' <> t)
    /\ answers S c tid = [(m, true)] /\ is_error m = true.
Proof.
  set (psec := demo_sec (fill 64 x44)).
  set (e := EDeep (str "deep") (SeedInfo (fill 32 x0a) (fill 32 x0a) true) (fill 16 x0a) 1 1
    (sec_encrypt toy (match argon2id toy (fill 64 x44) (fill 16 x0a) 1 1 with Ok k => k | Err _ => [] end)
       (fill 24 x0a) (fill 32 x0a))).
  destruct (answer_checked sql_store (demo_env false) ex_limits 1 3
    (ReqDeriveSeed (str "c") (str "deep") (Some (Dlp 2 1 psec)) (str "two") None [2]%N)
    (ResError (str "c") (str "InternalSodium"))
    (fun c rq => beq (c_dec _ c) demo_dec
       && match st_get sql_store (rq_store _ rq) (ByTag (str "deep")) with
          | Ok e' => bool_decide (e' = e) | Err _ => false end))
    as (c & rq & H1 & H2 & H3 & H4 & H5 & H6 & H7); [by vm_compute|].
  apply andb_prop in H7 as [H7 H8]. apply beq_true in H7.
  assert (Hh : held_before sql_store rq e).
  { unfold held_before, holds. change (tag_of e) with (str "deep").
    destruct (st_get _ _ _) as [e'|]; [|discriminate H8]. by apply bool_decide_eq_true in H8 as ->. }
  exists sql_store, sql_store_ok, (demo_env false), ex_limits, 1, c, 3, rq, (str "c"),
    (ResError (str "c") (str "InternalSodium")), e, (fill 64 x44), (fill 32 x0a), psec, 2%N, 1%N, (str "two").
  split; [exact toy_ok|]. split; [exact H1|]. split; [exact H2|]. split; [exact H4|].
  split; [exact H5|]. split; [exact Hh|]. split; [reflexivity|].
  split. { eexists. split; [by vm_compute|]. split; [by vm_compute|]. repeat split; by vm_compute. }
  split; [exact H3|]. split; [rewrite H7; by vm_compute|].
  split; [|by split].
  intros e' He' Ht. unfold stored, holds in He'. rewrite Ht in He'.
  assert (Hn : is_ok (st_get sql_store (store_at sql_store (demo_env false) ex_limits) (ByTag (str "two"))) = false)
    by (by vm_compute).
  by rewrite He' in Hn.
Qed.
Print Assumptions C17_refuted.

(** The request of the same history that carries the limits of the source is answered. *)
Example C17_ex :
  exists c rq e k m,
    conn_at sql_store (demo_env false) ex_limits 1 c /\ received sql_store c 2 rq
    /\ came_unlocked sql_store rq /\ undisturbed sql_store rq
    /\ held_before sql_store rq e
    /\ e = EDeep (str "deep") (SeedInfo (fill 32 x0a) (fill 32 x0a) true) (fill 16 x0a) 1 1
         (sec_encrypt toy k (fill 24 x0a) (fill 32 x0a))
    /\ locked_seed (demo_env false) e (fill 64 x44) (fill 32 x0a)
    /\ rq_msg sql_store rq
       = ReqDeriveSeed (str "b") (str "deep") (Some (Dlp 1 1 (demo_sec (fill 64 x44)))) (str "one") None [1%N]
    /\ sec_open toy 64 (c_dec sql_store c) (demo_sec (fill 64 x44)) = Ok (fill 64 x44)
    /\ argon2id toy (fill 64 x44) (fill 16 x0a) 1 1 = Ok k
    /\ answers sql_store c 2 = [(m, true)] /\ is_error m = false.
Proof.
  set (psec := demo_sec (fill 64 x44)).
  set (k := match argon2id toy (fill 64 x44) (fill 16 x0a) 1 1 with Ok k => k | Err _ => [] end).
  set (e := EDeep (str "deep") (SeedInfo (fill 32 x0a) (fill 32 x0a) true) (fill 16 x0a) 1 1
    (sec_encrypt toy k (fill 24 x0a) (fill 32 x0a))).
  set (q := ReqDeriveSeed (str "b") (str "deep") (Some (Dlp 1 1 psec)) (str "one") None [1]%N).
  set (x := along toy [1%N] (fill 32 x0a)).
  set (m := ResDeriveSeed (str "b") (SeedInfo (sign_pk toy x) (box_pk toy x) true)).
  destruct (answer_checked sql_store (demo_env false) ex_limits 1 2 q m
    (fun c rq => beq (c_dec _ c) demo_dec
       && match st_get sql_store (rq_store _ rq) (ByTag (str "deep")) with
          | Ok e' => bool_decide (e' = e) | Err _ => false end))
    as (c & rq & H1 & H2 & H3 & H4 & H5 & H6 & H7); [by vm_compute|].
  apply andb_prop in H7 as [H7 H8]. apply beq_true in H7.
  assert (Hh : held_before sql_store rq e).
  { unfold held_before, holds. change (tag_of e) with (str "deep").
    destruct (st_get _ _ _) as [e'|]; [|discriminate H8]. by apply bool_decide_eq_true in H8 as ->. }
  exists c, rq, e, k, m.
  split; [exact H1|]. split; [exact H2|]. split; [exact H4|]. split; [exact H5|]. split; [exact Hh|].
  split; [reflexivity|].
  split. { eexists. split; [by vm_compute|]. split; [by vm_compute|]. repeat split; by vm_compute. }
  split; [exact H3|]. split; [rewrite H7; by vm_compute|]. split; [by vm_compute|]. by split.
Qed.
