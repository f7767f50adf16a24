(** * C59, continued: seeds are made as the client asked for them *)

From Verif Require Import Base Crypto Toy Types Codec Secret Store StoreProofs Lru Server System ServerSpec ServerVocab
  ServerTheorems SeedBundle Client Asks World WorldVocab WorldProofs WorldProofs2 WorldProofs3.
From Verif Require PropertiesServer2 Demo.
From Verif Require Import DemoWorld.

Notation along := PropertiesServer2.along.

(** Whether the seed of which this is the information may be exported. *)
Definition may_export (i : entry_info) : bool :=
  match i with ISeed _ si | IDeep _ si => si_exportable si | ICert _ _ => false end.
Definition deep (i : entry_info) : bool := match i with IDeep _ _ => true | _ => false end.

Lemma exportable_info e : exportable e = may_export (info_of e).
Proof. by destruct e. Qed.

(** A new seed may be exported exactly if the client said so. *)
Theorem C59_exportable_as_asked :
  forall S (SO : StoreOk S) g, CryptoOk (g_crypto g) ->
  forall evs, Forall typed evs -> ids_differ S g evs ->
  forall cid k t p x si, gives S g evs cid k (ANewSeed t p x) (Ok (VSeed si)) -> si_exportable si = x.
Proof.
  intros S SO g HC evs Ht Hd cid k t p x si Hg.
  destruct (ok_served S SO g HC evs cid k _ _ Ht Hd Hg) as (pre & c & tid & rq & d & m & Hsv & Her & Hv).
  destruct (served_right S SO g HC _ _ _ _ _ _ _ _ _ _ Hsv Her) as (L1 & w1 & M1 & [_ R1]).
  cbn [request_of] in R1. destruct m; try done. cbn [value_of] in Hv. injection Hv as ->. by destruct R1 as (_ & _ & Hx & _).
Qed.
Print Assumptions C59_exportable_as_asked.

(** And one that may not be exported, or is deep locked, never is. *)
Theorem C59_not_exported :
  forall S (SO : StoreOk S) g, CryptoOk (g_crypto g) ->
  forall evs, Forall typed evs -> ids_differ S g evs -> keeps S SO evs ->
  forall cid k a v i cid' k' s r p v',
    gives S g evs cid k a (Ok v) -> creates a v = Some i ->
    gives S g evs cid' k' (AExport (info_tag i) s r p) (Ok v') ->
    may_export i = true /\ deep i = false.
Proof.
  intros S SO g HC evs Ht Hd Hk cid k a v i cid' k' s r p v' Hg Hc Hx.
  destruct (created S SO g HC evs cid k a v i Ht Hd Hk Hg Hc) as (e & He & Hi).
  destruct (ok_served S SO g HC evs cid' k' _ _ Ht Hd Hx) as (pre & c & tid & rq & d & m & Hsv & Her & Hv).
  destruct (served_right S SO g HC _ _ _ _ _ _ _ _ _ _ Hsv Her) as (L1 & w1 & M1 & [_ R1]).
  cbn [request_of] in R1. destruct m; try done.
  destruct R1 as (_ & _ & e1 & seed & e2 & seed2 & A1 & A2 & A3 & A4 & _).
  assert (e1 = e) as ->.
  { eapply (same_tag S SO g HC (server_evs S g evs)); [|done|].
    - eapply (served_stored S SO g HC); try done. by apply (me_now _ _ _ _ _ _ _ _ M1).
    - rewrite A2, <- Hi. by destruct e. }
  rewrite exportable_info, Hi in A4. split; [done|]. rewrite <- Hi. by destruct e.
Qed.
Print Assumptions C59_not_exported.

(** What a derivation that succeeded leaves behind. *)
Lemma derived S (SO : StoreOk S) g : CryptoOk (g_crypto g) ->
  forall evs, Forall typed evs -> ids_differ S g evs -> keeps S SO evs ->
  forall cid k s sp u up path si, gives S g evs cid k (ADerive s sp u up path) (Ok (VSeed si)) ->
  exists dec d e seed e', stored S g (server_evs S g evs) e /\ tag_of e = s /\ source_seed g dec e d seed
    /\ (d = None <-> sp = None)
    /\ stored S g (server_evs S g evs) e' /\ tag_of e' = u
    /\ (up = None -> exists sec, e' = ESeed u si sec /\ plain_seed g e' (along (g_crypto g) path seed))
    /\ keys_match g si (along (g_crypto g) path seed) /\ si_exportable si = exportable e.
Proof.
  intros HC evs Ht Hd Hk cid k s sp u up path si Hg.
  destruct (ok_served S SO g HC evs cid k _ _ Ht Hd Hg) as (pre & c & tid & rq & d & m & Hsv & Her & Hv).
  destruct (served_right S SO g HC _ _ _ _ _ _ _ _ _ _ Hsv Her) as (L1 & w1 & M1 & [_ R1]).
  cbn [request_of] in R1. destruct m; try done. cbn [value_of] in Hv. injection Hv as ->.
  destruct R1 as (_ & e & seed & e2 & A1 & A2 & A3 & A4 & A5 & A6).
  exists (c_dec S c), (option_map (fun p => dlp_of (d_limits d) (hide (g_crypto g) (c_dec S c) (d_hdr d) p)) sp), e, seed, e2.
  split; [eapply (served_stored S SO g HC); try done; by apply (me_now _ _ _ _ _ _ _ _ M1)|]. split; [done|]. split; [done|].
  split; [by destruct sp|]. split; [eapply (served_stored S SO g HC); try done; by apply (me_now _ _ _ _ _ _ _ _ M1)|].
  destruct up as [up|]; cbn [option_map holds_seed] in A6.
  - destruct A6 as (pass & salt & sec & _ & -> & (kk & _ & _ & Hm)). split; [done|]. split; [done|]. done.
  - destruct A6 as (sec & -> & Hp). split; [done|]. split; [intros _; by exists sec|]. split; [|done]. by destruct Hp.
Qed.

(** A passphrase for the source of a derivation is given exactly if the source is deep locked; and a derived seed may be
    exported exactly if its source may. *)
Theorem C59_derive_passphrase :
  forall S (SO : StoreOk S) g, CryptoOk (g_crypto g) ->
  forall evs, Forall typed evs -> ids_differ S g evs -> keeps S SO evs ->
  forall cid k a v i cid1 k1 sp u up path si,
    gives S g evs cid k a (Ok v) -> creates a v = Some i ->
    gives S g evs cid1 k1 (ADerive (info_tag i) sp u up path) (Ok (VSeed si)) ->
    (deep i = true <-> sp <> None) /\ si_exportable si = may_export i.
Proof.
  intros S SO g HC evs Ht Hd Hk cid k a v i cid1 k1 sp u up path si Hg Hc H1.
  destruct (created S SO g HC evs cid k a v i Ht Hd Hk Hg Hc) as (e & He & Hi).
  assert (tag_of e = info_tag i) as Hti by (rewrite <- Hi; by destruct e).
  destruct (derived S SO g HC evs Ht Hd Hk _ _ _ _ _ _ _ _ H1) as (dec1 & d1 & e1 & s1 & e1' & A1 & A2 & A3 & A4 & _ & _ & _ & _ & A9).
  assert (e1 = e) as -> by (eapply (same_tag S SO g HC (server_evs S g evs)); [done..|congruence]).
  rewrite <- Hi. split; [|by rewrite A9, exportable_info]. destruct e, d1; try done; cbn.
  - split; [done|]. intros H. by apply A4 in H || destruct H; apply A4.
  - split; [|done]. intros _ H. by apply A4 in H.
Qed.
Print Assumptions C59_derive_passphrase.

(** An exported seed is the seed: what is derived from it in the keystore that imported it has the keys that the same
    derivation leads to where it came from.  There it may be done in two steps. *)
Theorem C59_derive :
  forall S1 (SO1 : StoreOk S1) g1 S2 (SO2 : StoreOk S2) g2,
  CryptoOk (g_crypto g1) -> g_crypto g2 = g_crypto g1 ->
  forall evs1, Forall typed evs1 -> ids_differ S1 g1 evs1 -> keeps S1 SO1 evs1 ->
  forall evs2, Forall typed evs2 -> ids_differ S2 g2 evs2 -> keeps S2 SO2 evs2 ->
  forall cid1 k1 t s r p n cipher cid2 k2 t' x si
    cid3 k3 sp3 u3 up3 path si3 cid5 k5 sp5 u5 up5 path' si5 cid4 k4 sp4 u4 up4 si4,
    gives S1 g1 evs1 cid1 k1 (AExport t s r p) (Ok (VBox n cipher)) ->
    gives S2 g2 evs2 cid2 k2 (AImport s r None n cipher t' x) (Ok (VSeed si)) ->
    gives S1 g1 evs1 cid3 k3 (ADerive t sp3 u3 up3 path) (Ok (VSeed si3)) ->
    (forall cid k sp u up si4, gives S2 g2 evs2 cid k (ADerive t' sp u up path) (Ok (VSeed si4)) ->
      si_ed si4 = si_ed si3 /\ si_x si4 = si_x si3 /\ si_exportable si4 = x)
    /\ (up3 = None ->
      gives S1 g1 evs1 cid5 k5 (ADerive u3 sp5 u5 up5 path') (Ok (VSeed si5)) ->
      gives S2 g2 evs2 cid4 k4 (ADerive t' sp4 u4 up4 (path ++ path')) (Ok (VSeed si4)) ->
      si_ed si4 = si_ed si5 /\ si_x si4 = si_x si5 /\ si_exportable si5 = true).
Proof.
  intros S1 SO1 g1 S2 SO2 g2 HC EC evs1 Ht1 Hd1 Hk1 evs2 Ht2 Hd2 Hk2 cid1 k1 t s r p n cipher cid2 k2 t' x si
    cid3 k3 sp3 u3 up3 path si3 cid5 k5 sp5 u5 up5 path' si5 cid4 k4 sp4 u4 up4 si4 Hexp Himp H3.
  pose proof HC as HC2. rewrite <- EC in HC2.
  destruct (ok_served S1 SO1 g1 HC evs1 cid1 k1 _ _ Ht1 Hd1 Hexp) as (pre1 & c1 & tid1 & rq1 & d1 & m1 & Hsv & Her & Hv).
  destruct (served_right S1 SO1 g1 HC _ _ _ _ _ _ _ _ _ _ Hsv Her) as (L1 & w1 & M1 & [_ R1]).
  cbn [request_of] in R1. destruct m1; try done. cbn [value_of] in Hv. injection Hv as -> ->.
  destruct R1 as (_ & Hn1 & e1 & seed & e2 & seed2 & A1 & A2 & A3 & A4 & A5 & A6 & -> & A7).
  destruct (ok_served S2 SO2 g2 HC2 evs2 cid2 k2 _ _ Ht2 Hd2 Himp) as (pre & c & tid & rq & d & m & Hsv2 & Her2 & Hv2).
  destruct (served_right S2 SO2 g2 HC2 _ _ _ _ _ _ _ _ _ _ Hsv2 Her2) as (L2 & w2 & M2 & [_ R2]).
  cbn [request_of] in R2. destruct m; try done. cbn [value_of] in Hv2. injection Hv2 as ->.
  destruct R2 as (_ & _ & Hx & e3 & seed3 & e4 & seed4 & B1 & B2 & -> & B4 & B5 & B6). rewrite EC in *.
  clear HC2. assert (CryptoOk (g_crypto g2)) as HC2 by (by rewrite EC).
  assert (L2' : length seed2 = 32) by (by eapply plain_seed_len).
  assert (L4 : length seed4 = 32) by (by eapply plain_seed_len).
  unfold box_pk in A7, B4.
  destruct (box_ok _ HC n seed (box_sk (g_crypto g1) seed2) (box_sk (g_crypto g1) seed4)) as (c' & E1 & _ & E2);
    [done|by apply (box_sk_len _ HC)|by apply (box_sk_len _ HC)|].
  assert (c' = cipher) as -> by congruence. assert (seed3 = seed) as -> by congruence.
  cbn [option_map holds_seed] in B6. destruct B6 as (sec & -> & Hp).
  assert (stored S1 g1 (server_evs S1 g1 evs1) e1) as St1.
  { eapply (served_stored S1 SO1 g1 HC); try done. by apply (me_now _ _ _ _ _ _ _ _ M1). }
  assert (stored S2 g2 (server_evs S2 g2 evs2) (ESeed t' si sec)) as St2.
  { eapply (served_stored S2 SO2 g2 HC2); try done. by apply (me_now _ _ _ _ _ _ _ _ M2). }
  destruct e1 as [t1 si1 sec1| |]; try done.
  destruct (derived S1 SO1 g1 HC evs1 Ht1 Hd1 Hk1 _ _ _ _ _ _ _ _ H3) as (dec3 & dd3 & f3 & s3 & f3' & D1 & D2 & D3 & D4 & D5 & D6 & D7 & D8 & D9).
  assert (f3 = ESeed t1 si1 sec1) as -> by (eapply (same_tag S1 SO1 g1 HC (server_evs S1 g1 evs1)); [done..|by rewrite D2]).
  destruct dd3; [done|]. cbn [source_seed] in D3. assert (s3 = seed) as -> by (eapply (plain_seed_det g1); done).
  assert (forall cid k sp u up path si4, gives S2 g2 evs2 cid k (ADerive t' sp u up path) (Ok (VSeed si4)) ->
    keys_match g1 si4 (along (g_crypto g1) path seed) /\ si_exportable si4 = x) as Hfar.
  { clear H3 D3 D4 D5 D6 D7 D8 D9 path si3. intros cid k0 sp u up path si0 H4.
    destruct (derived S2 SO2 g2 HC2 evs2 Ht2 Hd2 Hk2 _ _ _ _ _ _ _ _ H4) as (dec4 & dd4 & f4 & s4 & f4' & F1 & F2 & F3 & F4 & F5 & F6 & _ & F8 & F9).
    assert (f4 = ESeed t' si sec) as -> by (eapply (same_tag S2 SO2 g2 HC2 (server_evs S2 g2 evs2)); [done..|by rewrite F2]).
    destruct dd4; [done|]. cbn [source_seed] in F3. assert (s4 = seed) as -> by (eapply (plain_seed_det g2); done).
    unfold keys_match in *. rewrite EC in F8. split; [done|]. by rewrite F9. }
  split.
  - intros cid k0 sp u up si0 H4. destruct (Hfar _ _ _ _ _ _ _ H4) as [(_ & -> & ->) ->]. destruct D8 as (_ & -> & ->). done.
  - intros Hup H5 H4. destruct (Hfar _ _ _ _ _ _ _ H4) as [(_ & -> & ->) _].
    destruct (derived S1 SO1 g1 HC evs1 Ht1 Hd1 Hk1 _ _ _ _ _ _ _ _ H5) as (dec5 & dd5 & f5 & s5 & f5' & G1 & G2 & G3 & G4 & G5 & G6 & _ & G8 & G9).
    destruct (D7 Hup) as (sec3 & -> & Hp3).
    assert (f5 = ESeed u3 si3 sec3) as -> by (eapply (same_tag S1 SO1 g1 HC (server_evs S1 g1 evs1)); [done..|by rewrite G2]).
    destruct dd5; [done|]. cbn [source_seed] in G3. assert (s5 = along (g_crypto g1) path seed) as -> by (eapply (plain_seed_det g1); done).
    destruct G8 as (_ & -> & ->). unfold PropertiesServer2.along. rewrite fold_left_app. split; [done|]. split; [done|]. rewrite G9. cbn. by rewrite D9.
Qed.
Print Assumptions C59_derive.

(** ** Examples *)

(** The keystores of [DemoWorld], deriving. *)
Definition deriving : list wevent :=
  first
  ++ call 1 9 "a9" (ADerive (str "s") None (str "s1") None [1]%N) x00
  ++ call 1 10 "b1" (ADerive (str "s1") None (str "s1d") (Some (str "low")) [2; 3]%N) x00
  ++ call 1 11 "b2" (ADerive (str "d") (Some (str "deep")) (str "d1") None [1]%N) x00.
Definition deriving2 : list wevent := other ++ call 1 3 "a4" (ADerive (str "s2") None (str "x1") None [1]%N) x00
  ++ call 1 4 "a5" (ADerive (str "s2") None (str "x123") None [1; 2; 3]%N) x00.

Definition key_at (path : list N) : bytes * bytes := (sign_pk toy (along toy path kS), box_pk toy (along toy path kS)).
Definition seed_at (path : list N) (x : bool) : value := VSeed (SeedInfo (fst (key_at path)) (snd (key_at path)) x).

Lemma deriving_ok : Forall typed deriving /\ ids_differ sql_store env deriving.
Proof.
  split; [|apply apart_ids; vm_compute; reflexivity].
  unfold deriving. apply Forall_app_2; [apply first_typed|].
  repeat match goal with
  | |- Forall _ (_ ++ _) => apply Forall_app_2
  | |- Forall _ (call _ _ _ _ _) => apply call_typed; [|txt]
  end; cbn [ask_ok]; (split; [by vm_compute|]; split; [by vm_compute|]; split; [by vm_compute|]; repeat (apply Forall_cons_2; [by vm_compute|]); apply Forall_nil_2).
Qed.
Lemma deriving2_ok : Forall typed deriving2 /\ ids_differ sql_store env deriving2.
Proof.
  split; [|apply apart_ids; vm_compute; reflexivity].
  unfold deriving2. apply Forall_app_2; [apply other_typed|].
  repeat match goal with
  | |- Forall _ (_ ++ _) => apply Forall_app_2
  | |- Forall _ (call _ _ _ _ _) => apply call_typed; [|txt]
  end; cbn [ask_ok]; (split; [by vm_compute|]; split; [by vm_compute|]; split; [by vm_compute|]; repeat (apply Forall_cons_2; [by vm_compute|]); apply Forall_nil_2).
Qed.

Example C59_derive_ex :
  gives sql_store env deriving 1 8 (AExport (str "s") xS xO None) (Ok (VBox nonce export_cipher))
  /\ gives sql_store env deriving2 1 2 (AImport xS xO None nonce export_cipher (str "s2") false)
       (Ok (VSeed (SeedInfo (si_ed infoS) (si_x infoS) false)))
  /\ gives sql_store env deriving 1 9 (ADerive (str "s") None (str "s1") None [1]%N) (Ok (seed_at [1]%N true))
  /\ gives sql_store env deriving2 1 3 (ADerive (str "s2") None (str "x1") None [1]%N) (Ok (seed_at [1]%N false))
  /\ gives sql_store env deriving 1 10 (ADerive (str "s1") None (str "s1d") (Some (str "low")) [2; 3]%N) (Ok (seed_at [1; 2; 3]%N true))
  /\ gives sql_store env deriving2 1 4 (ADerive (str "s2") None (str "x123") None ([1] ++ [2; 3])%N) (Ok (seed_at [1; 2; 3]%N false)).
Proof.
  split; [apply (gave_gives sql_store deriving 1 8 "a8"); [txt|]; vm_compute; reflexivity|].
  split; [apply (gave_gives sql_store deriving2 1 2 "a3"); [txt|]; vm_compute; reflexivity|].
  split; [apply (gave_gives sql_store deriving 1 9 "a9"); [txt|]; vm_compute; reflexivity|].
  split; [apply (gave_gives sql_store deriving2 1 3 "a4"); [txt|]; vm_compute; reflexivity|].
  split; [apply (gave_gives sql_store deriving 1 10 "b1"); [txt|]; vm_compute; reflexivity|].
  apply (gave_gives sql_store deriving2 1 4 "a5"); [txt|]; vm_compute; reflexivity.
Qed.

(** From a deep-locked seed, with its passphrase. *)
Example C59_derive_passphrase_ex :
  gives sql_store env deriving 1 3 (ANewSeed (str "d") (Some (str "deep")) false) (Ok (VSeed infoD))
  /\ exists si, gives sql_store env deriving 1 11 (ADerive (str "d") (Some (str "deep")) (str "d1") None [1]%N) (Ok (VSeed si)).
Proof.
  split; [apply (gave_gives sql_store deriving 1 3 "a3"); [txt|]; vm_compute; reflexivity|].
  eexists. apply (gave_gives sql_store deriving 1 11 "b2"); [txt|]. vm_compute. reflexivity.
Qed.
