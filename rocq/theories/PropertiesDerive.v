(** * PropertiesDerive: seeds derived in a keystore and in a seed bundle (C16)

    The statements range over every correct store, every environment whose primitives obey
    [CryptoOk] and every list of events; [derive_path] is [derive] of the seed bundle crate,
    once for each index. *)

From Verif Require Import Base Utf8 Crypto Toy Types Codec CodecProofs CodecProofs2 Secret Store
  StoreProofs Lru Server System ServerSpec ServerVocab ServerProofs ServerProofs2 SystemProofs
  AnswerProofs ServerTheorems Demo PropertiesServer1 PropertiesServer2 PropertiesServer3 SeedBundle SeedBundleProofs
  PropertiesBundle.

(** A bundle whose keys are those of its seed, as every bundle is that was generated, unlocked
    or derived. *)
Definition proper (C : Crypto) (u : unlocked) : Prop :=
  u_pub u = sign_pk C (u_seed u) /\ u_sec u = sign_sk C (u_seed u).

Lemma derive_along C u path : proper C u ->
  proper C (derive_path C u path) /\ u_seed (derive_path C u path) = along C path (u_seed u).
Proof.
  revert u. induction path as [|i path IH]; intros u Hu; [done|].
  unfold derive_path, along. cbn [fold_left]. destruct (IH (derive C u i)) as [H1 H2]; [done|].
  split; [done|]. exact H2.
Qed.

Lemma source_one g dec e d s1 s2 : source_seed g dec e d s1 -> source_seed g dec e d s2 -> s1 = s2.
Proof.
  destruct e as [t si sec|t si salt ops mem sec|], d as [d|]; try done; cbn.
  - intros (H1 & _) (H2 & _). congruence.
  - intros (p1 & k1 & A1 & A2 & A3) (p2 & k2 & B1 & B2 & B3). congruence.
Qed.

(** A seed derived in a keystore has the keys of the bundle derived along the same path from a
    bundle with the same seed. *)
Theorem C16_as_bundles :
  forall S (SO : StoreOk S) g, CryptoOk (g_crypto g) ->
  forall evs cid c tid rq id s sd t td path si e u,
    conn_at S g evs cid c -> received S c tid rq ->
    rq_msg S rq = ReqDeriveSeed id s sd t td path -> sent S c tid (ResDeriveSeed id si) ->
    stored S g evs e -> tag_of e = s ->
    proper (g_crypto g) u -> source_seed g (c_dec S c) e sd (u_seed u) ->
    si_ed si = u_pub (derive_path (g_crypto g) u path)
    /\ si_x si = box_pk (g_crypto g) (u_seed (derive_path (g_crypto g) u path)).
Proof.
  intros S SO g HC evs cid c tid rq id s sd t td path si e u Hc Hq Hrq Hm He Ht Hu Hs.
  destruct (C16_derive_answer S SO g HC evs cid c tid rq id s sd t td path si Hc Hq Hrq Hm)
    as (e1 & s1 & e1' & A1 & A2 & A3 & A4 & A5 & A6 & A7 & A8).
  assert (e1 = e) as -> by (eapply (same_tag S SO g HC evs); [done..|congruence]).
  pose proof (source_one _ _ _ _ _ _ A3 Hs) as ->.
  destruct (derive_along (g_crypto g) u path Hu) as [[H1 H2] H3]. rewrite H1, H3. done.
Qed.
Print Assumptions C16_as_bundles.

(** And signs as it does. *)
Theorem C16_signs_as_bundle :
  forall S (SO : StoreOk S) g, CryptoOk (g_crypto g) ->
  forall evs cid c tid rq id k d data m e seed u path,
    conn_at S g evs cid c -> received S c tid rq -> rq_msg S rq = ReqSign id k d data -> sent S c tid m ->
    came_unlocked S rq -> undisturbed S rq ->
    proper (g_crypto g) u -> seed = u_seed (derive_path (g_crypto g) u path) ->
    held_before S rq e -> ed_of e = Some k -> plain_seed g e seed ->
    m = ResSign id (sign (g_crypto g) (derive_path (g_crypto g) u path) data).
Proof.
  intros S SO g HC evs cid c tid rq id k d data m e seed u path Hc Hq Hrq Hm Hu Hd Hp -> He Hk Hs.
  rewrite (C18_sign_succeeds S SO g HC evs cid c tid rq m id k d data e _ Hc Hq Hrq Hm Hu Hd He Hk Hs).
  destruct (derive_along (g_crypto g) u path Hp) as [[_ H2] _]. unfold sign. by rewrite H2.
Qed.
Print Assumptions C16_signs_as_bundle.

(** A bundle with the seed of [C16_ex]; the keystore derived from it along 1, 2, 3. *)
Example C16_as_bundles_ex :
  let u := from_seed toy (fill 32 x0a) in
  proper toy u /\ u_seed (derive_path toy u [1; 2; 3]%N) <> u_seed (derive_path toy u [1; 2]%N)
  /\ exists si, ResDeriveSeed (str "b") si
       ∈ map (fun x => snd (fst x)) (replies mem_store (demo_env true) ex_derive2 1)
     /\ si_ed si = u_pub (derive_path toy u [1; 2; 3]%N).
Proof.
  cbv zeta. split; [done|]. split; [intros H; vm_compute in H; discriminate H|].
  destruct C16_ex as (si1 & si2 & si3 & _ & H2 & H3 & _ & H4 & _).
  exists si3. split.
  - rewrite <- (take_drop 2 (replies _ _ _ _)), map_app, H2. apply elem_of_app. right. by left.
  - rewrite H4, H3. by vm_compute.
Qed.
