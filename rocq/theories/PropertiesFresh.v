(** * C64: what must never repeat is drawn afresh

    Every seed made by the keystore, every salt, every header of an encrypted secret and
    every nonce is what the operating system gave for that very use; nothing it gave is used
    twice. *)

From Verif Require Import Base Utf8 Crypto Types Codec Secret Store StoreProofs Lru Server
  System ServerSpec ServerVocab ServerTheorems WriteProofs FreshVocab FreshProofs Demo
  Startup SeedBundle Asks.
From Coq Require Import Sorted.

(** The nonce, or header, that an answer carries. *)
Definition nonce_of (m : api) : option bytes :=
  match m with
  | ResExportSeed _ n _ | ResBox _ n _ | ResBoxSign _ n _ | ResSecretBox _ n _ => Some n
  | ResCertKey _ sec => Some (s_header sec)
  | _ => None
  end.

(** The nonce of an answer is what the handling of that request was given. *)
Theorem C64_nonces :
  forall S (SO : StoreOk S) g, CryptoOk (g_crypto g) ->
  forall evs cid c tid rq m n,
    conn_at S g evs cid c -> received S c tid rq -> sent S c tid m -> is_error m = false ->
    nonce_of m = Some n ->
    length n = 24 /\ drew evs (ByRequest (restarts evs) cid tid) [n].
Proof.
  intros S SO g HC evs cid c tid rq m n Hc Hq Hm He Hn.
  destruct (answer_draws S SO g HC evs cid c tid rq m Hc Hq Hm He) as [Hd [_ Hu]].
  destruct m; try discriminate Hn; injection Hn as <-; destruct Hu as [Hl Ha]; rewrite Ha in Hd; done.
Qed.
Print Assumptions C64_nonces.

(** A request that was answered with success, for a new entry, has stored one that is made
    of what it was given: salt and header, and for a new seed also the seed. *)
Theorem C64_creates :
  forall S (SO : StoreOk S) g, CryptoOk (g_crypto g) ->
  forall evs cid c tid rq m,
    conn_at S g evs cid c -> received S c tid rq -> creating (rq_msg S rq) = true ->
    sent S c tid m -> is_error m = false ->
    exists e vs, stored S g evs e /\ describes (rq_msg S rq) m e
      /\ made_of g (for_new_seed (rq_msg S rq)) e vs
      /\ drew evs (ByRequest (restarts evs) cid tid) vs.
Proof.
  intros S SO g HC evs cid c tid rq m Hc Hq Hcr Hm He.
  destruct (answer_draws S SO g HC evs cid c tid rq m Hc Hq Hm He) as [Hd [_ Hu]].
  destruct (answer_writes S SO g HC evs cid c tid rq m Hc Hq Hm) as (A & HA & _ & Hl).
  unfold wlogged in Hl. rewrite He in Hl. destruct Hl as [_ Hl]. rewrite Hcr in Hl.
  destruct Hl as (e' & -> & Hdes). assert (He' : stored S g evs e').
  { destruct (proj1 (HA e') ltac:(by left)) as (pre & o & post & -> & Hnr & _ & Hs).
    change (EvStep cid tid o :: post) with ([EvStep cid tid o] ++ post). rewrite app_assoc.
    apply (stored_lasts S SO g HC post); [done|by right]. }
  assert (Hex : exists e vs, new_tag (rq_msg S rq) = Some (tag_of e) /\ made_of g (for_new_seed (rq_msg S rq)) e vs
    /\ acts S g cid tid evs = map ARand vs ++ [AWrote e]).
  { destruct m; try (by destruct Hdes); exact Hu. }
  destruct Hex as (e & vs & Ht & Hv & Ha).
  assert (Hst : stored S g evs e).
  { apply (wrote_stored S SO g HC evs cid tid). rewrite Ha. apply elem_of_app. right. by left. }
  assert (e' = e) as ->.
  { destruct Hdes as [Ht' _]. rewrite Ht in Ht'. injection Ht' as Ht'. unfold stored, holds in *. rewrite <- Ht', Hst in He'.
    by injection He' as <-. }
  exists e, vs. split; [done|]. split; [done|]. split; [done|].
  rewrite Ha, rands_app, rands_map in Hd. cbn [rands omap list_omap] in Hd. by rewrite app_nil_r in Hd.
Qed.
Print Assumptions C64_creates.

(** Every entry of the keystore has a request, or a direct call, of its own, of whose values
    it is made; none of them is a request that was answered with a nonce. *)
Theorem C64_no_reuse :
  forall S (SO : StoreOk S) g, CryptoOk (g_crypto g) ->
  forall evs, exists book : list (writer * entry),
    NoDup (map fst book)
    /\ (forall e, stored S g evs e -> exists w, (w, e) ∈ book)
    /\ (forall w e, (w, e) ∈ book -> made S g evs w e)
    /\ (forall cid c tid rq m n,
          conn_at S g evs cid c -> received S c tid rq -> sent S c tid m -> is_error m = false ->
          nonce_of m = Some n -> ByRequest (restarts evs) cid tid ∉ map fst book).
Proof.
  intros S SO g HC evs. destruct (books S SO g HC evs) as (book & H1 & H2 & H3).
  exists book. split; [done|]. split; [done|]. split; [intros w e Hin; by apply H3|].
  intros cid c tid rq m n Hc Hq Hm He Hn Hin.
  destruct (answer_draws S SO g HC evs cid c tid rq m Hc Hq Hm He) as [_ [_ Hu]].
  apply elem_of_list_fmap in Hin as ([w e] & E & Hin). cbn in E. subst w.
  destruct (H3 _ _ Hin) as [_ [_ Hcur]]. specialize (Hcur eq_refl).
  destruct m; try discriminate Hn; destruct Hu as [_ Ha]; rewrite Ha in Hcur;
    apply elem_of_list_singleton in Hcur; discriminate Hcur.
Qed.
Print Assumptions C64_no_reuse.

(** A place in the execution at which random bytes are given belongs to one of them only. *)
Theorem C64_own_places :
  forall evs w1 k1 r1 w2 k2 r2,
    given evs w1 k1 = Some r1 -> given evs w2 k2 = Some r2 -> source w1 k1 = source w2 k2 -> w1 = w2.
Proof.
  intros evs [l1 c1 t1|i1] k1 r1 [l2 c2 t2|i2] k2 r2; cbn [given source]; intros H1 H2 E;
    apply (f_equal fst) in E; cbn in E; subst.
  - destruct (evs !! k2) as [[| |c t o| | | |]|]; try discriminate H1.
    repeat (match goal with H : context [Nat.eqb ?a ?b] |- _ => destruct (Nat.eqb_spec a b) end; try done).
    by subst.
  - destruct (evs !! i2) as [[| |c t o| | |d os|]|]; done.
  - destruct (evs !! k2) as [[| |c t o| | |d os|]|]; done.
  - done.
Qed.
Print Assumptions C64_own_places.

(** A plain seed, a box, a certificate and its key, a deep-locked seed made directly: what
    each is made of. *)
Definition fresh_evs : list event :=
  demo_open 1 ++ Demo.ask 1 1 (ReqNewSeed (str "a") (str "t") None true) x0a
  ++ Demo.ask 1 2 (ReqSecretBox (str "b") (str "t") None (str "hi")) x0c
  ++ Demo.ask 1 3 (ReqNewCert (str "c") (str "ct")) x0d
  ++ Demo.ask 1 4 (ReqCertKey (str "d") (str "ct")) x0e
  ++ [EvDirect (DNewDeep (str "deep") 2 3 demo_pass true) [fine x01; fine x02; fine x03; fine x04; fine x05]].

Example C64_ex :
  map (fun x => (is_error x.1.2, nonce_of x.1.2)) (replies sql_store (demo_env false) fresh_evs 1)
    = [(false, None); (false, None); (false, Some (fill 24 x0c)); (false, None); (false, Some (fill 24 x0e))]
  /\ map (fun t => match st_get sql_store (store_at sql_store (demo_env false) fresh_evs) (ByTag t) with
                   | Ok e => once_of e | Err _ => [] end) [str "t"; str "ct"; str "deep"]
    = [[fill 24 x0a]; [fill 24 x0d]; [fill 16 x02; fill 24 x03]].
Proof. split; by vm_compute. Qed.

(** Values so given: a salt and a header, from the second and third step of the call. *)
Example C64_ex_drew :
  drew fresh_evs (ByOwner 81) [fill 32 x01; fill 16 x02; fill 24 x03].
Proof.
  exists [0; 1; 2]. split; [repeat constructor|].
  repeat (constructor; [eexists; split; [vm_compute; reflexivity|vm_compute; reflexivity]|]). constructor.
Qed.

(** ** The configuration *)

(** What a new configuration holds is what was drawn for it, each value once. *)
Theorem C64_config :
  forall C, CryptoOk C ->
  forall root canon pass ops mem r cfg,
    draws_ok r -> new_config C root canon pass ops mem r = Some (Ok cfg) ->
    cf_db_salt cfg = r_db_salt r /\ cf_salt cfg = r_salt r
    /\ s_header (cf_context cfg) = r_context_hdr r /\ s_header (cf_id cfg) = r_id_hdr r
    /\ exists pre, argon2id C (blake2b C 64 pass) (r_salt r) ops mem = Ok pre
        /\ sec_open C 32 (ctx_key C pre) (cf_context cfg) = Ok (r_context r)
        /\ sec_open C 32 (id_key C pre) (cf_id cfg) = Ok (r_id r).
Proof.
  intros C HC root canon pass ops mem r cfg (R1 & R2 & R3 & R4 & R5 & R6). unfold new_config, pre_secret.
  destruct (argon2id C (blake2b C 64 pass) (r_salt r) ops mem) as [pre|] eqn:Ep; [|done]. cbn [rbind].
  destruct canon as [dir|]; [|done]. cbn [rbind].
  destruct (ConnUrl.generated_url dir (box_pk C (r_id r))) as [u|]; [|done]. intros [= <-]. cbn.
  split; [done|]. split; [done|]. split; [done|]. split; [done|]. exists pre. split; [done|].
  split; [rewrite <- R3|rewrite <- R4]; apply (sec_open_encrypt _ HC).
Qed.
Print Assumptions C64_config.

Example C64_ex_config :
  let r := Startup.Draws (fill 16 x01) (fill 16 x02) (fill 32 x03) (fill 32 x04) (fill 24 x05) (fill 24 x06) in
  draws_ok r /\
  match new_config Toy.toy (str "/r") (Ok (str "/r")) (str "pw") 2 3 r with
  | Some (Ok cfg) =>
      [cf_db_salt cfg; cf_salt cfg; s_header (cf_context cfg); s_header (cf_id cfg)]
      = [fill 16 x01; fill 16 x02; fill 24 x05; fill 24 x06]
  | _ => False
  end.
Proof. split; [by repeat split|by vm_compute]. Qed.

(** ** The client *)

(** The passphrases in a request, as the client encrypted them. *)
Definition secrets_in (m : api) : list secret :=
  let opt o := match o with Some s => [s] | None => [] end in
  let deep o := match o with Some d => [dl_pass d] | None => [] end in
  match m with
  | ReqUnlock _ s => [s]
  | ReqNewSeed _ _ d _ => deep d
  | ReqExportSeed _ _ _ _ s => opt s
  | ReqImportSeed _ _ _ d _ _ _ _ => deep d
  | ReqDeriveSeed _ _ d1 _ d2 _ => deep d1 ++ deep d2
  | ReqSign _ _ s _ | ReqBox _ _ _ s _ | ReqBoxOpen _ _ _ s _ _ | ReqBoxSign _ _ _ s _
  | ReqBoxSignOpen _ _ _ s _ _ | ReqSecretBox _ _ s _ | ReqSecretBoxOpen _ _ s _ _ => opt s
  | _ => []
  end.

(** A call encrypts each passphrase with a header drawn for it, and its message id is one
    drawn for it. *)
Theorem C64_client :
  forall C enc d a,
    map s_header (secrets_in (request_of C enc d a)) `sublist_of` [d_hdr d; d_hdr2 d]
    /\ msg_id (request_of C enc d a) = d_id d.
Proof.
  intros C enc d a. split; [|destruct a; reflexivity].
  assert (H0 : [] `sublist_of` [d_hdr d; d_hdr2 d]) by apply sublist_nil_l.
  assert (H1 : [d_hdr d] `sublist_of` [d_hdr d; d_hdr2 d]) by apply sublist_skip, sublist_nil_l.
  assert (H2 : [d_hdr2 d] `sublist_of` [d_hdr d; d_hdr2 d]) by apply sublist_cons, sublist_skip, sublist_nil_l.
  assert (H3 : [d_hdr d; d_hdr2 d] `sublist_of` [d_hdr d; d_hdr2 d]) by reflexivity.
  assert (Ho : forall p, map s_header (match option_map (hide C enc (d_hdr d)) p with Some s => [s] | None => [] end)
    `sublist_of` [d_hdr d; d_hdr2 d]) by (by intros [p|]).
  assert (Hd : forall p, map s_header (match option_map (fun p => dlp_of (d_limits d) (hide C enc (d_hdr d) p)) p with
    Some s => [dl_pass s] | None => [] end) `sublist_of` [d_hdr d; d_hdr2 d]) by (by intros [p|]).
  destruct a as [| | | | | | |s sp t tp path| | | | | | | | |].
  8: { destruct sp, tp; [exact H3|exact H1|exact H2|exact H0]. }
  all: first [exact H0|exact H1|apply Ho|apply Hd].
Qed.
Print Assumptions C64_client.

Example C64_ex_client :
  let d := Draws (str "id") (fill 24 x01) (fill 24 x02) Interactive in
  map s_header (secrets_in (request_of Toy.toy demo_dec d (ADerive (str "s") (Some (str "p")) (str "t") (Some (str "q")) [])))
  = [fill 24 x01; fill 24 x02].
Proof. by vm_compute. Qed.
