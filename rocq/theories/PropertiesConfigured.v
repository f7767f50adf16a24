(** * PropertiesConfigured: the fallback signer is used just when it is configured (C19) *)

From Verif Require Import Base Crypto Toy Types Codec Secret Store StoreProofs Server System
  ServerSpec ServerVocab Cli ConnUrl Startup Demo PropertiesServer1 PropertiesServer3.

(** A server started with a configuration that names no program asks nobody to sign, whatever
    it is sent; with one that names a program, it answers a request to sign with a key it
    does not hold with what the program answered; and it does not start at all when the
    program can not be started. *)
Theorem C19_as_configured :
  forall S (SO : StoreOk S) C, CryptoOk C ->
  forall cfg st name version rcgen evs,
  let g := env_of C cfg st name version rcgen in
  (cf_fallback cfg = None -> sh_fb S (s_sh S (run S g evs)) = [])
  /\ (forall program, cf_fallback cfg = Some program ->
        (forall pass A (empty : A) disk, is_ok (start C empty cfg pass false disk).2 = false)
        /\ forall cid c tid rq m id k d data,
             conn_at S g evs cid c -> received S c tid rq -> rq_msg S rq = ReqSign id k d data ->
             sent S c tid m -> came_unlocked S rq -> undisturbed S rq ->
             (forall e, stored S g evs e -> ed_of e <> Some k) ->
             exists r, FbCall id k data r ∈ sh_fb S (s_sh S (run S g evs))
               /\ match r with Ok sig => m = ResSign id sig | Err _ => is_error m = true end).
Proof.
  intros S SO C HC cfg st name version rcgen evs g. split.
  - intros Hn. destruct (sh_fb S (s_sh S (run S g evs))) as [|fc l] eqn:E; [done|exfalso].
    destruct (C19_fallback_only_if_not_held S SO g HC evs fc) as [Hf _]; [rewrite E; by left|].
    unfold g, env_of in Hf. cbn [g_fallback] in Hf. by rewrite Hn in Hf.
  - intros program Hp. split.
    + intros pass A empty disk. unfold start. destruct (unlock_config C cfg pass) as [s|e]; [|done].
      destruct (open_store C empty (st_context s) (cf_db_salt cfg) disk) as [d'|e]; [|done].
      by rewrite Hp.
    + intros cid c tid rq m id k d data Hc Hq Hrq Hm Hu Hd Hno.
      destruct (C19_not_held S SO g HC evs cid c tid rq m id k d data Hc Hq Hrq Hm Hu Hd Hno) as [_ H].
      destruct H as [(sig & -> & H)|(He & er & H)].
      * unfold g, env_of. cbn [g_fallback]. by rewrite Hp.
      * by exists (Ok sig).
      * by exists (Err er).
Qed.
Print Assumptions C19_as_configured.

(** The demonstration server, configured with a program and without: the same request to sign
    with a foreign key. *)
Definition signer_config (fb : fallback) : config :=
  Config (Url None None None) [] [] fb [] demo_salt 3 2 (Sec [] []) (g_id_seed (demo_env true)).
Definition signer_env (fb : fallback) : genv :=
  env_of toy (signer_config fb) (Started (fill 32 x33) (box_pk toy demo_seed) demo_seed) (str "lair-keystore") (str "0.0.0")
    (fun _ => true).
Example C19_configured_case :
  let asked fb := length (sh_fb sql_store (s_sh sql_store (run sql_store (signer_env fb) ex_fallback))) in
  let errors fb := map (fun x => is_error (snd (fst x))) (drop 1 (replies sql_store (signer_env fb) ex_fallback 1)) in
  asked None = 0 /\ errors None = [true]
  /\ asked (Some (str "signer", None)) = 1 /\ errors (Some (str "signer", None)) = [false].
Proof. repeat split; by vm_compute. Qed.
