(** * PropertiesStartup: generated configurations and passphrases (C25, C26) *)

From Verif Require Import Base Utf8 Base64 Crypto Toy Types Codec Secret Store StoreProofs Server System
  ServerSpec ServerVocab Cli PropertiesCli ConnUrl PropertiesUrl Startup Demo.

(** ** C25: a generated configuration starts with its passphrase *)

(** Generating succeeds for every absolute path that is text, unless the hashing of the
    passphrase fails. *)
Lemma generated_some d pk : utf8 (slash :: d) = true -> length pk = 32 ->
  exists u, generated_url (slash :: d) pk = Some u.
Proof.
  intros Hu Hl. unfold generated_url. rewrite Hu. unfold parse_url. rewrite generated_text by done.
  destruct (take_scheme (List.filter (fun b => negb (tab_nl b))
    (push (slash :: d) (str "socket")) ++ str "?k=" ++ to_b64url pk)) as [-> ->].
  rewrite beq_refl. destruct (push_slash d (str "socket")) as (sep & -> & _).
  unfold parse_rest. cbn [List.filter]. change (negb (tab_nl slash)) with true. cbv iota.
  cbn [app cut]. change (is slash slash) with true. cbn [orb].
  destruct (cut _ _) as [p r]. destruct (cut (is hash) r). by eexists.
Qed.

Theorem C25_generates :
  forall C, CryptoOk C ->
  forall root d pass ops mem r pre, draws_ok r -> utf8 (slash :: d) = true ->
    argon2id C (blake2b C 64 pass) (r_salt r) ops mem = Ok pre ->
    exists cfg, new_config C root (Ok (slash :: d)) pass ops mem r = Some (Ok cfg).
Proof.
  intros C HC root d pass ops mem r pre (_ & _ & _ & Hid & _) Hu Hp. unfold new_config, pre_secret.
  rewrite Hp. cbn [rbind].
  destruct (generated_some d (box_pk C (r_id r)) Hu) as [u ->]; [|by eexists].
  apply (x_base_len C HC), (box_sk_len C HC), Hid.
Qed.
Print Assumptions C25_generates.

(** False of directories that are not text: generating panics. *)
Theorem C25_not_text_refuted :
  forall C root d pass ops mem r pre, utf8 d = false ->
    argon2id C (blake2b C 64 pass) (r_salt r) ops mem = Ok pre ->
    new_config C root (Ok d) pass ops mem r = None.
Proof.
  intros C root d pass ops mem r pre Hu Hp. unfold new_config, pre_secret. rewrite Hp. cbn [rbind].
  unfold generated_url. by rewrite Hu.
Qed.
Print Assumptions C25_not_text_refuted.

(** Exactly when it panics, and exactly when it makes a configuration; otherwise (no key could be
    derived, or the directory has no canonical path) it returns an error. *)
Theorem C25_panics_exactly :
  forall C, CryptoOk C ->
  forall root canon pass ops mem r, draws_ok r ->
    (forall dir, canon = Ok dir -> exists d, dir = slash :: d) ->
    (new_config C root canon pass ops mem r = None <->
     is_ok (argon2id C (blake2b C 64 pass) (r_salt r) ops mem) = true
     /\ exists dir, canon = Ok dir /\ utf8 dir = false)
    /\ ((exists cfg, new_config C root canon pass ops mem r = Some (Ok cfg)) <->
       is_ok (argon2id C (blake2b C 64 pass) (r_salt r) ops mem) = true
       /\ exists dir, canon = Ok dir /\ utf8 dir = true).
Proof.
  intros C HC root canon pass ops mem r Hr Habs. pose proof Hr as (_ & _ & _ & Hid & _).
  unfold new_config, pre_secret.
  destruct (argon2id _ _ _ _ _) as [pre|e]; cbn [rbind is_ok]; [|by split; split; [|intros [? _]|intros [? ?]|intros [? _]]].
  destruct canon as [dir|e]; cbn [rbind].
  2: { split; split; try done; [intros (_ & ? & ? & _); done|intros [? ?]; done|intros (_ & ? & ? & _); done]. }
  destruct (Habs dir eq_refl) as [d ->]. unfold generated_url at 1 2.
  destruct (utf8 (slash :: d)) eqn:Hu.
  - destruct (generated_some d (box_pk C (r_id r)) Hu) as [u Hg].
    { apply (x_base_len C HC), (box_sk_len C HC), Hid. }
    unfold generated_url in Hg. rewrite Hu in Hg. rewrite Hg.
    split; split.
    + done.
    + intros (_ & ? & [= <-] & ?). congruence.
    + intros _. split; [done|]. by eexists.
    + intros _. by eexists.
  - split; split.
    + intros _. split; [done|]. by eexists.
    + done.
    + intros [? ?]; done.
    + intros (_ & ? & [= <-] & ?). congruence.
Qed.
Print Assumptions C25_panics_exactly.

Lemma new_config_inv C root canon pass ops mem r cfg :
  new_config C root canon pass ops mem r = Some (Ok cfg) ->
  exists pre dir u, pre_secret C pass (r_salt r) ops mem = Ok pre /\ canon = Ok dir
    /\ generated_url dir (box_pk C (r_id r)) = Some u
    /\ cfg = Config u (push root (str "pid_file")) (push root (str "store_file")) None
          (r_db_salt r) (r_salt r) mem ops
          (sec_encrypt C (ctx_key C pre) (r_context_hdr r) (r_context r))
          (sec_encrypt C (id_key C pre) (r_id_hdr r) (r_id r)).
Proof.
  unfold new_config. destruct (pre_secret _ _ _ _ _) as [pre|]; [|done]. cbn [rbind].
  destruct canon as [dir|]; [|done]. cbn [rbind].
  destruct (generated_url _ _) as [u|] eqn:E; [|done]. intros [= <-]. by exists pre, dir, u.
Qed.

Lemma generated_unlocks C (HC : CryptoOk C) root canon pass ops mem r cfg :
  draws_ok r -> new_config C root canon pass ops mem r = Some (Ok cfg) ->
  unlock_config C cfg pass = Ok (Started (r_context r) (box_pk C (r_id r)) (box_sk C (r_id r))).
Proof.
  intros (_ & _ & Hc & Hi & _) H. apply new_config_inv in H as (pre & dir & u & Hp & _ & _ & ->).
  unfold unlock_config. cbn [cf_salt cf_ops cf_mem cf_context cf_id]. rewrite Hp. cbn [rbind].
  rewrite <- Hc at 1. rewrite (sec_open_encrypt C HC). cbn [rbind].
  rewrite <- Hi at 1. by rewrite (sec_open_encrypt C HC).
Qed.

(** After any history of starts with any passphrases and of changes to the database, it starts
    with the passphrase it was generated with, with the identity drawn at generation, and with
    the database as it was left.  (A passphrase tried earlier might, as far as the laws of the
    cipher go, have opened the encrypted database key to another key, and have made the
    database with it; [Hkey] says that none did.) *)
Theorem C25_starts_always :
  forall C, CryptoOk C ->
  forall root canon pass ops mem r cfg, draws_ok r ->
    new_config C root canon pass ops mem r = Some (Ok cfg) ->
  forall A (empty : A) (history : list (life A)),
    (forall p fb st, LStart p fb ∈ history -> unlock_config C cfg p = Ok st -> st_context st = r_context r) ->
    exists d st, start C empty cfg pass true (live C empty cfg history) = (Some d, Ok st)
      /\ st_id_pk st = box_pk C (r_id r)
      /\ d.2 = match live C empty cfg history with Some (_, a) => a | None => empty end.
Proof.
  intros C HC root canon pass ops mem r cfg Hr Hcfg A empty history Hkey.
  destruct (key_pragma (kdf C 142 (str "DbKSecKy") (r_context r))) as [key|] eqn:Ek.
  2: { exfalso. unfold key_pragma in Ek. rewrite hex_length, (kdf_len C HC) in Ek. done. }
  set (salt := salt_pragma (str "cipher_salt") (cf_db_salt cfg)).
  assert (match live C empty cfg history with None => True | Some (k, s, _) => k = key /\ s = salt end) as Hd.
  { unfold live. induction history as [|l history IH] using rev_ind; [done|].
    rewrite fold_left_app. cbn [fold_left].
    specialize (IH (fun p fb st H => Hkey p fb st (proj2 (elem_of_app _ _ _) (or_introl H)))).
    destruct l as [p fb|f]; cbn [live1].
    - unfold start. destruct (unlock_config C cfg p) as [st|] eqn:Eu; [|done].
      rewrite (Hkey p fb st) by (first [apply elem_of_app; right; constructor|done]).
      unfold open_store. rewrite Ek. cbn [rbind].
      destruct (fold_left _ _ _) as [[[k s] a]|]; [|done].
      destruct (_ && _); done.
    - destruct (fold_left _ _ _) as [[[k s] a]|]; done. }
  unfold start. rewrite (generated_unlocks C HC _ _ _ _ _ _ _ Hr Hcfg). cbn [st_context].
  unfold open_store. rewrite Ek. cbn [rbind]. fold salt.
  destruct (live C empty cfg history) as [[[k s] a]|].
  - destruct Hd as [-> ->]. rewrite !beq_refl. cbn [andb]. by eexists _, _.
  - by eexists _, _.
Qed.
Print Assumptions C25_starts_always.

(** Once there is a database, no attempt to start, with whatever passphrase, changes or removes
    it: it holds what was written to it, in the order in which it was. *)
Definition writes {A} (history : list (life A)) : list (A -> A) :=
  omap (fun l => match l with LUse f => Some f | LStart _ _ => None end) history.

Theorem C25_nothing_lost :
  forall C cfg A (empty : A) (history more : list (life A)) db,
    live C empty cfg history = Some db ->
    live C empty cfg (history ++ more) = Some (db.1, fold_left (fun a f => f a) (writes more) db.2).
Proof.
  intros C cfg A empty history more [ks a] H. unfold live in *. rewrite fold_left_app, H. clear H.
  revert ks a. induction more as [|[p fb|f] more IH]; intros [k s] a; [done| |].
  - change (writes (LStart p fb :: more)) with (writes more). cbn [fold_left live1].
    assert ((start C empty cfg p fb (Some (k, s, a))).1 = Some (k, s, a)) as ->; [|apply IH].
    unfold start. destruct (unlock_config C cfg p) as [st|]; [|done].
    unfold open_store. destruct (key_pragma _); cbn [rbind]; [|done]. destruct (_ && _); [|done].
    destruct fb; [done|]. by destruct (cf_fallback cfg).
  - change (writes (LUse f :: more)) with (f :: writes more). cbn [fold_left live1]. apply IH.
Qed.
Print Assumptions C25_nothing_lost.

(** The identity is the one in the connection URL, for directories whose path has no question
    mark or number sign ([C45_question_refuted]: in the others no key is found). *)
Theorem C25_identity_partial :
  forall C, CryptoOk C ->
  forall root d pass ops mem r cfg A (empty : A) disk disk' fb st, draws_ok r -> quest ∉ d -> hash ∉ d ->
    new_config C root (Ok (slash :: d)) pass ops mem r = Some (Ok cfg) ->
    start C empty cfg pass fb disk = (disk', Ok st) ->
    server_key (cf_url cfg) = Ok (st_id_pk st).
Proof.
  intros C HC root d pass ops mem r cfg A empty disk disk' fb st Hr Hq Hh Hcfg Hs.
  unfold start in Hs. rewrite (generated_unlocks C HC _ _ _ _ _ _ _ Hr Hcfg) in Hs.
  destruct (open_store _ _ _ _) as [d'|]; [|done].
  assert (st_id_pk st = box_pk C (r_id r)) as ->.
  { destruct fb; [by injection Hs as <- <-|]. destruct (cf_fallback cfg); [done|]. by injection Hs as <- <-. }
  apply new_config_inv in Hcfg as (pre & dir & u & _ & [= <-] & Hu & ->). cbn [cf_url].
  destruct Hr as (_ & _ & _ & Hid & _).
  assert (utf8 (slash :: d) = true) as Hutf.
  { unfold generated_url in Hu. by destruct (utf8 _). }
  destruct (C45_key_in_url_partial d (box_pk C (r_id r)) Hutf Hq Hh) as (u' & Hu' & Hk).
  { apply (x_base_len C HC), (box_sk_len C HC), Hid. }
  congruence.
Qed.
Print Assumptions C25_identity_partial.

(** The passphrase a server was started with is the right one to unlock its connections with,
    as a client encrypts it. *)
Definition encrypted_passphrase (C : Crypto) (key hdr pass : bytes) : secret :=
  sec_encrypt C key hdr (blake2b C 64 pass).

Lemma start_inv {A} C (empty : A) cfg pass fb d d' st : start C empty cfg pass fb d = (d', Ok st) ->
  unlock_config C cfg pass = Ok st /\ open_store C empty (st_context st) (cf_db_salt cfg) d = Ok d'.
Proof.
  unfold start. destruct (unlock_config C cfg pass) as [st'|]; [|done].
  destruct (open_store _ _ _ _ _) as [d''|] eqn:E; [|done].
  destruct fb; [by intros [= <- <-]|]. destruct (cf_fallback cfg); [done|]. by intros [= <- <-].
Qed.

Lemma unlock_config_inv C cfg pass st : unlock_config C cfg pass = Ok st ->
  exists pre id, pre_secret C pass (cf_salt cfg) (cf_ops cfg) (cf_mem cfg) = Ok pre
    /\ sec_open C 32 (ctx_key C pre) (cf_context cfg) = Ok (st_context st)
    /\ sec_open C 32 (id_key C pre) (cf_id cfg) = Ok id
    /\ st_id_pk st = box_pk C id /\ st_id_sk st = box_sk C id.
Proof.
  unfold unlock_config. destruct (pre_secret _ _ _ _ _) as [pre|]; [|done]. cbn [rbind].
  destruct (sec_open C 32 (ctx_key C pre) _) as [ctx|] eqn:Ec; [|done]. cbn [rbind].
  destruct (sec_open C 32 (id_key C pre) _) as [id|] eqn:Ei; [|done]. cbn [rbind].
  intros [= <-]. by exists pre, id.
Qed.

Theorem C25_passphrase_unlocks :
  forall C, CryptoOk C ->
  forall cfg pass A (empty : A) fb disk disk' st name version rcgen,
    start C empty cfg pass fb disk = (disk', Ok st) ->
  forall S (c : conn S) hdr,
    right_passphrase S (env_of C cfg st name version rcgen) c
      (encrypted_passphrase C (c_dec S c) hdr pass).
Proof.
  intros C HC cfg pass A empty fb disk disk' st name version rcgen Hs S c hdr.
  apply start_inv in Hs as [Hu _].
  apply unlock_config_inv in Hu as (pre & id & Hp & _ & Hi & Hpk & _).
  exists (blake2b C 64 pass), pre, id. unfold env_of, encrypted_passphrase.
  cbn [g_crypto g_salt g_ops g_mem g_id_seed g_id_pk]. repeat split.
  - rewrite <- (blake2b_len C HC 64 pass) at 1. apply (sec_open_encrypt C HC).
  - done.
  - done.
  - done.
Qed.
Print Assumptions C25_passphrase_unlocks.

(** A keystore in [/home/me/keys], tried with wrong passphrases before and after its first
    start, and used. *)
Definition demo_draws : draws :=
  Draws (fill 16 x01) (fill 16 x02) (fill 32 x03) (fill 32 x04) (fill 24 x05) (fill 24 x06).
Definition demo_dir : bytes := str "home/me/keys".
Definition demo_history : list (life nat) :=
  [LStart (str "bad") true; LStart (str "pw") true; LUse S; LStart (str "worse") true; LUse S].

Example C25_ex :
  draws_ok demo_draws
  /\ match new_config toy (slash :: demo_dir) (Ok (slash :: demo_dir)) (str "pw") 2 3 demo_draws with
     | Some (Ok cfg) =>
         (forall p fb st, LStart p fb ∈ demo_history -> unlock_config toy cfg p = Ok st ->
            st_context st = r_context demo_draws)
         /\ match start toy 0 cfg (str "pw") true (live toy 0 cfg demo_history),
                  start toy 0 cfg (str "bad") true (live toy 0 cfg demo_history) with
            | (Some (_, _, a), Ok st), (_, Err _) =>
                a = 2 /\ server_key (cf_url cfg) = Ok (st_id_pk st)
            | _, _ => False
            end
     | _ => False
     end.
Proof.
  split; [repeat split|].
  destruct (new_config _ _ _ _ _ _ _) as [[cfg|]|] eqn:E; [|by vm_compute in E..].
  assert (match new_config toy (slash :: demo_dir) (Ok (slash :: demo_dir)) (str "pw") 2 3 demo_draws with
    | Some (Ok cfg) =>
        forallb (fun p => match unlock_config toy cfg p with Err _ => true | Ok st => beq (st_context st) (fill 32 x03) end)
          [str "bad"; str "pw"; str "worse"]
        && match start toy 0 cfg (str "pw") true (live toy 0 cfg demo_history),
              start toy 0 cfg (str "bad") true (live toy 0 cfg demo_history) with
           | (Some (_, _, a), Ok st), (_, Err _) =>
               Nat.eqb a 2 && match server_key (cf_url cfg) with Ok k => beq k (st_id_pk st) | Err _ => false end
           | _, _ => false
           end
    | _ => false
    end = true) as H by (vm_compute; reflexivity).
  rewrite E in H. apply andb_true_iff in H as [H1 H2]. split.
  - intros p fb st Hp Hu. rewrite forallb_forall in H1. specialize (H1 p).
    rewrite Hu in H1. apply beq_true. apply H1. clear -Hp.
    unfold demo_history in Hp. rewrite !elem_of_cons, elem_of_nil in Hp.
    destruct Hp as [[= -> ->]|[[= -> ->]|[Hp|[[= -> ->]|[Hp|[]]]]]]; try discriminate Hp; cbn; tauto.
  - destruct (start toy 0 cfg (str "pw") true _) as [[[[k s] a]|] [st|]]; try done.
    destruct (start toy 0 cfg (str "bad") true _) as [d' [st'|]]; try done.
    apply andb_true_iff in H2 as [Ha Hk]. apply Nat.eqb_eq in Ha. split; [done|].
    destruct (server_key _) as [k'|]; [|done]. apply beq_true in Hk. congruence.
Qed.

(** It panics in [/<ff>] and is refused where there is no directory. *)
Example C25_panics_ex :
  new_config toy [slash; xff] (Ok [slash; xff]) (str "pw") 2 3 demo_draws = None
  /\ new_config toy (str "/x") (Err (str "No such file or directory")) (str "pw") 2 3 demo_draws
     = Some (Err (str "No such file or directory")).
Proof. split; vm_compute; reflexivity. Qed.

(** ** C26: a wrong passphrase does not start the keystore *)

(** This ciphertext of a 32 byte secret opens under this key. *)
Definition opens (C : Crypto) (key : bytes) (s : secret) : Prop := is_ok (sec_open C 32 key s) = true.

(** Whatever passphrase starts it, its derived key opens both encrypted secrets. *)
Theorem C26_opens_both :
  forall C cfg pass A (empty : A) fb disk disk' st,
    start C empty cfg pass fb disk = (disk', Ok st) ->
    exists pre context id,
      argon2id C (blake2b C 64 pass) (cf_salt cfg) (cf_ops cfg) (cf_mem cfg) = Ok pre
      /\ sec_open C 32 (kdf C 42 (str "CtxSecKy") pre) (cf_context cfg) = Ok context
      /\ sec_open C 32 (kdf C 142 (str "IdnSecKy") pre) (cf_id cfg) = Ok id
      /\ st_context st = context /\ st_id_pk st = box_pk C id.
Proof.
  intros C cfg pass A empty fb disk disk' st Hs. apply start_inv in Hs as [Hu _].
  apply unlock_config_inv in Hu as (pre & id & Hp & Hc & Hi & Hpk & _). by exists pre, (st_context st), id.
Qed.
Print Assumptions C26_opens_both.

(** So does the passphrase that unlocks a connection, of the identity. *)
Theorem C26_unlock_opens :
  forall C cfg st name version rcgen S (c : conn S) hdr pass,
    CryptoOk C ->
    right_passphrase S (env_of C cfg st name version rcgen) c
      (encrypted_passphrase C (c_dec S c) hdr pass) ->
    exists pre id,
      argon2id C (blake2b C 64 pass) (cf_salt cfg) (cf_ops cfg) (cf_mem cfg) = Ok pre
      /\ sec_open C 32 (kdf C 142 (str "IdnSecKy") pre) (cf_id cfg) = Ok id
      /\ box_pk C id = st_id_pk st.
Proof.
  intros C cfg st name version rcgen S c hdr pass HC (h & pre & id & H1 & H2 & H3 & H4).
  cbn [env_of g_crypto g_salt g_ops g_mem g_id_seed g_id_pk] in *.
  assert (h = blake2b C 64 pass) as ->.
  { unfold encrypted_passphrase in H1. rewrite <- (blake2b_len C HC 64 pass) in H1 at 1.
    rewrite (sec_open_encrypt C HC) in H1. congruence. }
  by exists pre, id.
Qed.
Print Assumptions C26_unlock_opens.

(** A configuration generated with one passphrase that starts with another: both encrypted
    secrets open under the keys derived from either. *)
Theorem C26_two_keys :
  forall C, CryptoOk C ->
  forall root canon pass pass' ops mem r cfg A (empty : A) fb disk disk' st pre,
    draws_ok r -> new_config C root canon pass ops mem r = Some (Ok cfg) ->
    argon2id C (blake2b C 64 pass) (r_salt r) ops mem = Ok pre ->
    start C empty cfg pass' fb disk = (disk', Ok st) ->
    exists pre', argon2id C (blake2b C 64 pass') (r_salt r) ops mem = Ok pre'
      /\ opens C (kdf C 42 (str "CtxSecKy") pre) (cf_context cfg)
      /\ opens C (kdf C 42 (str "CtxSecKy") pre') (cf_context cfg)
      /\ opens C (kdf C 142 (str "IdnSecKy") pre) (cf_id cfg)
      /\ opens C (kdf C 142 (str "IdnSecKy") pre') (cf_id cfg).
Proof.
  intros C HC root canon pass pass' ops mem r cfg A empty fb disk disk' st pre Hr Hcfg Hpre Hs.
  pose proof (generated_unlocks C HC _ _ _ _ _ _ _ Hr Hcfg) as Hg.
  apply unlock_config_inv in Hg as (p & id & Hp & Hc & Hi & _).
  apply start_inv in Hs as [Hu _]. apply unlock_config_inv in Hu as (pre' & id' & Hp' & Hc' & Hi' & _).
  apply new_config_inv in Hcfg as (q & dir & u & _ & _ & _ & ->). unfold pre_secret, ctx_key, id_key in *.
  cbn [cf_salt cf_ops cf_mem cf_context cf_id] in *.
  assert (p = pre) as -> by congruence. exists pre'. unfold opens.
  split; [done|]. rewrite Hc, Hc', Hi, Hi'. done.
Qed.
Print Assumptions C26_two_keys.

(** Whatever the configuration, generated or tampered with: a passphrase whose derived key does
    not open one of the two encrypted secrets is refused, and the database file stays as it
    is. *)
Theorem C26_refused :
  forall C cfg pass A (empty : A) fb disk,
    (forall pre, argon2id C (blake2b C 64 pass) (cf_salt cfg) (cf_ops cfg) (cf_mem cfg) = Ok pre ->
       ~ (opens C (kdf C 42 (str "CtxSecKy") pre) (cf_context cfg)
          /\ opens C (kdf C 142 (str "IdnSecKy") pre) (cf_id cfg))) ->
    exists e, start C empty cfg pass fb disk = (disk, Err e).
Proof.
  intros C cfg pass A empty fb disk Hno.
  unfold start. destruct (unlock_config C cfg pass) as [st|e] eqn:Hu; [exfalso|by eexists].
  apply unlock_config_inv in Hu as (pre & id & Hp & Hc & Hi & _).
  apply (Hno pre Hp). unfold opens, ctx_key, id_key in *. by rewrite Hc, Hi.
Qed.
Print Assumptions C26_refused.

(** A database that is there is opened only with the key it was made with. *)
Theorem C26_database_key :
  forall C, CryptoOk C ->
  forall cfg pass A (empty : A) fb key0 salt a disk' st,
    length key0 = 32 ->
    forall stmt, key_pragma key0 = Ok stmt ->
    start C empty cfg pass fb (Some (stmt, salt, a)) = (disk', Ok st) ->
    kdf C 142 (str "DbKSecKy") (st_context st) = key0 /\ disk' = Some (stmt, salt, a).
Proof.
  intros C HC cfg pass A empty fb key0 salt a disk' st Hl stmt Hk Hs.
  apply start_inv in Hs as [_ Ho]. unfold open_store in Ho.
  destruct (key_pragma (kdf _ _ _ _)) as [k|] eqn:E; [|done]. cbn [rbind] in Ho.
  destruct (beq stmt k && beq _ _) eqn:Eb; [|done].
  apply andb_true_iff in Eb as [Eb _]. apply beq_true in Eb as ->. split; [|congruence].
  eapply C48_keys_distinct; [apply (kdf_len C HC)|done|congruence].
Qed.
Print Assumptions C26_database_key.

(** A generated configuration, the right passphrase and a wrong one. *)
Example C26_ex :
  match new_config toy (slash :: demo_dir) (Ok (slash :: demo_dir)) (str "pw") 2 3 demo_draws with
  | Some (Ok cfg) =>
      (forall pre, argon2id toy (blake2b toy 64 (str "other")) (cf_salt cfg) (cf_ops cfg) (cf_mem cfg) = Ok pre ->
         ~ (opens toy (kdf toy 42 (str "CtxSecKy") pre) (cf_context cfg)
            /\ opens toy (kdf toy 142 (str "IdnSecKy") pre) (cf_id cfg)))
      /\ (start toy 0 cfg (str "other") true None).1 = None
      /\ is_ok (start toy 0 cfg (str "other") true None).2 = false
      /\ is_ok (start toy 0 cfg (str "pw") true None).2 = true
  | _ => False
  end.
Proof.
  destruct (new_config _ _ _ _ _ _ _) as [[cfg|]|] eqn:E; [|by vm_compute in E..].
  assert (match new_config toy (slash :: demo_dir) (Ok (slash :: demo_dir)) (str "pw") 2 3 demo_draws with
    | Some (Ok cfg) =>
       match argon2id toy (blake2b toy 64 (str "other")) (cf_salt cfg) (cf_ops cfg) (cf_mem cfg) with
       | Ok pre => negb (is_ok (sec_open toy 32 (kdf toy 42 (str "CtxSecKy") pre) (cf_context cfg)))
       | Err _ => true
       end
       && match (start toy 0 cfg (str "other") true None).1 with None => true | Some _ => false end
       && negb (is_ok (start toy 0 cfg (str "other") true None).2)
       && is_ok (start toy 0 cfg (str "pw") true None).2
    | _ => false
    end = true) as H by (vm_compute; reflexivity).
  rewrite E in H. apply andb_true_iff in H as [H H3]. apply andb_true_iff in H as [H H2].
  apply andb_true_iff in H as [H0 H1]. split.
  - intros pre Hp [Ho _]. rewrite Hp in H0. unfold opens in Ho. by rewrite Ho in H0.
  - split; [by destruct (start toy 0 cfg (str "other") true None).1|]. split; [by apply negb_true_iff|done].
Qed.
