(** * C72: secrets leave the keystore only encrypted

    What an answer carries, what the store and the configuration file hold, what a client sends:
    seeds, private keys and passphrases are in none of them, other than encrypted for the one
    who is to have them. *)

From Verif Require Import Base Utf8 Crypto Types Codec Secret Store StoreProofs Lru Server
  System ServerSpec ServerVocab ServerProofs ServerProofs2 SystemProofs ServerTheorems WriteProofs
  FreshVocab FreshProofs SecretVocab SecretProofs Demo Startup SeedBundle ConnUrl Asks PropertiesFresh.

(** ** Answers *)

(** Every byte string in a message to a client is there for one of the reasons listed in
    [tellable]; for the text of an error the reasons are those in [error_text_of]. *)
Theorem C72_answers :
  forall S (SO : StoreOk S) g, CryptoOk (g_crypto g) ->
  forall evs cid c tid rq m,
    conn_at S g evs cid c -> received S c tid rq -> sent S c tid m ->
    msg_id m = msg_id (rq_msg S rq)
    /\ forall b, b ∈ pieces m ->
         if is_error m then error_text_of S g evs cid tid rq b else tellable S g evs cid c tid rq b.
Proof.
  intros S SO g HC evs cid c tid rq m Hc Hq Hm.
  destruct (is_error m) eqn:He.
  { destruct (answer_meaning S SO g HC evs cid c tid rq m Hc Hq Hm) as (L0 & w & M).
    destruct (me_good _ _ _ _ _ _ _ _ M) as [[? H]|(er & -> & _)].
    { destruct m; try discriminate He. by destruct (rq_msg S rq). }
    split; [done|]. intros b Hb. apply elem_of_list_singleton in Hb as ->.
    destruct (error_text S SO g HC evs cid c tid rq _ er Hc Hq Hm) as [[H|H]|[H|[[H (i & pk & d & Hf & dl & Hr)]|H]]];
      unfold error_text_of; cbn [is_error]; eauto 15. }
  destruct (right_meaning S SO g HC evs cid c tid rq m Hc Hq Hm He) as (L0 & w & M & [Hid H]).
  split; [done|].
  assert (Hu : w_unl w = true -> c_unl S c = true) by apply (me_unl _ _ _ _ _ _ _ _ M).
  assert (Hn : forall e, e ∈ w_L w -> stored S g evs e) by apply (me_now _ _ _ _ _ _ _ _ M).
  assert (Hnon : forall n, nonce_of m = Some n -> nonce_for evs cid tid n).
  { intros n Hnn. exact (C64_nonces S SO g HC evs cid c tid rq m n Hc Hq Hm He Hnn). }
  assert (Hfresh : forall n, nonce_of m = Some n -> tellable S g evs cid c tid rq n).
  { intros n Hnn. by apply tell_random, Hnon. }
  assert (Hmade : forall t si e, seed_info_of e = Some si -> tag_of e = t -> c_unl S c = true -> stored S g evs e ->
    forall b, b ∈ t :: of_seed_info si -> tellable S g evs cid c tid rq b).
  { intros t si e Hs Ht Hul Hst b Hb. eapply tell_entry; [done|exact Hst|].
    destruct e as [t' si' ?|t' si' ? ? ? ?|]; cbn in Hs, Ht |- *; [| |done]; injection Hs as ->; by rewrite Ht. }
  assert (Hsi : forall t d si seed e, holds_seed g (c_dec S c) e t d si seed -> seed_info_of e = Some si /\ tag_of e = t).
  { intros t d si seed e He0. unfold holds_seed in He0. destruct d as [dl|].
    - by destruct He0 as (? & ? & ? & _ & -> & _).
    - by destruct He0 as (? & -> & _). }
  destruct (rq_msg S rq) eqn:Er, m; try done; cbn [pieces is_error].
  - destruct H as (-> & -> & ->). intros b Hb. by apply tell_server.
  - intros b Hb. by apply elem_of_nil in Hb.
  - destruct H as (H1 & e & H2 & H3 & ->). intros b Hb. by eapply tell_entry; [apply Hu| |exact Hb]; eauto.
  - destruct H as (H1 & L1 & H2 & H3 & H4). intros b Hb.
    apply elem_of_list_In, in_flat_map in Hb as (i & Hi & Hb). apply elem_of_list_In in Hi, Hb.
    rewrite H4 in Hi. apply elem_of_list_fmap in Hi as (e & -> & Hin).
    eapply tell_entry; [by apply Hu| |exact Hb]. apply Hn. by eapply elem_of_prefix.
  - destruct H as (H1 & -> & H2 & e & seed & H3 & H4). destruct (Hsi _ _ _ _ _ H4).
    eapply Hmade; eauto.
  - destruct H as (H1 & H2 & e & seed & e2 & seed2 & A1 & A2 & A3 & A4 & A5 & A6 & A7 & A8).
    intros b Hb. apply elem_of_cons in Hb as [->|Hb]; [by apply Hfresh|]. apply elem_of_list_singleton in Hb as ->.
    eapply (tell_exported S g evs cid c tid rq _ _ _ _ _ e seed e2 seed2); eauto. rewrite A7. by apply plain_x_of.
  - destruct H as (H1 & -> & H2 & e & seed & e2 & seed2 & A1 & A2 & A3 & A4 & A5 & A6). destruct (Hsi _ _ _ _ _ A6).
    eapply Hmade; eauto.
  - destruct H as (H1 & e & seed & e2 & A1 & A2 & A3 & A4 & A5 & A6). destruct (Hsi _ _ _ _ _ A6).
    intros b Hb. eapply (Hmade _ _ e2); eauto. by right.
  - intros b Hb. apply elem_of_list_singleton in Hb as ->. destruct H as (H1 & [(e & seed & A1 & A2 & A3 & ->)|(A1 & A2 & _)]).
    + eapply (tell_signature S g evs cid c tid rq _ _ _ _ e seed); eauto. by apply ed_key.
    + eapply tell_signer; eauto. by apply (me_fb _ _ _ _ _ _ _ _ M).
  - destruct H as (H1 & H2 & e & seed & A1 & A2 & A3 & A4).
    intros b Hb. apply elem_of_cons in Hb as [->|Hb]; [by apply Hfresh|]. apply elem_of_list_singleton in Hb as ->.
    eapply (tell_box S g evs cid c tid rq _ _ _ _ _ e seed); eauto. rewrite A3. by apply plain_x_of.
  - destruct H as (H1 & e & seed & A1 & A2 & A3 & A4).
    intros b Hb. apply elem_of_list_singleton in Hb as ->.
    eapply (tell_opened S g evs cid c tid rq _ _ _ _ _ _ e seed); eauto. rewrite A3. by apply plain_x_of.
  - destruct H as (H1 & H2 & e & seed & xp & xs & A1 & A2 & A3 & A4 & A5 & A6).
    intros b Hb. apply elem_of_cons in Hb as [->|Hb]; [by apply Hfresh|]. apply elem_of_list_singleton in Hb as ->.
    eapply (tell_box_sign S g evs cid c tid rq _ _ _ _ _ e seed xp xs); eauto. rewrite A3. by apply plain_ed_of.
  - destruct H as (H1 & e & seed & xp & xs & A1 & A2 & A3 & A4 & A5 & A6).
    intros b Hb. apply elem_of_list_singleton in Hb as ->.
    eapply (tell_opened_sign S g evs cid c tid rq _ _ _ _ _ _ e seed xp xs); eauto. rewrite A3. by apply plain_ed_of.
  - destruct H as (H1 & -> & gc & sec & A1 & -> & A3 & A4). intros b Hb.
    eapply (tell_entry S g evs cid c tid rq (ECert _ _ sec)); [by apply Hu|by apply Hn, A3|exact Hb].
  - destruct H as (H1 & e & priv & hdr & A1 & A2 & A3 & A4 & A5).
    intros b Hb. apply elem_of_cons in Hb as [->|Hb]; [by apply Hfresh|]. apply elem_of_list_singleton in Hb as ->.
    assert (hdr = s_header priv_key) as Hh by (by rewrite A5).
    rewrite A5. eapply tell_cert_key; eauto. rewrite Hh. by apply Hnon.
  - destruct H as (H1 & H2 & e & seed & A1 & A2 & A3 & A4).
    intros b Hb. apply elem_of_cons in Hb as [->|Hb]; [by apply Hfresh|]. apply elem_of_list_singleton in Hb as ->.
    rewrite A4. eapply (tell_secret_box S g evs cid c tid rq _ _ _ _ e seed); eauto.
  - destruct H as (H1 & e & seed & A1 & A2 & A3 & A4).
    intros b Hb. apply elem_of_list_singleton in Hb as ->.
    eapply (tell_secret_opened S g evs cid c tid rq _ _ _ _ _ e seed); eauto.
Qed.
Print Assumptions C72_answers.

(** Five answers: an unlock, a seed, a refusal to export it, a certificate, its key. *)
Definition secret_evs : list event :=
  demo_open 1 ++ Demo.ask 1 1 (ReqNewSeed (str "a") (str "t") None false) x0a
  ++ Demo.ask 1 2 (ReqExportSeed (str "b") (str "t") (box_pk Toy.toy (fill 32 x0a)) (fill 32 x02) None) x0c
  ++ Demo.ask 1 3 (ReqNewCert (str "c") (str "ct")) x0d
  ++ Demo.ask 1 4 (ReqCertKey (str "d") (str "ct")) x0e.

Example C72_ex_answers :
  let g := demo_env false in let s := fill 32 x0a in
  map (fun x => pieces x.1.2) (replies sql_store g secret_evs 1)
  = [[]; [str "t"; sign_pk Toy.toy s; box_pk Toy.toy s]; [str "seed is not exportable"];
     [str "ct"; str "sni"; blake2b Toy.toy 32 (str "cert"); str "cert"];
     [fill 24 x0e; s_cipher (sec_encrypt Toy.toy (kdf Toy.toy 42 (str "ToCliCxK") demo_tx) (fill 24 x0e) (str "sni"))]].
Proof. vm_compute. reflexivity. Qed.

Lemma err_inj {A} (a b : bytes) : @Err A a = Err b -> a = b.
Proof. by injection 1. Qed.

(** What the two stores say when they refuse is fixed too. *)
Lemma mem_texts (s : mem) e :
  (exists q, mem_get s q = Err e) \/ (exists x, fst (mem_write s x) = Err e) \/ mem_list s = Err e -> e ∈ store_texts.
Proof.
  unfold store_texts. intros [[q H]|[[x H]|H]]; [| |discriminate H].
  - unfold mem_get, ok_of_opt in H.
    destruct q as [t|k|k]; repeat (match type of H with context [?m !! ?k] => destruct (m !! k) end; cbn [rbind] in H);
      try discriminate H; apply err_inj in H as <-; apply elem_of_list_In; cbn [In]; auto 10.
  - unfold mem_write in H.
    repeat (match type of H with context [match ?y with _ => _ end] => destruct y end; cbn [fst] in H);
      try discriminate H; apply err_inj in H as <-; apply elem_of_list_In; cbn [In]; auto 10.
Qed.

Lemma sql_reads x e : entry_ok x -> decode_entry (r_data (row_of x)) = Err e -> False.
Proof. intros Hx H. rewrite row_of_data, decode_encode_entry0 in H; [discriminate H|done]. Qed.

Lemma sql_finds t q e :
  sql_get t q = Err e -> e = str "Query returned no rows" \/ exists r, In r t /\ decode_entry (r_data r) = Err e.
Proof.
  unfold sql_get, ok_of_opt. destruct (find (sql_where q) t) as [r|] eqn:Ef; cbn [rbind]; intros H.
  - right. exists r. split; [exact (proj1 (find_some _ _ Ef))|exact H].
  - left. by apply err_inj in H.
Qed.

Lemma sql_texts t L e : sql_rel t L ->
  (exists q, sql_get t q = Err e) \/ (exists x, fst (sql_write t x) = Err e) \/ sql_list t = Err e -> e ∈ store_texts.
Proof.
  intros Hrel [[q H]|[[x H]|H]].
  - apply sql_finds in H as [->|(r & Hr & H)].
    + unfold store_texts. apply elem_of_list_In. cbn [In]. auto 10.
    + exfalso. destruct Hrel as [-> HF]. apply in_map_iff in Hr as (x & <- & Hx).
      rewrite List.Forall_forall in HF. exact (sql_reads x e (HF x Hx) H).
  - rewrite sql_write_row in H. unfold sql_insert in H. destruct (violates _ _); [|discriminate H].
    cbn [fst] in H. apply err_inj in H as <-. unfold store_texts. apply elem_of_list_In. cbn [In]. auto 10.
  - exfalso. destruct Hrel as [-> HF]. unfold sql_list in H.
    assert (Hd : decode_all (map r_data (map row_of L)) = Ok L).
    { clear H. induction HF as [|x L Hx HF IH]; [done|]. cbn [map decode_all].
      rewrite row_of_data, decode_encode_entry0 by done. cbn [rbind]. by rewrite IH. }
    rewrite Hd in H. discriminate H.
Qed.

Theorem C72_store_texts :
  forall S g, CryptoOk (g_crypto g) -> S = mem_store \/ S = sql_store ->
  forall evs cid tid e, heard_store S g evs cid tid e -> e ∈ store_texts.
Proof.
  intros S g HC Hs evs cid tid e (pre & o & post & -> & _ & H). clear post o.
  destruct Hs as [-> | ->].
  - exact (mem_texts _ _ H).
  - destruct (reach sql_store sql_store_ok g HC pre) as (L & ((Hrel & _) & _) & _).
    exact (sql_texts _ L _ Hrel H).
Qed.
Print Assumptions C72_store_texts.

(** ** At rest *)

(** The secret of every entry is in the store as a ciphertext only. *)
Theorem C72_at_rest :
  forall S (SO : StoreOk S) g, CryptoOk (g_crypto g) ->
  forall evs e, stored S g evs e -> sealed g e.
Proof.
  intros S SO g HC evs e He.
  destruct (C64_no_reuse S SO g HC evs) as (book & _ & H1 & H2 & _).
  destruct (H1 e He) as [w Hw]. specialize (H2 w e Hw). destruct w as [l cid tid|i]; cbn [made] in H2.
  - by destruct H2 as (m & vs & _ & _ & (_ & Hs & _) & _).
  - by destruct H2 as (d & os & vs & _ & (_ & Hs & _) & _).
Qed.
Print Assumptions C72_at_rest.

(** The rows of the database: the tag, the two public keys, the encoded entry; nothing else. *)
Theorem C72_rows :
  forall g, CryptoOk (g_crypto g) ->
  forall evs r, r ∈ (store_at sql_store g evs : list row) ->
    exists e, stored sql_store g evs e /\ sealed g e
      /\ r_tag r = tag_of e /\ r_ed r = option_map si_ed (seed_info_of e)
      /\ r_x r = option_map si_x (seed_info_of e) /\ r_data r = encode_entry e.
Proof.
  intros g HC evs r Hr.
  destruct (reach sql_store sql_store_ok g HC evs) as (L & ((Hrel & _) & _) & _ & HL).
  change (sh_store sql_store (s_sh sql_store (run sql_store g evs))) with (store_at sql_store g evs) in Hrel.
  destruct Hrel as [E _]. rewrite E in Hr. apply elem_of_list_fmap in Hr as (e & -> & He).
  exists e. assert (Hst : stored sql_store g evs e) by (by apply HL). split; [done|].
  split; [by eapply (C72_at_rest sql_store sql_store_ok)|].
  unfold row_of. by destruct (seed_info_of e).
Qed.
Print Assumptions C72_rows.

(** The row of that seed. *)
Example C72_ex_rows :
  let g := demo_env false in let s := fill 32 x0a in
  map (fun r => (r_tag r, r_ed r, r_x r)) (store_at sql_store g secret_evs : list row)
  = [(str "t", Some (sign_pk Toy.toy s), Some (box_pk Toy.toy s)); (str "ct", None, None)]
  /\ match st_get sql_store (store_at sql_store g secret_evs) (ByTag (str "t")) with
     | Ok (ESeed _ _ sec) => sec = sec_encrypt Toy.toy (g_bidi g) (fill 24 x0a) s
     | _ => False
     end.
Proof. split; vm_compute; reflexivity. Qed.

(** ** The configuration *)

(** A new configuration holds salts, limits, paths and the server's public key; of the key of
    the database and of the seed of the server's own keys it holds ciphertexts under keys that
    come from the passphrase. *)
Theorem C72_config :
  forall C root dir pass ops mem r cfg,
    new_config C root (Ok dir) pass ops mem r = Some (Ok cfg) ->
    exists pre url,
      argon2id C (blake2b C 64 pass) (r_salt r) ops mem = Ok pre
      /\ ConnUrl.generated_url dir (box_pk C (r_id r)) = Some url
      /\ cfg = Config url (push root (str "pid_file")) (push root (str "store_file")) None
           (r_db_salt r) (r_salt r) mem ops
           (sec_encrypt C (kdf C 42 (str "CtxSecKy") pre) (r_context_hdr r) (r_context r))
           (sec_encrypt C (kdf C 142 (str "IdnSecKy") pre) (r_id_hdr r) (r_id r)).
Proof.
  intros C root dir pass ops mem r cfg. unfold new_config, pre_secret.
  destruct (argon2id C (blake2b C 64 pass) (r_salt r) ops mem) as [pre|] eqn:Ep; [|done]. cbn [rbind].
  destruct (ConnUrl.generated_url dir (box_pk C (r_id r))) as [u|]; [|done].
  intros H. exists pre, u. split; [done|]. split; [done|]. unfold ctx_key, id_key in H.
  by injection H as <-.
Qed.
Print Assumptions C72_config.

Example C72_ex_config :
  let r := Startup.Draws (fill 16 x01) (fill 16 x02) (fill 32 x03) (fill 32 x04) (fill 24 x05) (fill 24 x06) in
  match new_config Toy.toy (str "/r") (Ok (str "/r")) (str "pw") 2 3 r with
  | Some (Ok cfg) => s_cipher (cf_context cfg) <> r_context r /\ s_cipher (cf_id cfg) <> r_id r
  | _ => False
  end.
Proof. vm_compute. by split. Qed.

(** ** The client *)

(** The passphrases given to a call. *)
Definition passes (a : ask) : list bytes :=
  let opt (o : option bytes) := match o with Some p => [p] | None => [] end in
  match a with
  | AUnlock p => [p]
  | ANewSeed _ p _ | AExport _ _ _ p | AImport _ _ p _ _ _ _ | ASign _ p _ | ABox _ _ p _
  | ABoxOpen _ _ p _ _ | ABoxSign _ _ p _ | ABoxSignOpen _ _ p _ _ | ASecretBox _ p _
  | ASecretBoxOpen _ p _ _ => opt p
  | ADerive _ p _ q _ => opt p ++ opt q
  | _ => []
  end.

(** The call with other passphrases. *)
Definition with_passes (f : bytes -> bytes) (a : ask) : ask :=
  match a with
  | AUnlock p => AUnlock (f p)
  | ANewSeed t p x => ANewSeed t (f <$> p) x
  | AExport t s r p => AExport t s r (f <$> p)
  | AImport s r p n c t x => AImport s r (f <$> p) n c t x
  | ADerive s p t q path => ADerive s (f <$> p) t (f <$> q) path
  | ASign k p m => ASign k (f <$> p) m
  | ABox s r p m => ABox s r (f <$> p) m
  | ABoxOpen s r p n c => ABoxOpen s r (f <$> p) n c
  | ABoxSign s r p m => ABoxSign s r (f <$> p) m
  | ABoxSignOpen s r p n c => ABoxSignOpen s r (f <$> p) n c
  | ASecretBox t p m => ASecretBox t (f <$> p) m
  | ASecretBoxOpen t p n c => ASecretBoxOpen t (f <$> p) n c
  | a => a
  end.

(** The request without its ciphertexts. *)
Definition blank (m : api) : api :=
  let no := fun s => Sec (s_header s) [] in
  let dl := fun d => Dlp (dl_ops d) (dl_mem d) (no (dl_pass d)) in
  match m with
  | ReqUnlock i s => ReqUnlock i (no s)
  | ReqNewSeed i t d x => ReqNewSeed i t (dl <$> d) x
  | ReqExportSeed i t s r d => ReqExportSeed i t s r (no <$> d)
  | ReqImportSeed i s r d n c t x => ReqImportSeed i s r (dl <$> d) n c t x
  | ReqDeriveSeed i s d t e p => ReqDeriveSeed i s (dl <$> d) t (dl <$> e) p
  | ReqSign i k d m => ReqSign i k (no <$> d) m
  | ReqBox i s r d m => ReqBox i s r (no <$> d) m
  | ReqBoxOpen i s r d n c => ReqBoxOpen i s r (no <$> d) n c
  | ReqBoxSign i s r d m => ReqBoxSign i s r (no <$> d) m
  | ReqBoxSignOpen i s r d n c => ReqBoxSignOpen i s r (no <$> d) n c
  | ReqSecretBox i t d m => ReqSecretBox i t (no <$> d) m
  | ReqSecretBoxOpen i t d n c => ReqSecretBoxOpen i t (no <$> d) n c
  | m => m
  end.

(** A client sends passphrases only hashed, and encrypted for its connection: a call with other
    passphrases sends the same request, those ciphertexts apart. *)
Theorem C72_client :
  forall C enc d a,
    Forall2 (fun s p => exists hdr, hdr ∈ [d_hdr d; d_hdr2 d] /\ s = sec_encrypt C enc hdr (blake2b C 64 p))
      (secrets_in (request_of C enc d a)) (passes a)
    /\ forall f, blank (request_of C enc d (with_passes f a)) = blank (request_of C enc d a).
Proof.
  intros C enc d a.
  assert (H1 : forall p, exists hdr, hdr ∈ [d_hdr d; d_hdr2 d] /\ hide C enc (d_hdr d) p = sec_encrypt C enc hdr (blake2b C 64 p)).
  { intros p. exists (d_hdr d). split; [apply elem_of_list_here|reflexivity]. }
  assert (H2 : forall p, exists hdr, hdr ∈ [d_hdr d; d_hdr2 d] /\ hide C enc (d_hdr2 d) p = sec_encrypt C enc hdr (blake2b C 64 p)).
  { intros p. exists (d_hdr2 d). split; [apply elem_of_list_further, elem_of_list_here|reflexivity]. }
  split.
  - destruct a; repeat match goal with o : option bytes |- _ => destruct o end;
      cbn [secrets_in request_of passes option_map dl_pass dlp_of app]; repeat constructor; auto.
  - intros f. destruct a; repeat match goal with o : option bytes |- _ => destruct o end; reflexivity.
Qed.
Print Assumptions C72_client.

Example C72_ex_client :
  let d := Asks.Draws (str "i") (fill 24 x01) (fill 24 x02) Minimum in
  let a := ADerive (str "s") (Some (str "p")) (str "t") (Some (str "q")) [] in
  passes a = [str "p"; str "q"] /\ passes (with_passes (fun _ => str "x") a) = [str "x"; str "x"]
  /\ secrets_in (request_of Toy.toy demo_dec d a)
     <> secrets_in (request_of Toy.toy demo_dec d (with_passes (fun _ => str "x") a)).
Proof. split; [done|]. split; [done|]. vm_compute. discriminate. Qed.
