(** * PropertiesDeliver: answers that can be delivered, and boxes that cannot (C30)

    Binary data of requests and answers (what is to be encrypted, ciphertexts, opened messages)
    is written as an array of numbers: one byte for a byte below 128, two for the others. *)

From Verif Require Import Base Utf8 Base64 Base64Proofs Msgpack Crypto Toy Types Codec CodecProofs
  CodecProofs2 Secret Store StoreProofs Lru Server System ServerSpec ServerVocab ServerProofs
  ServerProofs2 SystemProofs AnswerProofs ServerTheorems Demo PropertiesServer1
  Wire Sender WireVocab WireProofs SenderProofs Handshake WireProofs2 PropertiesWire.
From Verif Require Import ServerVocab. (* [sent] is that of [ServerVocab] *)
From Coq Require Import ZifyBool ZifyNat ZifyN.

(** What the answer to a request has to carry, at most: the id of the request, its tag, names
    and keys of the server, twice the bytes of a certificate (of which none has more than
    [certs]), twice the data that is encrypted or decrypted. *)
Definition load (g : genv) (certs : nat) (rq : api) : nat :=
  length (msg_id rq) +
  match rq with
  | ReqHello _ => length (g_name g) + length (g_version g) + 2 * length (g_id_pk g)
  | ReqGetEntry _ t | ReqNewCert _ t => length t + 2 * certs
  | ReqCertKey _ _ => 2 * certs
  | ReqNewSeed _ t _ _ | ReqImportSeed _ _ _ _ _ _ t _ => length t
  | ReqBox _ _ _ _ d | ReqBoxSign _ _ _ _ d | ReqSecretBox _ _ _ d => 2 * length d
  | ReqBoxOpen _ _ _ _ _ c | ReqBoxSignOpen _ _ _ _ _ c | ReqSecretBoxOpen _ _ _ _ c => 2 * length c
  | _ => 0
  end.

Lemma enc_uint_byte b : length (enc (MUInt (nb b))) <= 2.
Proof. cbn [enc]. pose proof (nb_lt b). unfold enc_uint. repeat case_match; cbn [length]; rewrite ?be_bytes_length; lia. Qed.

Lemma warr_le s : length (enc (warr s)) <= 5 + 2 * length s.
Proof.
  unfold warr. etransitivity; [apply enc_arr_le|]. apply le_n_S, le_n_S, le_n_S, le_n_S, le_n_S. rewrite map_map.
  unfold total. induction s as [|b s IH]; [done|]. cbn [map foldr length]. pose proof (enc_uint_byte b). lia.
Qed.

Lemma wbin_le s : length (enc (wbin s)) <= 5 + 2 * length s.
Proof.
  unfold wbin. etransitivity; [apply enc_str_le|]. unfold to_b64url. rewrite encode_np_length.
  pose proof (Nat.div_mod (length s) 3). pose proof (Nat.mod_upper_bound (length s) 3).
  destruct (length s mod 3) as [|[|[|?]]]; lia.
Qed.

Lemma wsecret_le s : length (enc (wsecret s)) <= 15 + 2 * length (s_header s) + 2 * length (s_cipher s).
Proof.
  unfold wsecret. etransitivity; [apply enc_arr_le|]. cbn [map total foldr].
  pose proof (wbin_le (s_header s)). pose proof (wbin_le (s_cipher s)). unfold total. cbn [foldr]. lia.
Qed.

Lemma cert_info_le ci : length (enc (wcert_info ci))
  <= 50 + length (ci_sni ci) + 2 * length (ci_digest ci) + 2 * length (ci_cert ci).
Proof.
  unfold wcert_info. etransitivity; [apply enc_wmap_le|]. cbn [map fst snd]. unfold total. cbn [foldr].
  pose proof (enc_str_le (ci_sni ci)). pose proof (wbin_le (ci_digest ci)). pose proof (wbin_le (ci_cert ci)).
  change (length (str "sni")) with 3. change (length (str "digest")) with 6. change (length (str "cert")) with 4. lia.
Qed.

Lemma typed_le t l : length (enc (wtyped t l))
  <= 19 + length t + total (map (fun kv => 5 + length (fst kv) + length (enc (snd kv))) l).
Proof.
  unfold wtyped. etransitivity; [apply enc_wmap_le|]. cbn [map fst snd]. unfold total. cbn [foldr].
  change (length (str "type")) with 4. pose proof (enc_str_le t). lia.
Qed.

Lemma short_enough m n : length (encode_api m) <= n -> n <= N.to_nat (8192 - 17) -> fits m = true.
Proof. intros H1 H2. unfold fits, MAX_FRAME, ABYTES. apply N.leb_le. lia. Qed.

Ltac lits := repeat match goal with
  |- context [length (str ?s)] => let n := eval vm_compute in (length (str s)) in change (length (str s)) with n
  end.

(** The parts of an answer. *)
Definition info_size (i : entry_info) : nat :=
  length (info_tag i) + match i with
  | ICert _ ci => 60 + length (ci_sni ci) + 2 * length (ci_digest ci) + 2 * length (ci_cert ci)
  | _ => 170
  end.

Definition answer_size (m : api) : nat :=
  length (msg_id m) +
  match m with
  | ResHello _ n v k => length n + length v + 2 * length k
  | ResGetEntry _ i => info_size i + 50
  | ResNewSeed _ t si | ResImportSeed _ t si => length t + 160
  | ResDeriveSeed _ si => 160
  | ResExportSeed _ n c | ResBox _ n c | ResBoxSign _ n c | ResSecretBox _ n c => 2 * length n + 2 * length c
  | ResSign _ s => 2 * length s
  | ResBoxOpen _ d | ResBoxSignOpen _ d | ResSecretBoxOpen _ d => 2 * length d
  | ResNewCert _ t ci => length t + 50 + length (ci_sni ci) + 2 * length (ci_digest ci) + 2 * length (ci_cert ci)
  | ResCertKey _ s => 2 * length (s_header s) + 2 * length (s_cipher s)
  | _ => 0
  end.

(** The answers looked at. *)
Definition answer_fine (m : api) : Prop :=
  match m with
  | ResHello _ _ _ _ | ResUnlock _ | ResExportSeed _ _ _ | ResBox _ _ _ | ResBoxSign _ _ _
  | ResSecretBox _ _ _ | ResSign _ _ | ResBoxOpen _ _ | ResBoxSignOpen _ _ | ResSecretBoxOpen _ _
  | ResNewCert _ _ _ | ResCertKey _ _ => True
  | ResGetEntry _ i => match i with ISeed _ si | IDeep _ si => seed_info_ok si | ICert _ _ => True end
  | ResNewSeed _ _ si | ResImportSeed _ _ si | ResDeriveSeed _ si => seed_info_ok si
  | _ => False
  end.

Ltac bound L := let B := fresh in pose proof L as B; revert B;
  match goal with |- ?a <= _ -> _ => generalize a end; intros ? B.
Ltac bounds := repeat match goal with
  | |- context [length (enc (MStr ?s))] => bound (enc_str_le s)
  | |- context [length (enc (wbin ?s))] => bound (wbin_le s)
  | |- context [length (enc (warr ?s))] => bound (warr_le s)
  | |- context [length (enc (wsecret ?s))] => bound (wsecret_le s)
  | |- context [length (enc (wcert_info ?s))] => bound (cert_info_le s)
  | H : seed_info_ok ?s |- context [length (enc (wseed_info ?s))] => bound (seed_info_le s H)
  end.

Lemma info_le i : match i with ISeed _ si | IDeep _ si => seed_info_ok si | ICert _ _ => True end ->
  length (enc (winfo i)) <= info_size i + 60.
Proof.
  intros H. unfold info_size. destruct i; cbn [winfo info_tag] in *; (etransitivity; [apply typed_le|]); cbn [map fst snd];
    unfold total; cbn [foldr]; lits; bounds; lia.
Qed.

Lemma answer_le m : answer_fine m -> length (encode_api m) <= answer_size m + 150.
Proof.
  intros H. unfold encode_api, answer_size. destruct m; try done; cbn [wapi msg_id answer_fine] in *;
    (etransitivity; [apply typed_le|]); cbn [map fst snd]; unfold total; cbn [foldr]; lits;
    try (pose proof (info_le info H)); bounds; lia.
Qed.

(** What is true of requests other than for the list: an answer that is not an error fits a frame if
    what it has to carry leaves room for the names of its fields.  (The hypothesis on boxes is what
    libsodium's are: 16 bytes longer than what is in them.) *)
Theorem C30_other_answers_partial :
  forall S (SO : StoreOk S) g, CryptoOk (g_crypto g) ->
  (forall n m p k c, box_easy (g_crypto g) n m p k = Ok c -> length c = length m + 16) ->
  forall certs,
  (forall gc, g_rcgen g gc = true -> length (gc_sni gc) + length (gc_cert gc) + length (gc_priv gc) <= certs) ->
  forall evs cid c tid rq m,
    conn_at S g evs cid c -> received S c tid rq -> sent S c tid m -> is_error m = false ->
    (forall id, rq_msg S rq <> ReqListEntries id) ->
    load g certs (rq_msg S rq) + 400 <= N.to_nat (8192 - 17) ->
    fits m = true.
Proof.
  intros S SO g HC Hbox certs Hcerts evs cid c tid rq m Hc Hq Hm He Hl Hsize.
  destruct (right_meaning S SO g HC evs cid c tid rq m Hc Hq Hm He) as (L & w & M & Hid & H).
  assert (Hnow : forall e, e ∈ w_L w -> entry_ok e /\ stored_ok g e).
  { intros e Hin. apply (me_now _ _ _ _ _ _ _ _ M) in Hin. pose proof (stored_fine S SO g HC evs e Hin).
    by split; [apply H0|]. }
  assert (Hseed : forall e t d si seed, e ∈ w_L w -> holds_seed g (c_dec S c) e t d si seed -> seed_info_ok si).
  { intros e t d si seed Hin Hh. destruct (Hnow e Hin) as [Hok _].
    destruct d; [destruct Hh as (? & ? & ? & _ & -> & _)|destruct Hh as (? & -> & _)]; by destruct Hok as (_ & ? & _). }
  assert (Hseed32 : forall e seed, plain_seed g e seed -> length seed = 32) by (intros; by eapply plain_seed_len).
  assert (Hcert : forall gc, g_rcgen g gc = true ->
    length (ci_sni (cert_of g gc)) + length (ci_cert (cert_of g gc)) <= certs
    /\ length (ci_digest (cert_of g gc)) = 32).
  { intros gc Hg. specialize (Hcerts gc Hg). cbn. rewrite (blake2b_len _ HC). lia. }
  clear M. apply (short_enough m (load g certs (rq_msg S rq) + 400)); [|done]. clear Hsize.
  enough (answer_fine m /\ answer_size m <= load g certs (rq_msg S rq) + 250) as [H1 H2]
    by (pose proof (answer_le m H1); lia).
  unfold answer_size, load. rewrite Hid. clear Hid.
  destruct (rq_msg S rq) eqn:Erq; destruct m; try done; try (by destruct (Hl id)); clear Hl; cbn [answer_fine].
  all: unfold NONCEBYTES, HEADERBYTES in H.
  - destruct H as (-> & -> & ->). split; [done|]. lia.
  - split; [done|]. lia.
  - destruct H as (_ & e & Hin & <- & ->). destruct (Hnow e Hin) as [Hok Hst]. unfold info_size.
    destruct e as [t si sec|t si salt ops mem sec|t ci sec]; cbn [info_of info_tag tag_of].
    + destruct Hok as (_ & ? & _). split; [done|]. lia.
    + destruct Hok as (_ & ? & _). split; [done|]. lia.
    + destruct Hst as (_ & gc & Hg & -> & _). destruct (Hcert gc Hg). split; [done|]. lia.
  - destruct H as (_ & -> & _ & e & seed & Hin & Hh). split; [by eapply Hseed|]. lia.
  - destruct H as (_ & Hn & e & seed & e2 & seed2 & _ & _ & Hp & _ & _ & _ & _ & Hb).
    rewrite (Hbox _ _ _ _ _ Hb), (Hseed32 _ _ Hp). split; [done|]. lia.
  - destruct H as (_ & -> & _ & e & seed & e2 & seed2 & _ & _ & _ & _ & Hin & Hh). split; [by eapply Hseed|]. lia.
  - destruct H as (_ & e & seed & e2 & _ & _ & _ & Hin & _ & Hh). split; [by eapply Hseed|]. lia.
  - assert (length signature = 64) as ->; [|split; [done|]; lia].
    destruct H as (_ & [(e & seed & _ & _ & Hs & ->)|(_ & _ & ? & _)]); [|done].
    apply (sign_len _ HC), (sign_sk_len _ HC). destruct e as [t0 si0 sec0| |]; [exact (Hseed32 (ESeed t0 si0 sec0) seed Hs)| |done].
    destruct Hs as (? & ? & ? & _ & _ & _ & Hs). by eapply sec_open_length.
  - destruct H as (_ & Hn & e & seed & _ & _ & _ & Hb). rewrite (Hbox _ _ _ _ _ Hb). split; [done|]. lia.
  - destruct H as (_ & e & seed & _ & _ & _ & Hb). apply (box_open_len _ HC) in Hb. split; [done|]. lia.
  - destruct H as (_ & Hn & e & seed & xp & xs & _ & _ & _ & _ & _ & Hb). rewrite (Hbox _ _ _ _ _ Hb).
    split; [done|]. lia.
  - destruct H as (_ & e & seed & xp & xs & _ & _ & _ & _ & _ & Hb). apply (box_open_len _ HC) in Hb. split; [done|]. lia.
  - destruct H as (_ & -> & gc & sec & Hg & -> & _). destruct (Hcert gc Hg). split; [done|]. lia.
  - destruct H as (_ & e & priv & hdr & Hin & _ & Hp & Hh & ->).
    destruct (sec_encrypt_ok _ HC (c_enc S c) hdr priv Hh) as [-> ->]. unfold ABYTES.
    destruct (Hnow e Hin) as [_ [_ Hst]]. destruct e as [| |t ci sec]; try done.
    destruct Hst as (gc & Hg & _ & Hp'). assert (priv = gc_priv gc) as -> by (cbn in Hp, Hp'; congruence).
    specialize (Hcerts gc Hg). split; [done|]. lia.
  - destruct H as (_ & Hn & e & seed & _ & _ & _ & ->). rewrite (sbox_len _ HC). unfold MACBYTES. split; [done|]. lia.
  - destruct H as (_ & e & seed & _ & _ & _ & Hb). apply (sbox_open_len _ HC) in Hb. split; [done|]. lia.
Qed.
Print Assumptions C30_other_answers_partial.

(** A keystore whose certificates are small, and a client that makes a seed, a certificate, has 3000 bytes
    encrypted, and reads all of it back. *)
Definition small_env : genv :=
  GEnv toy demo_salt 2 3 (g_id_seed (demo_env false)) (g_id_pk (demo_env false)) (str "lair-keystore") (str "0.0.0")
    (fill 32 x33) false (fun gc => Nat.leb (length (gc_sni gc) + length (gc_cert gc) + length (gc_priv gc)) 300).
Definition small_asks : list api :=
  [ReqNewSeed (str "1") (str "tag") None true; ReqNewCert (str "2") (str "web");
   ReqSecretBox (str "3") (str "tag") None (repeat x61 (Pos.to_nat 3000));
   ReqGetEntry (str "4") (str "web"); ReqCertKey (str "5") (str "web")].
Definition ex_small : list event :=
  demo_open 1 ++ concat (imap (fun i m => ask 1 (S i) m x11) small_asks).
Example C30_other_answers_ex :
  (forall n m p k c, box_easy (g_crypto small_env) n m p k = Ok c -> length c = length m + 16)
  /\ (forall gc, g_rcgen small_env gc = true -> length (gc_sni gc) + length (gc_cert gc) + length (gc_priv gc) <= 300)
  /\ forallb (fun m => Nat.leb (load small_env 300 m + 400) (N.to_nat (8192 - 17))) small_asks = true
  /\ map (fun x => is_error x.1.2) (replies sql_store small_env ex_small 1) = repeat false 6
  /\ map (fun x => fits x.1.2) (replies sql_store small_env ex_small 1) = repeat true 6.
Proof.
  split. { intros n m p k c [= <-]. unfold toy_seal16. by rewrite app_length, pad_length. }
  split. { intros gc. cbn [small_env g_rcgen]. apply Nat.leb_le. }
  split; [by vm_compute|]. split; by vm_compute.
Qed.

(** ** Boxes

    The property is false of boxes too: the ciphertext of a message is 16 bytes longer than the message,
    but may have bytes from 128 upwards where the message has none (of the bytes of a good cipher,
    half are), and each of these takes two bytes in the answer. *)
Definition high (s : bytes) : nat := length (List.filter (fun b => N.leb 128 (nb b)) s).

Lemma warr_ge s : length s + high s <= length (enc (warr s)).
Proof.
  unfold warr, high. etransitivity; [|apply enc_arr_ge]. rewrite map_map.
  unfold total. induction s as [|b s IH]; [done|]. cbn [map foldr length List.filter].
  assert (1 + (if N.leb 128 (nb b) then 1 else 0) <= length (enc (MUInt (nb b)))) as B.
  { cbn [enc]. unfold enc_uint. destruct (N.leb_spec 128 (nb b)) as [Hb|Hb].
    - destruct (N.ltb_spec (nb b) 128); [lia|]. repeat case_match; cbn [length]; rewrite ?be_bytes_length; lia.
    - destruct (N.ltb_spec (nb b) 128); [cbn; lia|lia]. }
  destruct (N.leb 128 (nb b)); cbn [length]; lia.
Qed.

Theorem C30_boxes_limited :
  forall S g evs cid c tid m n cipher,
    conn_at S g evs cid c -> delivered S c tid m ->
    (exists id, m = ResBox id n cipher \/ m = ResBoxSign id n cipher \/ m = ResSecretBox id n cipher) ->
    (N.of_nat (length cipher + high cipher) <= 8192 - 17)%N.
Proof.
  intros S g evs cid c tid m n cipher Hc Hm (id & Hs).
  pose proof (C30_delivered_fits S g evs cid c tid m Hc Hm) as Hl. pose proof (warr_ge cipher) as Hw.
  enough (length (enc (warr cipher)) <= length (encode_api m)) by lia.
  destruct Hs as [-> | [-> | ->]]; unfold encode_api; cbn [wapi]; unfold wtyped;
    (etransitivity; [|apply enc_wmap_ge]); cbn [map fst snd]; unfold total; cbn [foldr]; lia.
Qed.
Print Assumptions C30_boxes_limited.

(** A secret box that turns every byte into one of the other half, and is otherwise as in [toy]. *)
Definition flip (b : byte) : byte := bn ((nb b + 128) mod 256)%N.

Lemma flip_flip b : flip (flip b) = b.
Proof. by destruct b. Qed.

Definition loud : Crypto := {|
  blake2b := blake2b toy; argon2id := argon2id toy; kdf := kdf toy;
  sign_pk := sign_pk toy; sign_sk := sign_sk toy; sign_detached := sign_detached toy; sign_verify := sign_verify toy;
  box_sk := box_sk toy; x_base := x_base toy; box_easy := box_easy toy; box_open := box_open toy;
  sbox_easy n m k := map flip m ++ pad 16 k;
  sbox_open n c k := match toy_open16 k c with Ok m => Ok (map flip m) | Err e => Err e end;
  seal := seal toy; seal_open := seal_open toy; ed_pk_to_x := ed_pk_to_x toy; ed_sk_to_x := ed_sk_to_x toy;
  kx_client := kx_client toy; kx_server := kx_server toy;
  ss_state := ss_state toy; ss_init := ss_init toy; ss_push := ss_push toy; ss_pull := ss_pull toy |}.

Lemma loud_ok : CryptoOk loud.
Proof.
  destruct toy_ok. constructor; try assumption.
  - intros n m k. cbn. rewrite app_length, map_length, pad_length. done.
  - intros n m k _ _. cbn. change (map flip m ++ pad 16 k) with (toy_seal16 k (map flip m)). rewrite toy_open_seal16, map_map. f_equal.
    rewrite (map_ext _ id flip_flip). apply map_id.
  - intros n c k m H. cbn in H. destruct (toy_open16 k c) as [x|] eqn:E; [|done]. injection H as <-.
    rewrite map_length. by apply toy_open16_len in E.
Qed.

Definition loud_env : genv :=
  GEnv loud demo_salt 2 3 (g_id_seed (demo_env false)) (g_id_pk (demo_env false)) (str "lair-keystore") (str "0.0.0")
    (fill 32 x33) false (g_rcgen (demo_env false)).

Definition ex_box : list event :=
  demo_open 1 ++ ask 1 1 (ReqNewSeed (str "1") (str "tag") None true) x11
  ++ ask 1 2 (ReqSecretBox (str "2") (str "tag") None (repeat x61 (Pos.to_nat 5000))) x12.

(** A client has 5000 bytes encrypted, in a request that fits a frame.  The server sends two
    messages for that, the box and an error.  The client receives neither. *)
Theorem C30_box_lost_refuted :
  exists g evs cid tid id t data (c : conn sql_store) (rq : request sql_store) st, CryptoOk (g_crypto g)
    /\ conn_at sql_store g evs cid c /\ received sql_store c tid rq /\ came_unlocked sql_store rq
    /\ rq_msg sql_store rq = ReqSecretBox id t None data /\ fits (rq_msg sql_store rq) = true
    /\ length data = Pos.to_nat 5000
    /\ finished sql_store c tid /\ length (answers sql_store c tid) = 2
    /\ forall m, m ∈ (messages (g_crypto g) st [wire_of (g_crypto g) st (c_log sql_store c)]).1 ->
         msg_id m <> id.
Proof.
  exists loud_env, ex_box, 1, 2, (str "2"), (str "tag"), (repeat x61 (Pos.to_nat 5000)).
  destruct (checked sql_store loud_env ex_box 1 (fun c =>
    match c_reqs sql_store c !! 2, c_thr sql_store c !! 2 with
    | Some rq, None =>
        match rq_msg sql_store rq with
        | ReqSecretBox id t None d => beq id (str "2") && beq t (str "tag") && beq d (repeat x61 (Pos.to_nat 5000))
        | _ => false
        end
        && rq_unl sql_store rq && fits (rq_msg sql_store rq)
        && Nat.eqb (length (answers sql_store c 2)) 2
        && forallb (fun m => negb (beq (msg_id m) (str "2")))
             (messages loud ex_toy_state [wire_of loud ex_toy_state (c_log sql_store c)]).1
    | _, _ => false
    end)) as (c & Hc & H); [vm_compute; reflexivity|].
  exists c. unfold received, finished.
  destruct (c_reqs sql_store c !! 2) as [rq|]; [|discriminate H].
  destruct (c_thr sql_store c !! 2); [discriminate H|].
  exists rq, ex_toy_state. apply andb_prop in H as [H H5]. apply andb_prop in H as [H H4].
  apply andb_prop in H as [H H3]. apply andb_prop in H as [H1 H2].
  split; [exact loud_ok|]. split; [exact Hc|]. split; [reflexivity|]. split; [exact H2|].
  split.
  { destruct (rq_msg sql_store rq); try discriminate H1.
    match type of H1 with context [match ?d with Some _ => _ | None => _ end] => destruct d; [discriminate H1|] end.
    apply andb_prop in H1 as [H1 Hd]. apply andb_prop in H1 as [Hi Ht].
    apply beq_true in Hd, Hi, Ht. by subst. }
  split; [exact H3|]. split; [apply repeat_length|].
  split; [reflexivity|]. split; [by apply Nat.eqb_eq|].
  intros m Hm E. change (g_crypto loud_env) with loud in Hm.
  rewrite forallb_forall in H5. apply elem_of_list_In in Hm. specialize (H5 m Hm).
  rewrite E, beq_refl in H5. discriminate H5.
Qed.
Print Assumptions C30_box_lost_refuted.
