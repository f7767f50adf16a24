(** * PropertiesRead: what was delivered is read as it was sent (C30, C63)

    That an answer was sent does not say that the client can make anything of it: it must also
    be a message that reads back as itself (keys of 32 bytes, texts that are texts).  So are all answers
    that are not errors.  (The texts of errors are not modelled; a Rust [String] is a text.) *)

From Verif Require Import Base Utf8 Base64 Base64Proofs Msgpack Crypto Toy Types Codec CodecProofs
  CodecProofs2 Secret Store StoreProofs Lru Server System ServerSpec ServerVocab ServerProofs
  ServerProofs2 SystemProofs AnswerProofs ServerTheorems Demo PropertiesServer1
  Wire Sender WireVocab WireProofs SenderProofs Handshake WireProofs2 PropertiesWire PropertiesDeliver.
From Verif Require Import ServerVocab. (* [sent] is that of [ServerVocab] *)
From Verif Require Import Client World WorldVocab Net NetVocab NetProofs PropertiesNet.
From Verif Require DemoNet.
From Verif Require Import ServerVocab.
From Coq Require Import ZifyBool ZifyNat ZifyN.

Lemma wbin_ge s : length s <= length (enc (wbin s)).
Proof.
  unfold wbin. pose proof (enc_str_ge (to_b64url s)) as H. unfold to_b64url in *. rewrite encode_np_length in H.
  pose proof (Nat.div_mod (length s) 3). pose proof (Nat.mod_upper_bound (length s) 3).
  destruct (length s mod 3) as [|[|[|?]]]; lia.
Qed.

Lemma field_ge t l k v : (k, v) ∈ l -> length (enc v) <= length (enc (wtyped t l)).
Proof.
  intros H. unfold wtyped. etransitivity; [|apply enc_wmap_ge].
  cbn [map]. unfold total. cbn [foldr]. rewrite Nat.add_comm. etransitivity; [|apply Nat.le_add_r].
  induction l as [|kv l IH]; [by apply elem_of_nil in H|]. cbn [map foldr].
  apply elem_of_cons in H as [<-|H]; [cbn [fst snd]; lia|]. specialize (IH H). lia.
Qed.

Local Ltac second := apply elem_of_list_further, elem_of_list_here.
Local Ltac third := do 2 apply elem_of_list_further; apply elem_of_list_here.

Lemma list_ge l : length l <= length (enc (MArr (map winfo l))).
Proof.
  etransitivity; [|apply enc_arr_ge]. rewrite map_map. unfold total. induction l as [|i l IH]; [done|].
  cbn [map foldr length].
  assert (1 <= length (enc (winfo i))); [|lia].
  destruct i as [t si|t si|t ci]; cbn [winfo];
    (etransitivity; [|apply (field_ge _ _ (str "tag") (MStr t)); apply elem_of_list_here]);
    pose proof (enc_str_ge t); lia.
Qed.

(** A message that fits has short fields. *)
Lemma short_fields m : fits m = true ->
  match m with
  | ResBox _ _ s | ResBoxSign _ _ s | ResSecretBox _ _ s | ResExportSeed _ _ s
  | ResBoxOpen _ s | ResBoxSignOpen _ s | ResSecretBoxOpen _ s => arr_ok s
  | ResCertKey _ s => bin_ok (s_cipher s)
  | ResListEntries _ l => (N.of_nat (length l) < 2 ^ 32)%N
  | _ => True
  end.
Proof.
  intros Hf. assert (N.of_nat (length (encode_api m)) <= 8192)%N as Hl by (unfold fits, MAX_FRAME, ABYTES in Hf; lia).
  clear Hf.
  assert (forall s, length (enc (warr s)) <= length (encode_api m) -> arr_ok s) as Ha.
  { intros s H. pose proof (warr_ge s). unfold arr_ok. lia. }
  assert (forall s, length (enc (wbin s)) <= length (encode_api m) -> bin_ok s) as Hb.
  { intros s H. pose proof (wbin_ge s). unfold bin_ok. lia. }
  destruct m; try exact I.
  - pose proof (list_ge infos) as H1.
    assert (length (enc (MArr (map winfo infos))) <= length (encode_api (ResListEntries id infos))).
    { unfold encode_api. cbn [wapi]. apply (field_ge _ _ (str "entryList")). second. }
    lia.
  - apply Ha. unfold encode_api. cbn [wapi]. apply (field_ge _ _ (str "cipher")). third.
  - apply Ha. unfold encode_api. cbn [wapi]. apply (field_ge _ _ (str "cipher")). third.
  - apply Ha. unfold encode_api. cbn [wapi]. apply (field_ge _ _ (str "message")). second.
  - apply Ha. unfold encode_api. cbn [wapi]. apply (field_ge _ _ (str "cipher")). third.
  - apply Ha. unfold encode_api. cbn [wapi]. apply (field_ge _ _ (str "message")). second.
  - apply Hb. unfold encode_api. cbn [wapi].
    etransitivity; [|apply (field_ge _ _ (str "privKey") (wsecret priv_key)); second].
    unfold wsecret. etransitivity; [|apply enc_arr_ge]. cbn [map]. unfold total. cbn [foldr]. lia.
  - apply Ha. unfold encode_api. cbn [wapi]. apply (field_ge _ _ (str "cipher")). third.
  - apply Ha. unfold encode_api. cbn [wapi]. apply (field_ge _ _ (str "message")). second.
Qed.

(** The server's names are texts and its key is a key. *)
Definition proper (g : genv) : Prop :=
  text_ok (g_name g) /\ text_ok (g_version g) /\ length (g_id_pk g) = 32.

(** An answer that is not an error and fits a frame reads back as itself. *)
Lemma answer_ok S (SO : StoreOk S) g (HC : CryptoOk (g_crypto g)) evs cid c tid rq m :
  proper g -> conn_at S g evs cid c -> received S c tid rq -> sent S c tid m -> is_error m = false ->
  fits m = true -> api_ok m.
Proof.
  intros (Hn & Hv & Hk) Hc Hq Hm He Hf.
  destruct (right_meaning S SO g HC evs cid c tid rq m Hc Hq Hm He) as (L & w & M & Hid & H).
  pose proof (me_api _ _ _ _ _ _ _ _ M) as Hrq.
  assert (Hnow : forall e, e ∈ w_L w -> entry_ok e /\ stored_ok g e).
  { intros e Hin. apply (me_now _ _ _ _ _ _ _ _ M) in Hin. pose proof (stored_fine S SO g HC evs e Hin).
    by split; [apply H0|]. }
  assert (Hinfo : forall e, e ∈ w_L w -> entry_info_ok (info_of e)).
  { intros e Hin. destruct (Hnow e Hin) as [Hok _]. destruct e; cbn in *; naive_solver. }
  assert (Hseed : forall e t d si seed, e ∈ w_L w -> holds_seed g (c_dec S c) e t d si seed -> seed_info_ok si).
  { intros e t d si seed Hin Hh. destruct (Hnow e Hin) as [Hok _].
    destruct d; [destruct Hh as (? & ? & ? & _ & -> & _)|destruct Hh as (? & -> & _)]; by destruct Hok as (_ & ? & _). }
  clear M. pose proof (short_fields m Hf) as Hs. clear Hf.
  split. { rewrite Hid. apply Hrq. }
  destruct Hrq as [_ Hrq]. clear Hid Hm.
  destruct (rq_msg S rq) eqn:Erq; destruct m; try done; cbn [is_error] in He; try discriminate He.
  - destruct H as (-> & -> & ->). done.
  - destruct H as (_ & e & Hin & <- & ->). by apply Hinfo.
  - destruct H as (_ & L1 & _ & Hp & E). split; [done|]. apply Forall_forall. intros i Hi.
    rewrite E in Hi. apply elem_of_list_fmap in Hi as (e & -> & Hi). apply Hinfo. by eapply prefix_in.
  - destruct H as (_ & -> & _ & e & seed & Hin & Hh). split; [apply Hrq|]. by eapply Hseed.
  - destruct H as (_ & Hl & _). done.
  - destruct H as (_ & -> & _ & e & seed & e2 & seed2 & _ & _ & _ & _ & Hin & Hh). split; [apply Hrq|]. by eapply Hseed.
  - destruct H as (_ & e & seed & e2 & _ & _ & _ & Hin & _ & Hh). by eapply Hseed.
  - destruct H as (_ & [(e & seed & _ & _ & Hg & ->)|(_ & _ & ? & _)]); [|done].
    apply (sign_len _ HC), (sign_sk_len _ HC).
    destruct e as [t0 si0 sec0| |]; [exact (plain_seed_len g (ESeed t0 si0 sec0) seed Hg)| |done].
    destruct Hg as (? & ? & ? & _ & _ & _ & Hg). by eapply sec_open_length.
  - destruct H as (_ & Hl & _). done.
  - destruct H as (_ & Hl & _). done.
  - destruct H as (_ & -> & gc & sec & _ & -> & Hin & _). split; [apply Hrq|].
    destruct (Hnow _ Hin) as [Hok _]. apply Hok.
  - destruct H as (_ & e & priv & hdr & Hin & _ & Hp & Hh & ->).
    destruct (sec_encrypt_ok _ HC (c_enc S c) hdr priv Hh) as [E _]. split; [by rewrite E|done].
  - destruct H as (_ & Hl & _). done.
Qed.

(** An answer that was delivered and is not an error is read by the client as it was sent. *)
Theorem C30_read_back :
  forall S (SO : StoreOk S) g, CryptoOk (g_crypto g) -> proper g ->
  forall evs cid c tid m,
    conn_at S g evs cid c -> delivered S c tid m -> is_error m = false ->
    decode_api (encode_api m) = Ok m.
Proof.
  intros S SO g HC Hg evs cid c tid m Hc Hm He.
  assert (sent S c tid m) as Hs by (by exists true).
  destruct (sent_received S SO g HC evs cid c tid m Hc Hs) as [rq Hq].
  rewrite <- (app_nil_r (encode_api m)). apply decode_encode_api.
  apply (answer_ok S SO g HC evs cid c tid rq m Hg Hc Hq Hs He). exact (run_fits S g evs cid c Hc tid m Hm).
Qed.
Print Assumptions C30_read_back.

(** Exactly what the client gets over a line that takes all that is written: the answers before the
    first that does not fit a frame, and no other (but for a ciphertext that opens out of its place).
    So the answers are all delivered just when all of them fit. *)
Theorem C30_exactly :
  forall S (SO : StoreOk S) g, CryptoOk (g_crypto g) -> proper g ->
  forall evs cid c st cs,
    conn_at S g evs cid c ->
    (forall tid id text, sent S c tid (ResError id text) -> text_ok id /\ text_ok text) ->
    let answers := map (fun x : nat * api * bool => x.1.2) (c_log S c) in
    concat cs = t_wire (send_all (g_crypto g) (Tx st [] false) (over_good_line answers)).2 ->
    (messages (g_crypto g) st cs).1 = before_refused answers
    \/ misplaced (g_crypto g) st (map encode_api answers).
Proof.
  intros S SO g HC Hg evs cid c st cs Hc Her answers Hcs.
  apply (C29_exactly (g_crypto g) HC); [|done].
  assert (Forall (fun m => fits m = true -> api_ok m) answers) as HF.
  { apply Forall_forall. intros m Hm Hf. apply elem_of_list_fmap in Hm as ([[tid m'] b] & -> & Hm). cbn [fst snd] in *.
    assert (sent S c tid m') as Hs by (by exists b).
    destruct (is_error m') eqn:He.
    - destruct m'; try done. exact (Her tid _ _ Hs).
    - destruct (sent_received S SO g HC evs cid c tid m' Hc Hs) as [rq Hq].
      exact (answer_ok S SO g HC evs cid c tid rq m' Hg Hc Hq Hs He Hf). }
  clear -HF. induction HF as [|m l Hm HF IH]; cbn [before_refused]; [constructor|].
  destruct (fits m); [constructor; auto|constructor].
Qed.
Print Assumptions C30_exactly.

(** A client whose answers all fit gets all six; one that has 5000 bytes encrypted gets the two
    before the box. *)
Example C30_exactly_ex :
  let answers g evs := map (fun x : nat * api * bool => x.1.2) (replies sql_store g evs 1) in
  (proper small_env /\ existsb is_error (answers small_env ex_small) = false
   /\ length (answers small_env ex_small) = 6 /\ length (before_refused (answers small_env ex_small)) = 6)
  /\ (proper loud_env /\ length (answers loud_env ex_box) = 4
      /\ forallb (fun m => match m with ResError id e => utf8 id && utf8 e && Nat.leb (length id + length e) 100 | _ => true end)
           (answers loud_env ex_box) = true
      /\ length (before_refused (answers loud_env ex_box)) = 2).
Proof. split; (split; [repeat split; by vm_compute|]); split; [by vm_compute| |by vm_compute|]; split; by vm_compute. Qed.

(** ** C63: the client reads the next answer *)

(** [PropertiesNet.C63_next_answer] without its proviso: the client reads the very answer. *)
Theorem C63_next_read :
  forall S (SO : StoreOk S) g, CryptoOk (g_crypto g) -> proper g ->
  forall evs, Forall ntyped evs -> faithful S g evs ->
  forall cid l conn, nlink_at S g evs cid l -> all_here g (x_down l) -> k_recv (x_cli l) = RRun ->
    conn_at S g (nserver_evs S g evs) cid conn ->
    length (ch_got (x_down l)) < length (omap NetProofs.written (ch_out (x_down l))) ->
    exists tid m l', delivered S conn tid m /\ nlink_at S g (evs ++ [NTake cid]) cid l'
      /\ ((forall id text, m = ResError id text -> text_ok id /\ text_ok text) ->
          x_cli l' = cstep (x_cli l) (Incoming m)).
Proof.
  intros S SO g HC Hg evs Ht Hf cid l conn Hl Hall Hrun Hconn Hlt.
  destruct (C63_next_answer S SO g HC evs Ht Hf cid l conn Hl Hall Hrun Hconn Hlt) as (tid & m & l' & Hm & Hl' & H).
  exists tid, m, l'. split; [done|]. split; [done|]. intros Her. apply H. destruct (is_error m) eqn:He.
  - destruct m; try done. by apply Her.
  - assert (sent S conn tid m) as Hs by (by exists true).
    destruct (sent_received S SO g HC _ cid conn tid m Hconn Hs) as [rq Hq].
    apply (answer_ok S SO g HC _ cid conn tid rq m Hg Hconn Hq Hs He). exact (run_fits S g _ cid conn Hconn tid m Hm).
Qed.
Print Assumptions C63_next_read.

Example C63_next_read_ex : proper DemoNet.env.
Proof. repeat split; by vm_compute. Qed.
