(** * PropertiesWire: connections (C24, C27 to C31)

    The words [succeeded], [fine_message], [after], [misplaced], [holding],
    [no_holder_dropped] and [all_fit] are those of [WireVocab].  A byte stream is delivered
    in pieces: a list of byte strings [cs]; [concat cs] is what was delivered in all. *)

From Verif Require Import Base Utf8 Base64 Base64Proofs Msgpack Crypto Toy Types Codec CodecProofs
  CodecProofs2 Secret Store StoreProofs Lru Server System ServerSpec ServerVocab ServerProofs
  ServerProofs2 SystemProofs AnswerProofs ServerTheorems Demo PropertiesServer1
  Wire Sender WireVocab WireProofs SenderProofs Handshake WireProofs2.
From Verif Require Import ServerVocab. (* [sent] is that of [ServerVocab] *)
From Coq Require Import ZifyBool ZifyNat ZifyN.

(** ** C28: frames survive any chunking *)

(** Written frames are read back, however the stream is cut. *)
Theorem C28_frames_arrive :
  forall ds ws cs,
    Forall2 (fun d w => frame_send d = Ok w) ds ws -> concat cs = concat ws ->
    frames cs = (ds, Ended eof).
Proof.
  intros ds ws cs H E. rewrite <- (app_nil_r (concat ws)) in E.
  destruct (frames_app ds ws cs [] H E) as (r & Er & ->).
  rewrite (frames_nil r Er). cbn. by rewrite app_nil_r.
Qed.
Print Assumptions C28_frames_arrive.

(** Exactly payloads of at most 8192 bytes are accepted for writing; for the others
    nothing is written. *)
Theorem C28_send_limit :
  forall d, (N.of_nat (length d) <= 8192)%N <-> exists w, frame_send d = Ok w.
Proof.
  intros d. split.
  - intros H. exists (frame d). by apply frame_send_small.
  - intros [w H]. by apply frame_send_ok in H as [_ H].
Qed.
Print Assumptions C28_send_limit.

(** When the stream breaks off, exactly the frames that had arrived whole are delivered. *)
Theorem C28_truncated :
  forall ds ws cs,
    Forall2 (fun d w => frame_send d = Ok w) ds ws -> concat cs `prefix_of` concat ws ->
    exists k, frames cs = (take k ds, Ended eof)
      /\ length (concat (take k ws)) <= length (concat cs)
      /\ (k < length ds -> length (concat cs) < length (concat (take (S k) ws))).
Proof. apply frames_prefix. Qed.
Print Assumptions C28_truncated.

(** A length above 8192 on the wire, whoever wrote it, ends the stream after the frames
    before it. *)
Theorem C28_overlong_refused :
  forall ds ws cs n rest,
    Forall2 (fun d w => frame_send d = Ok w) ds ws ->
    (8192 < n < 65536)%N -> concat cs = concat ws ++ le_bytes 2 n ++ rest ->
    frames cs = (ds, Ended (str "FrameOverflow")).
Proof.
  intros ds ws cs n rest H Hn E. destruct (frames_app ds ws cs _ H E) as (r & Er & ->).
  rewrite (frames_stop r (str "FrameOverflow")); [cbn; by rewrite app_nil_r|].
  by apply (frame_recv_over r n rest).
Qed.
Print Assumptions C28_overlong_refused.

(** Whatever bytes arrive, cut in whatever way: what is delivered stands on the wire, frame by
    frame, and depends only on the bytes. *)
Theorem C28_any_stream :
  forall cs ds e, frames cs = (ds, e) ->
    (exists er, e = Ended er)
    /\ (exists ws rest, Forall2 (fun d w => frame_send d = Ok w) ds ws
         /\ concat cs = concat ws ++ rest)
    /\ forall cs', concat cs' = concat cs -> frames cs' = (ds, e).
Proof.
  intros cs ds e H. destruct (frames_sound cs ds e H) as (ws & rest & H1 & H2 & H3).
  split; [done|]. split; [by exists ws, rest|]. intros cs' E. rewrite <- H. by apply frames_ext.
Qed.
Print Assumptions C28_any_stream.

(** Two frames, one of them empty, in one-byte pieces with empty reads between. *)
Example C28_ex :
  exists w1 w2, frame_send (str "hello") = Ok w1 /\ frame_send [] = Ok w2
    /\ frames (concat (map (fun b => [[b]; []]) (w1 ++ w2))) = ([str "hello"; []], Ended eof)
    /\ frames [take 6 w1] = ([], Ended eof)
    /\ is_ok (frame_send (repeat x00 (Pos.to_nat 8193))) = false
    /\ frames [le_bytes 2 8193; repeat x00 (Pos.to_nat 9000)] = ([], Ended (str "FrameOverflow")).
Proof. eexists _, _. split; [done|]. split; [done|]. split; [by vm_compute|]. split; [by vm_compute|].
  split; by vm_compute. Qed.

(** ** C29: messages arrive in order, unaltered, or not at all *)

(** Whatever is sent, refused, cut short or lost: the receiver gets a prefix of the messages
    whose sending succeeded, unless a ciphertext made for a later place of the stream opens at
    an earlier one. *)
Theorem C29_in_order_partial :
  forall C, CryptoOk C ->
  forall l st rs t cs,
    Forall (fun x => api_ok x.1) l -> send_all C (Tx st [] false) l = (rs, t) ->
    concat cs `prefix_of` t_wire t ->
    (exists k e, messages C st cs = (take k (succeeded l rs), Ended e))
    \/ misplaced C st (texts l).
Proof.
  intros C CK l st rs t cs Hok E Hp.
  pose proof (delivered_prefix C CK l st cs Hok) as H. rewrite E in H. cbn [fst snd] in H.
  destruct (H Hp) as [|]; [by right|by left].
Qed.
Print Assumptions C29_in_order_partial.

(** When every sending succeeded and all bytes arrived, so did all messages. *)
Theorem C29_all_arrive :
  forall C, CryptoOk C ->
  forall l st rs t cs,
    Forall (fun x => api_ok x.1) l -> send_all C (Tx st [] false) l = (rs, t) ->
    Forall (fun r => r = Ok tt) rs -> concat cs = t_wire t ->
    messages C st cs = (map fst l, Ended eof).
Proof.
  intros C CK l st rs t cs Hok E Hr Hc. apply (all_delivered C CK l st cs); [done| |]; by rewrite E.
Qed.
Print Assumptions C29_all_arrive.

(** A message is refused exactly when it does not fit a frame; on a live transport that takes
    everything all others succeed. *)
Theorem C29_refused_when :
  forall C, CryptoOk C ->
  forall st w a, is_ok (api_send C (Tx st w false) a None).1 = fits a.
Proof.
  intros C CK st w a. unfold api_send, crypt_send, fits. cbn [t_enc].
  pose proof (ss_push_len C CK st TagMessage (encode_api a)) as L.
  destruct (ss_push C st TagMessage (encode_api a)) as [c enc]. cbn [fst] in L.
  unfold frame_send. rewrite L.
  destruct (N.ltb_spec MAX_FRAME (N.of_nat (length (encode_api a) + ABYTES)));
    destruct (N.leb_spec (N.of_nat (length (encode_api a) + ABYTES)) MAX_FRAME); try done; lia.
Qed.
Print Assumptions C29_refused_when.

(** The second half of the property is false: after a message was refused for its size nothing
    that is sent later arrives, although the sending of it succeeds.  (The encryption state
    advances before the size is checked.) *)
Theorem C29_after_refusal_refuted :
  forall C, CryptoOk C ->
  forall l1 a o l2 st cs,
    Forall (fun x => api_ok x.1) l1 -> fits a = false ->
    concat cs `prefix_of` t_wire (send_all C (Tx st [] false) (l1 ++ (a, o) :: l2)).2 ->
    (exists k e, messages C st cs
       = (take k (succeeded l1 (send_all C (Tx st [] false) l1).1), Ended e))
    \/ misplaced C st (texts (l1 ++ (a, o) :: l2)).
Proof.
  intros C CK l1 a o l2 st cs Hok Hf Hp.
  destruct (refused_as C CK l1 a o l2 st cs) as [H|(k & got & e & H1 & H2)]; [|done|by right|].
  { unfold fits in Hf. apply N.leb_gt in Hf. done. }
  left. exists k, e. rewrite H1. apply read_as_list in H2; [by subst|].
  by apply Forall_take, succeeded_ok.
Qed.
Print Assumptions C29_after_refusal_refuted.

(** The messages before the first that is too long. *)
Fixpoint before_refused (l : list api) : list api :=
  match l with
  | [] => []
  | a :: l => if fits a then a :: before_refused l else []
  end.

Definition over_good_line (l : list api) : list (api * transport) := map (fun a => (a, None)) l.

Lemma send_fitting C (CK : CryptoOk C) l st w :
  Forall (fun a => fits a = true) l ->
  send_all C (Tx st w false) (over_good_line l)
  = (repeat (Ok tt) (length l), Tx (after C st (map encode_api l)) (w ++ stream C st l) false).
Proof.
  intros HF. revert st w. induction HF as [|a l Ha HF IH]; intros st w.
  - cbn. by rewrite app_nil_r.
  - cbn [over_good_line map send_all]. unfold api_send, crypt_send. cbn [t_enc t_wire t_dead].
    pose proof (cipher_small C CK st a Ha) as Hs. unfold cipher in Hs.
    destruct (ss_push C st TagMessage (encode_api a)) as [c enc] eqn:Ep. cbn [fst] in Hs.
    unfold frame_send. destruct (N.ltb_spec MAX_FRAME (N.of_nat (length c))); [lia|].
    unfold write_all. cbn [t_dead t_wire t_enc]. fold (over_good_line l). rewrite IH.
    cbn [length repeat stream map]. f_equal. unfold cipher. rewrite Ep. cbn [fst snd].
    unfold WireVocab.after. cbn [fold_left]. rewrite Ep. cbn [snd]. rewrite <- app_assoc. done.
Qed.

(** Exactly: over a line that takes everything the receiver gets the messages before the first that is
    refused, and no other (but for a ciphertext that opens out of its place).  So all that
    were sent successfully arrive just when none of them was sent after a refusal. *)
Theorem C29_exactly :
  forall C, CryptoOk C ->
  forall l st cs,
    Forall api_ok (before_refused l) ->
    concat cs = t_wire (send_all C (Tx st [] false) (over_good_line l)).2 ->
    (messages C st cs).1 = before_refused l \/ misplaced C st (map encode_api l).
Proof.
  intros C CK l st cs Hok1 Hc.
  assert (exists rest, l = before_refused l ++ rest
    /\ (rest = [] \/ exists a l2, rest = a :: l2 /\ fits a = false)) as (rest & El & Hrest).
  { clear. induction l as [|a l IH]; [exists []; split; [done|by left]|].
    cbn [before_refused]. destruct (fits a) eqn:Ef.
    - destruct IH as (rest & E & H). exists rest. split; [|done]. cbn. by rewrite <- E.
    - exists (a :: l). split; [done|]. right. by exists a, l. }
  assert (Forall (fun a => fits a = true) (before_refused l)) as Hf.
  { clear. induction l as [|a l IH]; cbn; [constructor|]. destruct (fits a) eqn:E; [by constructor|constructor]. }
  set (l1 := before_refused l) in *. clearbody l1. subst l.
  assert (Forall fine_message l1) as Hfine.
  { clear -Hf Hok1. induction Hf; inversion Hok1; subst; constructor; [done|]. by apply IHHf. }
  assert (over_good_line (l1 ++ rest) = over_good_line l1 ++ over_good_line rest) as Eo by apply map_app.
  rewrite Eo in Hc. clear Eo.
  pose proof (send_all_app C (over_good_line l1) (over_good_line rest) (Tx st [] false)) as [_ E2].
  pose proof Hc as Hc0. rewrite E2, (send_fitting C CK l1 st [] Hf) in Hc. cbn [snd app] in Hc.
  pose proof (send_all_wire C (over_good_line rest) (after C st (map encode_api l1)) (stream C st l1) false) as [_ Ew].
  rewrite Ew in Hc.
  destruct (messages_stream C CK st l1 cs _ Hfine Hc) as (r & _ & Em). rewrite Em. cbn [fst].
  destruct Hrest as [->|(a & l2 & -> & Ha)].
  - left. assert (messages C st cs = (map fst (over_good_line l1), Ended eof)) as E.
    { apply (C29_all_arrive C CK (over_good_line l1) st (repeat (Ok tt) (length l1))
        (Tx (after C st (map encode_api l1)) (stream C st l1) false) cs).
      - clear -Hok1. induction Hok1; constructor; done.
      - apply (send_fitting C CK l1 st [] Hf).
      - clear. induction l1; constructor; done.
      - cbn [t_wire]. rewrite Hc. cbn. by rewrite app_nil_r. }
    rewrite Em in E. injection E as E _. rewrite E. unfold over_good_line. rewrite map_map. apply map_id.
  - destruct (C29_after_refusal_refuted C CK (over_good_line l1) a None (over_good_line l2) st cs) as [(k & e & E)|Hm].
    + clear -Hok1. induction Hok1; constructor; done.
    + done.
    + rewrite Hc0. done.
    + left. rewrite Em in E. injection E as E _.
      assert (length (succeeded (over_good_line l1) (send_all C (Tx st [] false) (over_good_line l1)).1) <= length l1) as Hl.
      { rewrite (send_fitting C CK l1 st [] Hf). cbn [fst]. clear. unfold over_good_line. induction l1 as [|x l1 IH]; [done|]. cbn [map length repeat succeeded]. lia. }
      apply (f_equal length) in E. rewrite app_length, take_length in E.
      destruct (messages C (after C st (map encode_api l1)) r).1; [by rewrite app_nil_r|]. cbn [length] in E. exfalso. clear -E Hl. unfold over_good_line in *. lia.
    + right. unfold texts, over_good_line in Hm. rewrite map_app in *. cbn [map fst] in Hm. rewrite !map_map in Hm. exact Hm.
Qed.
Print Assumptions C29_exactly.

Example C29_exactly_ex :
  let l := [ReqHello (str "a"); ReqListEntries (str "b"); ReqGetEntry (str "b") (repeat x61 (Pos.to_nat 8200)); ReqHello (str "c")] in
  Forall api_ok (before_refused l) /\ before_refused l = [ReqHello (str "a"); ReqListEntries (str "b")]
  /\ length (before_refused (take 2 l)) = 2.
Proof. split; [|split; by vm_compute]. repeat constructor; by vm_compute. Qed.

Definition ex_big : api := ReqGetEntry (str "b") (repeat x61 (Pos.to_nat 8200)).
Definition ex_toy_state : ss_state toy := ss_init toy (fill 32 x01) (fill 24 x02).

(** A concrete connection: the second of three messages is refused, the third is sent
    successfully and does not arrive. *)
Theorem C29_usable_after_refusal_refuted :
  exists C st a1 a2 a3, CryptoOk C /\ api_ok a1 /\ api_ok a2 /\ api_ok a3
    /\ let sending := send_all C (Tx st [] false) [(a1, None); (a2, None); (a3, None)] in
       sending.1 = [Ok tt; Err (str "FrameOverflow"); Ok tt]
       /\ messages C st [t_wire sending.2] = ([a1], Ended (str "InternalSodium")).
Proof.
  exists toy, ex_toy_state, (ReqHello (str "a")), ex_big, (ReqHello (str "c")).
  split; [exact toy_ok|]. split; [by vm_compute|]. split; [by vm_compute|].
  split; [by vm_compute|]. cbn zeta. split; vm_compute; reflexivity.
Qed.
Print Assumptions C29_usable_after_refusal_refuted.

(** In that run no ciphertext opens out of its place. *)
Example C29_ex_places :
  ~ misplaced toy ex_toy_state (texts [(ReqHello (str "a"), None); (ex_big, None); (ReqHello (str "c"), None)]).
Proof.
  intros (x & y & m & z & E & Hy & H). unfold texts in E. cbn [map fst] in E.
  destruct x as [|x1 [|x2 [|x3 [|x4 x]]]]; cbn [app] in E;
    destruct y as [|y1 [|y2 [|y3 [|y4 y]]]]; cbn [app] in E; try done;
    injection E as; subst; try done; apply H; vm_compute; reflexivity.
Qed.

(** Without refusals, cut after the first message and some bytes. *)
Example C29_ex :
  let l := [(ReqHello (str "a"), None); (ReqListEntries (str "b"), None); (ReqHello (str "c"), Some 3)] in
  let t := (send_all toy (Tx ex_toy_state [] false) l).2 in
  (send_all toy (Tx ex_toy_state [] false) l).1 = [Ok tt; Ok tt; Err (str "BrokenPipe")]
  /\ messages toy ex_toy_state [t_wire t]
     = ([ReqHello (str "a"); ReqListEntries (str "b")], Ended eof)
  /\ messages toy ex_toy_state [take 60 (t_wire t)] = ([ReqHello (str "a")], Ended eof).
Proof. split; [by vm_compute|]. split; by vm_compute. Qed.

(** ** C24: malformed ciphertexts are errors, not crashes *)

(** Frames: the property is false.  A frame of fewer than 17 bytes makes the receiver panic. *)
Theorem C24_short_frame_refuted :
  forall C (st : ss_state C) d w rest cs,
    length d < 17 -> frame_send d = Ok w -> concat cs = w ++ rest ->
    messages C st cs = ([], Panicked).
Proof.
  intros C st d w rest cs L E Ec. apply frame_send_ok in E as [-> _].
  by apply (messages_short C st d cs rest).
Qed.
Print Assumptions C24_short_frame_refuted.

(** Nothing else does: whatever bytes arrive, a receiver that panics was given such a frame. *)
Theorem C24_frames_partial :
  forall C (st : ss_state C) cs,
    (forall d, d ∈ (frames cs).1 -> 17 <= length d) ->
    exists ms e, messages C st cs = (ms, Ended e).
Proof.
  intros C st cs H. destruct (messages C st cs) as [ms e] eqn:E. exists ms.
  destruct e as [e| |]; [by exists e| |].
  - destruct (messages_panic C st cs) as (d & Hin & Hl); [by rewrite E|].
    pose proof (H d Hin). unfold ABYTES in Hl. lia.
  - destruct (messages_total C st cs). by rewrite E.
Qed.
Print Assumptions C24_frames_partial.

(** Exactly: a receiver panics if and only if the frame after those whose messages it has taken
    is such a frame. *)
Theorem C24_exactly :
  forall C (st : ss_state C) cs,
    (messages C st cs).2 = Panicked
    <-> exists d, (frames cs).1 !! length (messages C st cs).1 = Some d /\ length d < 17.
Proof.
  intros C st cs. remember (length (concat cs)) as n eqn:En. revert st cs En.
  induction (lt_wf n) as [n _ IH]. intros st cs ->.
  destruct (api_recv C (st, cs)) as [a [st' r]|er|] eqn:E.
  - rewrite (messages_got _ _ _ _ _ _ E). cbn [fst snd length].
    apply api_recv_got in E as (c & r' & m' & t & E & Er & _ & _). cbn in Er. subst r'.
    rewrite (frames_got _ _ _ E). cbn [fst lookup list_lookup].
    apply (IH (length (concat r))); [|done]. apply frame_recv_got in E as [E _].
    rewrite E, app_length, frame_length. lia.
  - rewrite (messages_stop _ _ _ _ E). cbn [fst snd length]. split; [done|]. intros (d & Hd & Hl). exfalso.
    unfold api_recv, crypt_recv in E. destruct (frame_recv cs) as [c r|e|] eqn:Ef; [|by rewrite (frames_stop _ _ Ef) in Hd|done].
    rewrite (frames_got _ _ _ Ef) in Hd. injection Hd as ->.
    destruct (Nat.ltb_spec (length d) ABYTES) as [_|H]; [done|]. unfold ABYTES in H. lia.
  - unfold messages, budget. cbn [try_unfold]. rewrite E. cbn [fst snd length]. split; [intros _|done].
    unfold api_recv, crypt_recv in E. destruct (frame_recv cs) as [c r|e|] eqn:Ef; [|done|by apply frame_recv_not_panic in Ef].
    exists c. rewrite (frames_got _ _ _ Ef). split; [done|].
    destruct (Nat.ltb_spec (length c) ABYTES) as [H|_]; [done|].
    destruct (ss_pull C st c) as [[[? ?] ?]|]; [|done]. by destruct (decode_api _).
Qed.
Print Assumptions C24_exactly.

(** The same for encrypted data of any size ([SecretData]): exactly ciphertexts of fewer than
    17 bytes panic. *)
Theorem C24_secret_data_refuted :
  forall C key s, sec_open_any C key s = None <-> length (s_cipher s) < 17.
Proof.
  intros C key s. unfold sec_open_any, ABYTES.
  destruct (Nat.ltb_spec (length (s_cipher s)) 17) as [L|L]; [done|]. split; [done|lia].
Qed.
Print Assumptions C24_secret_data_refuted.

(** A panic on the wire: an empty frame. *)
Example C24_ex :
  frame_send [] = Ok [x00; x00]
  /\ messages toy ex_toy_state [[x00; x00]] = ([], Panicked)
  /\ messages toy ex_toy_state [le_bytes 2 17 ++ repeat x00 17] = ([], Ended (str "InternalSodium"))
  /\ sec_open_any toy (fill 32 x01) (Sec (fill 24 x02) (fill 16 x03)) = None
  /\ sec_open_any toy (fill 32 x01) (Sec (fill 24 x02) (fill 17 x03)) = Some (Err (str "InternalSodium")).
Proof. split; [done|]. split; [by vm_compute|]. split; [by vm_compute|]. split; by vm_compute. Qed.

(** ** C27: client and server agree on keys *)

(** Client and server complete the handshake over a faithful transport: each reads what the
    other wrote ([more_c], [more_s]: whatever is written after the handshake), in whatever
    pieces.  Both succeed, and agree. *)
Theorem C27_agreement :
  forall C, CryptoOk C ->
  forall id bk ck sk rc rs hc hs cc cs more_c more_s,
    length id = 32 -> length bk = 32 -> length ck = 32 -> length sk = 32 ->
    length hc = 24 -> length hs = 24 ->
    concat cs = (s3_client C (x_base C id) bk ck rc hc cc).1 ++ more_c ->
    concat cc = (s3_server C (x_base C id) id sk rs hs cs).1 ++ more_s ->
    exists c s,
      (s3_client C (x_base C id) bk ck rc hc cc).2 = Ok c
      /\ (s3_server C (x_base C id) id sk rs hs cs).2 = Ok s
      /\ h_tx c = h_rx s /\ h_rx c = h_tx s
      /\ h_enc c = h_dec s /\ h_dec c = h_enc s
      /\ concat (h_rest s) = more_c /\ concat (h_rest c) = more_s.
Proof.
  intros C CK id bk ck sk rc rs hc hs cc cs more_c more_s H1 H2 H3 H4 H5 H6 H7 H8.
  destruct (handshake_agrees C CK id bk ck sk rc rs hc hs cc cs more_c more_s)
    as (c & s & E1 & E2 & E3 & E4 & E5 & E6 & _ & _ & E7 & E8); try done.
  exists c, s. auto 20.
Qed.
Print Assumptions C27_agreement.

(** Over a transport that may break off anywhere: if both ends finish, they agree. *)
Theorem C27_agreement_if_finished :
  forall C, CryptoOk C ->
  forall id bk ck sk rc rs hc hs cc cs more_c more_s c s,
    length id = 32 -> length bk = 32 -> length ck = 32 -> length sk = 32 ->
    length hc = 24 -> length hs = 24 ->
    concat cs `prefix_of` (s3_client C (x_base C id) bk ck rc hc cc).1 ++ more_c ->
    concat cc `prefix_of` (s3_server C (x_base C id) id sk rs hs cs).1 ++ more_s ->
    (s3_client C (x_base C id) bk ck rc hc cc).2 = Ok c ->
    (s3_server C (x_base C id) id sk rs hs cs).2 = Ok s ->
    h_tx c = h_rx s /\ h_rx c = h_tx s
    /\ h_enc c = h_dec s /\ h_dec c = h_enc s
    /\ concat (h_rest s) `prefix_of` more_c /\ concat (h_rest c) `prefix_of` more_s.
Proof. intros C CK. apply (handshake_cut C CK). Qed.
Print Assumptions C27_agreement_if_finished.

(** The context keys under which passphrases and private keys travel agree too, with those
    of the connection as the server handles it. *)
Theorem C27_context_keys :
  forall S g (c s : session (g_crypto g)),
    h_tx c = h_rx s -> h_rx c = h_tx s ->
    client_enc_ctx c = c_dec S (connect S g (h_rx s) (h_tx s))
    /\ client_dec_ctx c = c_enc S (connect S g (h_rx s) (h_tx s)).
Proof.
  intros S g c s E1 E2. unfold client_enc_ctx, client_dec_ctx, connect. cbn.
  by rewrite E1, E2.
Qed.
Print Assumptions C27_context_keys.

(** After the handshake, what one sends the other receives. *)
Theorem C27_then_messages :
  forall C, CryptoOk C ->
  forall id bk ck sk rc rs hc hs cc cs more_s lc ls rsc rss tc ts c s,
    length id = 32 -> length bk = 32 -> length ck = 32 -> length sk = 32 ->
    length hc = 24 -> length hs = 24 ->
    (s3_client C (x_base C id) bk ck rc hc cc).2 = Ok c ->
    (s3_server C (x_base C id) id sk rs hs cs).2 = Ok s ->
    Forall (fun x => api_ok x.1) lc -> Forall (fun x => api_ok x.1) ls ->
    send_all C (Tx (h_enc c) [] false) lc = (rsc, tc) -> Forall (fun r => r = Ok tt) rsc ->
    send_all C (Tx (h_enc s) [] false) ls = (rss, ts) -> Forall (fun r => r = Ok tt) rss ->
    more_s = t_wire ts ->
    concat cs = (s3_client C (x_base C id) bk ck rc hc cc).1 ++ t_wire tc ->
    concat cc = (s3_server C (x_base C id) id sk rs hs cs).1 ++ more_s ->
    messages C (h_dec s) (h_rest s) = (map fst lc, Ended eof)
    /\ messages C (h_dec c) (h_rest c) = (map fst ls, Ended eof).
Proof.
  intros C CK id bk ck sk rc rs hc hs cc cs more_s lc ls rsc rss tc ts c s
    H1 H2 H3 H4 H5 H6 Hc Hs Hlc Hls Ec Hrc Es Hrs -> Ecs Ecc.
  destruct (handshake_agrees C CK id bk ck sk rc rs hc hs cc cs (t_wire tc) (t_wire ts))
    as (c' & s' & E1 & E2 & _ & _ & E5 & E6 & _ & _ & E7 & E8); try done.
  rewrite Hc in E1. injection E1 as <-. rewrite Hs in E2. injection E2 as <-.
  rewrite <- E5, E6. split.
  - by apply (C29_all_arrive C CK lc (h_enc c) rsc tc).
  - by apply (C29_all_arrive C CK ls (h_enc s) rss ts).
Qed.
Print Assumptions C27_then_messages.

(** The client accepts the answer to its hello exactly when the server is the one it expects. *)
Theorem C27_hello_names_the_server :
  forall S (SO : StoreOk S) g, CryptoOk (g_crypto g) ->
  forall evs cid c tid rq id m expected,
    conn_at S g evs cid c -> received S c tid rq -> rq_msg S rq = ReqHello id ->
    sent S c tid m -> undisturbed S rq ->
    (is_ok (client_hello expected m) = true <-> expected = g_id_pk g).
Proof.
  intros S SO g HC evs cid c tid rq id m expected Hc Hq Hrq Hm Hd.
  destruct (answer_meaning S SO g HC evs cid c tid rq m Hc Hq Hm) as (L0 & w & M).
  pose proof (me_good _ _ _ _ _ _ _ _ M) as HG. rewrite Hrq in HG.
  destruct HG as [[Hid H]|(er & -> & [Hf|[[Hf _]|Hf]])].
  - destruct m; try done. destruct H as (_ & _ & ->). cbn.
    destruct (beq (g_id_pk g) expected) eqn:E.
    + apply beq_true in E. by subst.
    + split; [done|]. intros ->. by rewrite beq_refl in E.
  - apply (me_fail _ _ _ _ _ _ _ _ M) in Hf. unfold undisturbed in Hd. congruence.
  - done.
  - done.
Qed.
Print Assumptions C27_hello_names_the_server.

(** And only then, whatever a server answers. *)
Theorem C27_other_server_refused :
  forall expected m v, client_hello expected m = Ok v ->
    exists id name, m = ResHello id name v expected.
Proof.
  intros expected m v H. destruct m; try done. cbn in H.
  destruct (beq server_pub_key expected) eqn:E; [|done]. apply beq_true in E. injection H as ->. subst.
  by eexists _, _.
Qed.
Print Assumptions C27_other_server_refused.

Example C27_ex :
  let id := fill 32 x01 in let bk := fill 32 x02 in let ck := fill 32 x03 in let sk := fill 32 x04 in
  let hc := fill 24 x05 in let hs := fill 24 x06 in
  let out := (s3_client toy id bk ck [] hc []).1 in
  let reply := (s3_server toy id id sk [] hs [out]).1 in
  let cc := [take 7 reply; drop 7 reply] in
  let cs := map (fun b => [b]) (s3_client toy id bk ck [] hc cc).1 in
  concat cc = (s3_server toy id id sk [] hs cs).1
  /\ match (s3_client toy id bk ck [] hc cc).2, (s3_server toy id id sk [] hs cs).2 with
     | Ok c, Ok s => h_tx c <> h_rx c /\ h_tx c = h_rx s /\ h_rx c = h_tx s
     | _, _ => False
     end
  /\ is_ok (client_hello (fill 32 x09) (ResHello (str "i") (str "n") (str "v") id)) = false.
Proof.
  cbn zeta. split; [vm_compute; reflexivity|]. split; [vm_compute|vm_compute; reflexivity].
  split; [discriminate|]. split; reflexivity.
Qed.

(** ** C30: the answer can always be delivered *)

(** What is delivered fits a frame. *)
Theorem C30_delivered_fits :
  forall S g evs cid c tid m,
    conn_at S g evs cid c -> delivered S c tid m ->
    (N.of_nat (length (encode_api m)) <= 8192 - 17)%N.
Proof.
  intros S g evs cid c tid m Hc Hm. pose proof (run_fits S g evs cid c Hc tid m Hm) as H.
  unfold fits, MAX_FRAME, ABYTES in H. lia.
Qed.
Print Assumptions C30_delivered_fits.

(** The property is false: when the entries of the keystore take more than a frame (59 seeds do,
    or three with long tags), no list of them is ever delivered. *)
Theorem C30_large_keystore_refuted :
  forall S (SO : StoreOk S) g, CryptoOk (g_crypto g) ->
  forall evs cid c tid rq id id' l es,
    conn_at S g evs cid c -> received S c tid rq -> rq_msg S rq = ReqListEntries id ->
    NoDup (map tag_of es) -> (forall e, e ∈ es -> held_before S rq e) ->
    (8192 - 17 < N.of_nat (total (map weight es)))%N ->
    ~ delivered S c tid (ResListEntries id' l).
Proof.
  intros S SO g HC evs cid c tid rq id id' l es Hc Hq Hrq Hnd Hes Hbig Hm.
  pose proof (C30_delivered_fits S g evs cid c tid _ Hc Hm) as Hl.
  assert (sent S c tid (ResListEntries id' l)) as Hs by (by exists true).
  assert (id' = id) as ->.
  { destruct (C04_answer_to_itself S SO g HC evs cid c tid _ Hc Hs) as (rq' & Hq' & E & _).
    unfold received in *. rewrite Hq in Hq'. injection Hq' as <-. rewrite Hrq in E. exact E. }
  destruct (C09_list_answer S SO g HC evs cid c tid rq id l Hc Hq Hrq Hs) as (H1 & _).
  pose proof (list_answer_ge id es l Hnd) as G.
  assert (total (map weight es) <= length (encode_api (ResListEntries id l))); [|lia].
  apply G.
  - intros e He. eapply before_ok; [done|done|exact Hc|exact Hq|]. by apply Hes.
  - intros e He. by apply H1, Hes.
Qed.
Print Assumptions C30_large_keystore_refuted.

(** And the connection is lost: after an answer that does not fit, the client reads nothing of
    what the server sends on it, in particular not the error.  The bytes on the wire are those
    of all messages handed to the transport. *)
Theorem C30_connection_lost_refuted :
  forall S (SO : StoreOk S) g, CryptoOk (g_crypto g) ->
  forall evs cid c log1 tid m b log2 st cs,
    conn_at S g evs cid c -> c_log S c = log1 ++ (tid, m, b) :: log2 -> fits m = false ->
    let sends := map (fun x : nat * api * bool => (x.1.2, if x.2 then None else Some 0)) in
    concat cs `prefix_of` t_wire (send_all (g_crypto g) (Tx st [] false) (sends (c_log S c))).2 ->
    length (messages (g_crypto g) st cs).1 <= length log1
    \/ misplaced (g_crypto g) st (texts (sends (c_log S c))).
Proof.
  intros S SO g HC evs cid c log1 tid m b log2 st cs Hc El Hf sends Hp.
  rewrite El in Hp. unfold sends in Hp. rewrite map_app in Hp. cbn [map fst snd] in Hp.
  destruct (refused_as (g_crypto g) HC (sends log1) m (if b then None else Some 0) (sends log2) st cs)
    as [H|(k & got & e & H1 & H2)];
    [|done|right; rewrite El; unfold sends; rewrite map_app; exact H|].
  { unfold fits in Hf. apply N.leb_gt in Hf. done. }
  left. rewrite H1. cbn [fst]. apply Forall2_length in H2. rewrite <- H2, take_length.
  assert (forall l rs, length (succeeded l rs) <= length l) as Hlen.
  { clear. induction l as [|[a o] l IH]; intros [|[]]; cbn; try lia.
    - specialize (IH l0). lia.
    - specialize (IH l0). lia. }
  specialize (Hlen (sends log1) (send_all (g_crypto g) (Tx st [] false) (sends log1)).1).
  etransitivity; [apply Nat.le_min_r|]. etransitivity; [exact Hlen|]. apply Nat.eq_le_incl, map_length.
Qed.
Print Assumptions C30_connection_lost_refuted.

(** What is true: a list of seeds that is short enough can be delivered. *)
Theorem C30_small_keystore_partial :
  forall id l,
    (forall i, i ∈ l -> exists t si, (i = ISeed t si \/ i = IDeep t si) /\ seed_info_ok si) ->
    length id + total (map (fun i => length (info_tag i) + 220) l) + 70 <= N.to_nat (8192 - 17) ->
    fits (ResListEntries id l) = true.
Proof.
  intros id l Hl Hs. pose proof (list_answer_le id l Hl) as H. unfold fits, MAX_FRAME, ABYTES.
  apply N.leb_le. lia.
Qed.
Print Assumptions C30_small_keystore_partial.

Definition ex_long (b : byte) : bytes := repeat b (Pos.to_nat 3000).
Definition ex_large : list event :=
  demo_open 1
  ++ ask 1 1 (ReqNewSeed (str "1") (ex_long x61) None true) x11
  ++ ask 1 2 (ReqNewSeed (str "2") (ex_long x62) None true) x12
  ++ ask 1 3 (ReqNewSeed (str "3") (ex_long x63) None true) x13
  ++ ask 1 4 (ReqListEntries (str "4")) x14.

(** The bytes a connection's messages make on the wire. *)
Definition wire_of (C : Crypto) (st : ss_state C) (log : list (nat * api * bool)) : bytes :=
  t_wire (send_all C (Tx st [] false)
            (map (fun x : nat * api * bool => (x.1.2, if x.2 then None else Some 0)) log)).2.

(** Three seeds are made, each request answered; then the entries are asked for.  The server
    sends two messages for that, the list and an error.  The client receives neither. *)
Theorem C30_list_lost_refuted :
  exists g evs cid tid id (c : conn sql_store) (rq : request sql_store) st, CryptoOk (g_crypto g)
    /\ conn_at sql_store g evs cid c /\ received sql_store c tid rq
    /\ rq_msg sql_store rq = ReqListEntries id /\ finished sql_store c tid
    /\ length (answers sql_store c tid) = 2
    /\ forall m, m ∈ (messages (g_crypto g) st [wire_of (g_crypto g) st (c_log sql_store c)]).1 ->
         msg_id m <> id.
Proof.
  exists (demo_env false), ex_large, 1, 4, (str "4").
  destruct (checked sql_store (demo_env false) ex_large 1 (fun c =>
    match c_reqs sql_store c !! 4, c_thr sql_store c !! 4 with
    | Some rq, None =>
        match rq_msg sql_store rq with ReqListEntries id => beq id (str "4") | _ => false end
        && Nat.eqb (length (answers sql_store c 4)) 2
        && forallb (fun m => negb (beq (msg_id m) (str "4")))
             (messages toy ex_toy_state [wire_of toy ex_toy_state (c_log sql_store c)]).1
    | _, _ => false
    end)) as (c & Hc & H); [vm_compute; reflexivity|].
  exists c. unfold received, finished.
  destruct (c_reqs sql_store c !! 4) as [rq|]; [|discriminate H].
  destruct (c_thr sql_store c !! 4); [discriminate H|].
  exists rq, ex_toy_state. apply andb_prop in H as [H H3]. apply andb_prop in H as [H1 H2].
  split; [exact toy_ok|]. split; [exact Hc|]. split; [reflexivity|].
  split. { destruct (rq_msg sql_store rq); try discriminate H1. apply beq_true in H1. by subst. }
  split; [reflexivity|]. split; [by apply Nat.eqb_eq|].
  intros m Hm E. change (g_crypto (demo_env false)) with toy in Hm.
  rewrite forallb_forall in H3. apply elem_of_list_In in Hm. specialize (H3 m Hm).
  rewrite E, beq_refl in H3. discriminate H3.
Qed.
Print Assumptions C30_list_lost_refuted.

(** ** C31: concurrent senders *)

(** However any number of calls interleave, as long as none is abandoned while it has the
    sender: what the receiver gets are the messages of exactly the calls that succeeded, each
    once, whole, in one order; messages do not change places later; no call panics. *)
Theorem C31_interleaving_partial :
  forall C, CryptoOk C ->
  forall st evs, all_fit evs -> no_holder_dropped C st evs ->
    exists order : list (nat * api),
      NoDup order.*1
      /\ (forall tid a, (tid, a) ∈ order <->
            n_tasks (srun C st evs) !! tid = Some (PDone (JSend a) (Ok tt)))
      /\ (forall cs, concat cs = n_wire (srun C st evs) ->
            messages C st cs = (order.*2, Ended eof))
      /\ (forall tid, n_tasks (srun C st evs) !! tid <> Some PPanic)
      /\ forall evs', all_fit (evs ++ evs') -> no_holder_dropped C st (evs ++ evs') ->
           exists more, forall cs, concat cs = n_wire (srun C st (evs ++ evs')) ->
             messages C st cs = (order.*2 ++ more, Ended eof).
Proof.
  intros C CK st evs Hf Hd. pose proof (all_fair_of C st) as HA.
  destruct (run_inv C CK st [] (sender_init C st) evs (inv_init C st) (HA evs Hf Hd)) as [order HI].
  cbn [app] in HI. exists order. pose proof HI as [I1 I2 I3 I4 I5].
  split; [done|]. split; [done|].
  split; [intros cs; by apply (inv_messages C CK st order)|].
  split; [intros tid Ht; by apply (I4 tid PPanic)|].
  intros evs' Hf' Hd'. pose proof (HA _ Hf' Hd') as HF. apply all_fair_app in HF as [_ HF].
  destruct (run_inv C CK st order _ evs' HI HF) as [o HI'].
  exists o.*2. intros cs Hc. rewrite <- fmap_app. unfold srun in Hc. rewrite fold_left_app in Hc.
  by apply (inv_messages C CK st _ _ cs HI').
Qed.
Print Assumptions C31_interleaving_partial.

(** A call never waits for ever because of the others: letting them and it go on, it comes
    to its end. *)
Theorem C31_no_deadlock_partial :
  forall C, CryptoOk C ->
  forall st evs, all_fit evs -> no_holder_dropped C st evs ->
  forall tid j, n_tasks (srun C st evs) !! tid = Some (PWait j) ->
    exists evs', (forall e, e ∈ evs' -> exists t k, e = SvPoll t k false)
      /\ exists j r, n_tasks (srun C st (evs ++ evs')) !! tid = Some (PDone j r).
Proof.
  intros C CK st evs Hf Hd tid j Ht.
  destruct (run_inv C CK st [] (sender_init C st) evs (inv_init C st) (all_fair_of C st evs Hf Hd))
    as [order HI].
  destruct (waiting_ends C st _ _ tid j HI Ht) as (evs' & _ & H1 & H2). exists evs'.
  split; [done|]. unfold srun. by rewrite fold_left_app.
Qed.
Print Assumptions C31_no_deadlock_partial.

(** Abandoning a call breaks the sender, and the connection with it: from then on nothing
    reaches the wire, no call ever ends, and a call that gets its turn panics. *)
Theorem C31_abandoned_refuted :
  forall C, CryptoOk C ->
  forall st evs tid, all_fit evs -> no_holder_dropped C st evs -> holding C (srun C st evs) tid ->
  forall evs',
    let s := srun C st evs in
    let s' := srun C st (evs ++ SvDrop tid :: evs') in
    n_wire s' = n_wire s
    /\ (forall t j r, n_tasks s' !! t = Some (PDone j r) -> n_tasks s !! t = Some (PDone j r))
    /\ (forall t j k f, n_tasks s' !! t = Some (PWait j) ->
         n_tasks (sstep C s' (SvPoll t k f)) !! t = Some PPanic).
Proof.
  intros C CK st evs tid Hf Hd Hh evs' s s'.
  destruct (run_inv C CK st [] (sender_init C st) evs (inv_init C st) (all_fair_of C st evs Hf Hd))
    as [order HI].
  pose proof (drop_loses C st _ _ tid HI Hh) as HL.
  assert (s' = fold_left (sstep C) evs' (drop_task C s tid)) as Es.
  { unfold s', s, srun. by rewrite fold_left_app. }
  destruct (lost_run C _ evs' HL) as ((L1 & L2 & L3) & H2 & H3).
  change (fold_left (sstep C) evs (sender_init C st)) with s in *. rewrite <- Es in *.
  split; [|split].
  - rewrite H2. unfold drop_task. by destruct (n_tasks s !! tid) as [[]|].
  - intros t j r Ht. apply H3 in Ht. unfold drop_task in Ht.
    destruct (n_tasks s !! tid) as [[]|] eqn:E; try done; cbn in Ht;
      (destruct (decide (tid = t)) as [->|Hn];
       [rewrite lookup_insert in Ht|rewrite lookup_insert_ne in Ht by done]; done).
  - intros t j k f Ht. cbn [sstep]. unfold poll. rewrite Ht, L2, L1. cbn. by rewrite lookup_insert.
Qed.
Print Assumptions C31_abandoned_refuted.

(** The first of the dropped calls that had the sender. *)
Lemma first_dropped C st evs :
  no_holder_dropped C st evs
  \/ exists evs1 t evs2, evs = evs1 ++ SvDrop t :: evs2
       /\ no_holder_dropped C st evs1 /\ holding C (srun C st evs1) t.
Proof.
  induction evs as [|e evs IH] using rev_ind.
  - left. intros [|] t evs2 E; discriminate E.
  - destruct IH as [IH|(evs1 & t & evs2 & -> & H1 & H2)].
    2:{ right. exists evs1, t, (evs2 ++ [e]). by rewrite <- app_assoc. }
    assert ((exists t, e = SvDrop t /\ holding C (srun C st evs) t)
            \/ forall t, e = SvDrop t -> ~ holding C (srun C st evs) t) as [(t & -> & Hh)|Hn].
    { destruct e as [| |t]; [by right|by right|].
      destruct (n_tasks (srun C st evs) !! t) as [p|] eqn:Et.
      - destruct (holds_sender C p) eqn:Ep.
        + left. exists t. split; [done|]. by exists p.
        + right. intros t' [= <-] (q & Hq & Hh). congruence.
      - right. intros t' [= <-] (q & Hq & Hh). congruence. }
    + right. exists evs, t, []. done.
    + left. intros evs1 t evs2 E. destruct evs2 as [|e' evs2 _] using rev_ind.
      * apply app_inj_tail in E as [<- E]. by apply Hn.
      * rewrite app_comm_cons, app_assoc in E. apply app_inj_tail in E as [E _].
        exact (IH _ _ _ E).
Qed.

(** A further call can come to its end exactly when no call was abandoned while it had the
    sender. *)
Theorem C31_exactly :
  forall C, CryptoOk C ->
  forall st evs, all_fit evs ->
  forall tid a, n_tasks (srun C st evs) !! tid = None -> fine_message a ->
    (no_holder_dropped C st evs
     <-> exists evs' j r,
           n_tasks (srun C st (evs ++ SvCall tid (JSend a) :: evs')) !! tid = Some (PDone j r)).
Proof.
  intros C CK st evs Hf tid a Ht Ha. split.
  - intros Hd.
    assert (n_tasks (srun C st (evs ++ [SvCall tid (JSend a)])) !! tid = Some (PWait (JSend a))) as Hw.
    { unfold srun. rewrite fold_left_app. cbn [fold_left sstep].
      change (fold_left (sstep C) evs (sender_init C st)) with (srun C st evs).
      rewrite Ht. cbn. by rewrite lookup_insert. }
    destruct (C31_no_deadlock_partial C CK st (evs ++ [SvCall tid (JSend a)])) with (tid := tid) (j := JSend a)
      as (evs' & _ & j & r & E); [| |done|].
    + intros t b Hin. apply elem_of_app in Hin as [Hin|Hin]; [by apply (Hf t)|].
      apply elem_of_list_singleton in Hin. by injection Hin as _ ->.
    + intros evs1 t evs2 E. destruct evs2 as [|e' evs2 _] using rev_ind.
      * apply app_inj_tail in E as [_ E]. discriminate E.
      * rewrite app_comm_cons, app_assoc in E. apply app_inj_tail in E as [E _]. exact (Hd _ _ _ E).
    + exists evs', j, r. by rewrite <- app_assoc in E.
  - intros (evs' & j & r & E).
    destruct (first_dropped C st evs) as [Hd|(evs1 & t & evs2 & -> & Hd & Hh)]; [done|]. exfalso.
    assert (all_fit evs1) as Hf1.
    { intros u b Hin. apply (Hf u). apply elem_of_app. by left. }
    destruct (run_inv C CK st [] (sender_init C st) evs1 (inv_init C st) (all_fair_of C st evs1 Hf1 Hd))
      as [order HI].
    pose proof (drop_loses C st _ _ t HI Hh) as HL.
    destruct (lost_run C _ evs2 HL) as (HL2 & _).
    assert (srun C st (evs1 ++ SvDrop t :: evs2)
            = fold_left (sstep C) evs2 (drop_task C (srun C st evs1) t)) as Es.
    { unfold srun. by rewrite fold_left_app. }
    change (fold_left (sstep C) evs1 (sender_init C st)) with (srun C st evs1) in HL2.
    rewrite <- Es in HL2.
    destruct (lost_run C _ (SvCall tid (JSend a) :: evs') HL2) as (_ & _ & H3).
    assert (srun C st ((evs1 ++ SvDrop t :: evs2) ++ SvCall tid (JSend a) :: evs')
            = fold_left (sstep C) (SvCall tid (JSend a) :: evs') (srun C st (evs1 ++ SvDrop t :: evs2))) as Es2.
    { unfold srun. by rewrite fold_left_app. }
    rewrite Es2 in E. apply H3 in E. by rewrite Ht in E.
Qed.
Print Assumptions C31_exactly.

(** *** What a call reports, whatever else happens *)

Section Reported.
  Variable C : Crypto.

  Definition frame_of (st : ss_state C) (a : api) : res bytes :=
    frame_send (ss_push C st TagMessage (encode_api a)).1.

  Definition written (s : sender C) : Prop :=
    (forall t p t' p', n_tasks s !! t = Some p -> holds_sender C p = true ->
       n_tasks s !! t' = Some p' -> holds_sender C p' = true -> t = t')
    /\ (forall t p, n_tasks s !! t = Some p -> holds_sender C p = true -> n_slot s = None)
    /\ (forall t a enc todo, n_tasks s !! t = Some (PWrite a enc todo) ->
         exists st pre w, frame_of st a = Ok (w ++ todo) /\ n_wire s = pre ++ w)
    /\ (forall t a, n_tasks s !! t = Some (PDone (JSend a) (Ok tt)) ->
         exists st pre f post, frame_of st a = Ok f /\ n_wire s = pre ++ f ++ post).

  (** Only the holder of the sender adds to the wire. *)
  Lemma written_set s t p q wire dead permit slot ext :
    written s -> n_tasks s !! t = Some p -> wire = n_wire s ++ ext ->
    (ext <> [] -> holds_sender C p = true) ->
    (holds_sender C q = true -> holds_sender C p = true \/ n_slot s <> None) ->
    (slot <> None -> n_slot s <> None /\ holds_sender C q = false \/ holds_sender C p = true /\ holds_sender C q = false) ->
    match q with
    | PWrite a enc todo => exists st pre w, frame_of st a = Ok (w ++ todo) /\ wire = pre ++ w
    | PDone (JSend a) (Ok tt) => exists st pre f post, frame_of st a = Ok f /\ wire = pre ++ f ++ post
    | _ => True
    end ->
    written (Snd _ permit slot wire dead (<[t := q]> (n_tasks s))).
  Proof.
    intros (W1 & W2 & W3 & W4) Ht Hw He Hq Hs Hq'. split_and!; cbn [n_tasks n_slot n_wire].
    - intros t1 p1 t2 p2 H1 K1 H2 K2.
      destruct (decide (t1 = t)) as [->|N1], (decide (t2 = t)) as [->|N2]; [done|..].
      + rewrite lookup_insert in H1. injection H1 as <-. rewrite lookup_insert_ne in H2 by done.
        destruct (Hq K1) as [Hp|Hp]; [by apply (W1 t p t2 p2)|]. destruct Hp. by apply (W2 t2 p2).
      + rewrite lookup_insert in H2. injection H2 as <-. rewrite lookup_insert_ne in H1 by done.
        destruct (Hq K2) as [Hp|Hp]; [by apply (W1 t1 p1 t p)|]. destruct Hp. by apply (W2 t1 p1).
      + rewrite lookup_insert_ne in H1, H2 by done. by apply (W1 t1 p1 t2 p2).
    - intros t1 p1 H1 K1. destruct slot as [enc|]; [|done]. exfalso.
      destruct (decide (t1 = t)) as [->|N1].
      + rewrite lookup_insert in H1. injection H1 as <-.
        destruct (Hs ltac:(done)) as [[_ ?]|[_ ?]]; congruence.
      + rewrite lookup_insert_ne in H1 by done. destruct (Hs ltac:(done)) as [[Hx _]|[Hx _]].
        * apply Hx. by apply (W2 t1 p1).
        * by apply N1, (W1 t1 p1 t p).
    - intros t1 a enc todo H1. destruct (decide (t1 = t)) as [->|N1].
      + rewrite lookup_insert in H1. injection H1 as ->. done.
      + rewrite lookup_insert_ne in H1 by done. destruct ext as [|b ext].
        * rewrite Hw, app_nil_r. by apply (W3 t1 a enc todo).
        * exfalso. apply N1. eapply (W1 t1 _ t p); [done|done|done|by apply He].
    - intros t1 a H1. destruct (decide (t1 = t)) as [->|N1].
      + rewrite lookup_insert in H1. injection H1 as ->. done.
      + rewrite lookup_insert_ne in H1 by done.
        destruct (W4 t1 a H1) as (st & pre & f & post & E1 & E2).
        exists st, pre, f, (post ++ ext). split; [done|]. by rewrite Hw, E2, <- !app_assoc.
  Qed.

  Lemma written_step s e : written s -> written (sstep C s e).
  Proof.
    intros W. destruct e as [t j|t k fail|t]; cbn [sstep].
    - destruct (n_tasks s !! t) as [p|] eqn:Et; [done|]. destruct W as (W1 & W2 & W3 & W4).
      unfold set_phase. split_and!; cbn [n_tasks n_slot n_wire].
      + intros t1 p1 t2 p2 H1 K1 H2 K2.
        apply lookup_insert_Some in H1 as [[_ <-]|[_ H1]]; [done|].
        apply lookup_insert_Some in H2 as [[_ <-]|[_ H2]]; [done|]. by apply (W1 t1 p1 t2 p2).
      + intros t1 p1 H1 K1. apply lookup_insert_Some in H1 as [[_ <-]|[_ H1]]; [done|]. by apply (W2 t1 p1).
      + intros t1 a enc todo H1. apply lookup_insert_Some in H1 as [[_ H1]|[_ H1]]; [done|]. by apply (W3 t1 a enc todo).
      + intros t1 a H1. apply lookup_insert_Some in H1 as [[_ H1]|[_ H1]]; [done|]. by apply (W4 t1 a).
    - unfold poll. destruct (n_tasks s !! t) as [[j|[a|] enc|a enc todo|j r| |]|] eqn:Et; try done.
      + destruct (n_permit s); [|done]. destruct (n_slot s) as [enc|] eqn:Es.
        * eapply (written_set s t _ _ _ _ _ _ []); [done|done|by rewrite app_nil_r|done|by right; rewrite Es|done|done].
        * unfold set_phase. eapply (written_set s t _ _ _ _ _ _ []); [done|done|by rewrite app_nil_r|done|done| |done].
          by rewrite Es.
      + destruct (ss_push C enc TagMessage (encode_api a)) as [c enc'] eqn:Ep.
        destruct (frame_send c) as [b|e] eqn:Ef.
        * unfold set_phase. eapply (written_set s t _ _ _ _ _ _ []); [done|done|by rewrite app_nil_r|done|by left| |].
          -- intros Hs. destruct W as (_ & W2 & _). by rewrite (W2 t _ Et) in Hs.
          -- exists enc, (n_wire s), []. split; [|by rewrite app_nil_r]. unfold frame_of. by rewrite Ep.
        * unfold finish. eapply (written_set s t _ _ _ _ _ _ []); [done|done|by rewrite app_nil_r|done|done|by right|done].
      + unfold finish, set_dead. cbn [n_tasks n_wire n_dead].
        eapply (written_set s t _ _ _ _ _ _ []); [done|done|by rewrite app_nil_r|done|done|by right|done].
      + assert (forall dead e, written (finish C (Snd _ (n_permit s) (n_slot s) (n_wire s) dead (n_tasks s)) t (JSend a) (Err e) enc)) as Herr.
        { intros dead e. unfold finish. cbn [n_tasks n_wire n_dead].
          eapply (written_set s t _ _ _ _ _ _ []); [done|done|by rewrite app_nil_r|done|done|by right|done]. }
        destruct (n_dead s) eqn:Ed.
        { specialize (Herr (n_dead s) (str "BrokenPipe")). by destruct s. }
        destruct fail; [apply Herr|].
        pose proof W as (_ & W2 & W3 & _). destruct (W3 t a enc todo Et) as (st & pre & w & E1 & E2).
        assert (frame_of st a = Ok ((w ++ take k todo) ++ drop k todo)) as E1'.
        { by rewrite <- app_assoc, take_drop. }
        assert (n_wire s ++ take k todo = pre ++ (w ++ take k todo)) as E2' by (by rewrite E2, <- app_assoc).
        destruct (drop k todo) as [|b rest].
        * unfold finish. cbn [n_tasks n_wire n_dead].
          eapply (written_set s t _ _ _ _ _ _ (take k todo)); [done|done|done|done|done|by right|].
          exists st, pre, (w ++ take k todo), []. split; [by rewrite E1', app_nil_r|by rewrite app_nil_r].
        * unfold set_phase. cbn [n_tasks n_wire n_dead n_permit n_slot].
          eapply (written_set s t _ _ _ _ _ _ (take k todo)); [done|done|done|done|by left| |].
          -- intros Hs. by rewrite (W2 t _ Et) in Hs.
          -- exists st, pre, (w ++ take k todo). done.
    - unfold drop_task. destruct (n_tasks s !! t) as [[j|j enc|a enc todo|j r| |]|] eqn:Et; try done.
      + unfold set_phase. eapply (written_set s t _ _ _ _ _ _ []); [done|done|by rewrite app_nil_r|done|done|by left|done].
      + eapply (written_set s t _ _ _ _ _ _ []); [done|done|by rewrite app_nil_r|done|done|by left|done].
      + eapply (written_set s t _ _ _ _ _ _ []); [done|done|by rewrite app_nil_r|done|done|by left|done].
  Qed.

  Lemma written_run st evs : written (srun C st evs).
  Proof.
    induction evs as [|e evs IH] using rev_ind.
    - split_and!; cbn; intros *; rewrite ?lookup_empty; done.
    - unfold srun in *. rewrite fold_left_app. by apply written_step.
  Qed.
End Reported.

(** A call that reports success has put the whole frame of its message on the wire, in
    one piece, whichever calls were abandoned or refused; in particular its message was
    not too long. *)
Theorem C31_reported :
  forall C, CryptoOk C ->
  forall st evs tid a,
    n_tasks (srun C st evs) !! tid = Some (PDone (JSend a) (Ok tt)) ->
    fits a = true
    /\ exists st' before after f,
         frame_send (ss_push C st' TagMessage (encode_api a)).1 = Ok f
         /\ n_wire (srun C st evs) = before ++ f ++ after.
Proof.
  intros C CK st evs tid a Ht. destruct (written_run C st evs) as (_ & _ & _ & W4).
  destruct (W4 tid a Ht) as (st' & pre & f & post & E1 & E2). split.
  - unfold frame_of, frame_send in E1. destruct (MAX_FRAME <? _)%N eqn:E; [done|].
    unfold fits. rewrite <- (ss_push_len C CK st' TagMessage (encode_api a)). lia.
  - by exists st', pre, post, f.
Qed.
Print Assumptions C31_reported.

(** Call 1 is too long and is refused, call 2 is abandoned half way, call 3 panics. *)
Example C31_reported_ex :
  let long := ReqHello (repeat x07 (N.to_nat 8200)) in
  let s := srun toy ex_toy_state
    [SvCall 1 (JSend long); SvCall 2 (JSend (ReqHello (str "b"))); SvCall 3 (JSend (ReqHello (str "c")));
     SvPoll 1 0 false; SvPoll 1 0 false; SvPoll 2 0 false; SvPoll 2 0 false; SvPoll 2 9 false; SvDrop 2;
     SvPoll 3 0 false] in
  match n_tasks s !! 1, n_tasks s !! 2, n_tasks s !! 3 with
  | Some (PDone (JSend _) (Err _)), Some PDropped, Some PPanic => True
  | _, _, _ => False
  end
  /\ match n_tasks (srun toy ex_toy_state [SvCall 2 (JSend (ReqHello (str "b"))); SvPoll 2 0 false;
         SvPoll 2 0 false; SvPoll 2 9 false; SvPoll 2 99 false]) !! 2 with
     | Some (PDone (JSend a) (Ok _)) => a = ReqHello (str "b") | _ => False end.
Proof. split; vm_compute; [exact I|reflexivity]. Qed.

(** *** As long as the transport works *)

(** The transport took what it was given; nobody shut the sender down. *)
Definition no_failure (evs : list sevent) : Prop := forall t k, SvPoll t k true ∉ evs.
Definition no_shutdown (evs : list sevent) : Prop := forall t, SvCall t JShutdown ∉ evs.

Section Working.
  Variable C : Crypto.
  Hypothesis CK : CryptoOk C.

  Lemma frame_send_fits st a :
    frame_send (ss_push C st TagMessage (encode_api a)).1
    = if fits a then Ok (le_bytes 2 (N.of_nat (length (ss_push C st TagMessage (encode_api a)).1))
                           ++ (ss_push C st TagMessage (encode_api a)).1)
      else Err (str "FrameOverflow").
  Proof.
    unfold frame_send, fits. rewrite (ss_push_len C CK st TagMessage (encode_api a)).
    destruct (N.ltb_spec MAX_FRAME (N.of_nat (length (encode_api a) + ABYTES)));
      destruct (N.leb_spec (N.of_nat (length (encode_api a) + ABYTES)) MAX_FRAME); done || lia.
  Qed.

  (** What a call may have come to. *)
  Definition healthy (shut : bool) (p : phase C) : Prop :=
    match p with
    | PWait JShutdown | PTaken JShutdown _ => shut = true
    | PWrite a _ _ => fits a = true
    | PDone (JSend a) r =>
        r = (if fits a then Ok tt else Err (str "FrameOverflow")) \/ shut = true
    | PDone JShutdown r => shut = true /\ r = Ok tt
    | _ => True
    end.

  Lemma healthy_step shut s e :
    (forall t k, e <> SvPoll t k true) -> (shut = false -> forall t, e <> SvCall t JShutdown) ->
    (shut = false -> n_dead s = false) -> (forall t p, n_tasks s !! t = Some p -> healthy shut p) ->
    (shut = false -> n_dead (sstep C s e) = false)
    /\ forall t p, n_tasks (sstep C s e) !! t = Some p -> healthy shut p.
  Proof.
    intros Hf Hs Hd Ht.
    assert (Hput : forall u q, healthy shut q -> forall t p, <[u := q]> (n_tasks s) !! t = Some p -> healthy shut p).
    { intros u q Hq t p H. apply lookup_insert_Some in H as [[_ <-]|[_ H]]; [done|by eapply Ht]. }
    destruct e as [t j|t k fail|t]; cbn [sstep].
    - destruct (n_tasks s !! t); [done|]. split; [done|]. apply Hput. destruct j; [done|].
      destruct shut; [done|]. by destruct (Hs eq_refl t).
    - destruct fail; [by destruct (Hf t k)|]. unfold poll.
      destruct (n_tasks s !! t) as [[j|[a|] enc|a enc todo|j r| |]|] eqn:Et; try done.
      + destruct (n_permit s); [|done]. destruct (n_slot s) as [enc|]; (split; [done|]); apply Hput; [|done].
        pose proof (Ht t _ Et) as H. by destruct j.
      + pose proof (frame_send_fits enc a) as Hfs.
        destruct (ss_push C enc TagMessage (encode_api a)) as [c enc']. cbn [fst] in Hfs.
        destruct (frame_send c) as [b|e] eqn:Ef; (split; [done|]); apply Hput; cbn [healthy].
        * by destruct (fits a).
        * left. destruct (fits a); congruence.
      + pose proof (Ht t _ Et) as H. cbn in H. split; [congruence|]. by apply Hput.
      + pose proof (Ht t _ Et) as H. cbn in H. destruct (n_dead s) eqn:Ed.
        * destruct shut; [|by discriminate (Hd eq_refl)]. split; [done|]. apply Hput. by right.
        * destruct (drop k todo); (split; [done|]); apply Hput; [|done]. left. by rewrite H.
    - unfold drop_task. destruct (n_tasks s !! t) as [[j|j enc|a enc todo|j r| |]|] eqn:Et; try done;
        (split; [done|]); by apply Hput.
  Qed.

  Lemma healthy_run shut st evs :
    no_failure evs -> (shut = false -> no_shutdown evs) ->
    (shut = false -> n_dead (srun C st evs) = false)
    /\ forall t p, n_tasks (srun C st evs) !! t = Some p -> healthy shut p.
  Proof.
    induction evs as [|e evs IH] using rev_ind; intros Hf Hs.
    - split; [done|]. cbn. intros t p. by rewrite lookup_empty.
    - unfold srun in *. rewrite fold_left_app. cbn [fold_left].
      destruct IH as [I1 I2].
      { intros t k H. apply (Hf t k), elem_of_app. by left. }
      { intros E t H. apply (Hs E t), elem_of_app. by left. }
      apply healthy_step; [| |done|done].
      + intros t k ->. apply (Hf t k), elem_of_app. right. apply elem_of_list_here.
      + intros E t ->. apply (Hs E t), elem_of_app. right. apply elem_of_list_here.
  Qed.
End Working.

(** As long as the transport does not fail and nobody shuts down, a send fails only if its message
    is too long; and shutting down fails only if the transport does. *)
Theorem C31_works :
  forall C, CryptoOk C ->
  forall st evs tid j r,
    no_failure evs -> n_tasks (srun C st evs) !! tid = Some (PDone j r) ->
    match j with
    | JSend a => no_shutdown evs -> r = if fits a then Ok tt else Err (str "FrameOverflow")
    | JShutdown => r = Ok tt
    end.
Proof.
  intros C CK st evs tid j r Hf Ht. destruct j as [a|].
  - intros Hs. destruct (healthy_run C CK false st evs Hf (fun _ => Hs)) as [_ H].
    destruct (H tid _ Ht) as [E|E]; [exact E|discriminate E].
  - destruct (healthy_run C CK true st evs Hf) as [_ H]; [done|]. exact (proj2 (H tid _ Ht)).
Qed.
Print Assumptions C31_works.

Example C31_works_ex :
  let evs := [SvCall 1 (JSend (ReqHello (str "a"))); SvCall 2 (JSend (ReqHello (repeat x07 (N.to_nat 8200))));
     SvPoll 1 0 false; SvPoll 1 0 false; SvPoll 1 99 false; SvPoll 2 0 false; SvPoll 2 0 false] in
  let shut := [SvCall 3 JShutdown; SvPoll 3 0 false; SvPoll 3 0 false] in
  no_failure (evs ++ shut) /\ no_shutdown evs
  /\ match n_tasks (srun toy ex_toy_state (evs ++ shut)) !! 1, n_tasks (srun toy ex_toy_state (evs ++ shut)) !! 2,
           n_tasks (srun toy ex_toy_state (evs ++ shut)) !! 3 with
     | Some (PDone (JSend _) (Ok _)), Some (PDone (JSend _) (Err _)), Some (PDone JShutdown (Ok _)) => True
     | _, _, _ => False
     end.
Proof.
  split; [|split].
  - intros t k H. apply elem_of_list_In in H. cbn [In app] in H. repeat (destruct H as [H|H]; [discriminate H|]). done.
  - intros t H. apply elem_of_list_In in H. cbn [In app] in H. repeat (destruct H as [H|H]; [discriminate H|]). done.
  - vm_compute. done.
Qed.

Definition ex_senders : list sevent :=
  [SvCall 1 (JSend (ReqHello (str "a"))); SvCall 2 (JSend (ReqHello (str "b"))); SvPoll 2 0 false;
   SvPoll 1 0 false; SvPoll 2 0 false; SvPoll 2 9 false; SvPoll 1 5 false].

(** Call 2 has the sender and has written 9 bytes, call 1 waits.  When call 2 goes on both are
    delivered; when it is abandoned call 1 panics, and the receiver gets nothing. *)
Example C31_ex :
  holding toy (srun toy ex_toy_state ex_senders) 2
  /\ match n_tasks (srun toy ex_toy_state ex_senders) !! 1 with
     | Some (PWait (JSend a)) => a = ReqHello (str "a") | _ => False end
  /\ (let s := srun toy ex_toy_state (ex_senders ++
        [SvPoll 2 99 false; SvPoll 1 0 false; SvPoll 1 0 false; SvPoll 1 99 false]) in
      messages toy ex_toy_state [n_wire s]
      = ([ReqHello (str "b"); ReqHello (str "a")], Ended eof))
  /\ (let s := srun toy ex_toy_state (ex_senders ++ [SvDrop 2; SvPoll 1 0 false]) in
      match n_tasks s !! 1 with Some PPanic => True | _ => False end
      /\ messages toy ex_toy_state [n_wire s] = ([], Ended eof)).
Proof.
  split; [|split; [vm_compute; reflexivity|split; [vm_compute; reflexivity|]]].
  - assert (match n_tasks (srun toy ex_toy_state ex_senders) !! 2 with
            | Some p => holds_sender toy p | None => false end = true) as H by (vm_compute; reflexivity).
    unfold holding. destruct (n_tasks _ !! 2) as [p|]; [by exists p|done].
  - cbn zeta. split; vm_compute; [exact I|reflexivity].
Qed.

(** Whether a third call can come to its end, when call 2 went on and when it was abandoned. *)
Example C31_exactly_ex :
  n_tasks (srun toy ex_toy_state (ex_senders ++ [SvDrop 2])) !! 3 = None
  /\ match n_tasks (srun toy ex_toy_state (ex_senders ++ [SvPoll 2 99 false] ++ SvCall 3 (JSend (ReqHello (str "c")))
         :: [SvPoll 3 0 false; SvPoll 3 0 false; SvPoll 3 99 false])) !! 3 with
     | Some (PDone (JSend _) (Ok _)) => True | _ => False end
  /\ match n_tasks (srun toy ex_toy_state (ex_senders ++ [SvDrop 2] ++ SvCall 3 (JSend (ReqHello (str "c")))
         :: [SvPoll 3 0 false; SvPoll 3 0 false; SvPoll 3 99 false])) !! 3 with
     | Some PPanic => True | _ => False end.
Proof. split; [vm_compute; reflexivity|]. split; vm_compute; exact I. Qed.
