(** * MsgpackProofs: a written value is read back, whatever follows it *)

From Coq Require Import ZifyBool ZifyNat ZifyN.
From Verif Require Import Base Msgpack.

(** Values that fit the format. *)
Fixpoint mwf (v : mval) : Prop :=
  match v with
  | MNil | MBool _ => True
  | MUInt n => (n < 2 ^ 64)%N
  | MStr s | MBin s | MExt _ s => (nlen s < 2 ^ 32)%N
  | MArr l => (nlen l < 2 ^ 32)%N /\ fold_right (fun v P => mwf v /\ P) True l
  | MMap l => (nlen l < 2 ^ 32)%N
      /\ fold_right (fun '(k, v) P => (mwf k /\ mwf v) /\ P) True l
  | MOther => False
  end.

Fixpoint mdepth (v : mval) : nat :=
  match v with
  | MArr l => S (fold_right (fun v d => Nat.max (mdepth v) d) 0 l)
  | MMap l => S (fold_right (fun '(k, v) d => Nat.max (Nat.max (mdepth k) (mdepth v)) d) 0 l)
  | _ => 1
  end.

Lemma mval_ind' (P : mval -> Prop) :
  P MNil -> (forall b, P (MBool b)) -> (forall n, P (MUInt n)) ->
  (forall s, P (MStr s)) -> (forall s, P (MBin s)) ->
  (forall l, Forall P l -> P (MArr l)) ->
  (forall l, Forall (fun kv => P (fst kv) /\ P (snd kv)) l -> P (MMap l)) ->
  (forall t s, P (MExt t s)) ->
  P MOther -> forall v, P v.
Proof.
  intros H0 H1 H2 H3 H4 H5 H6 H8 H7.
  fix IH 1. intros [|b|n|s|s|l|l|t s|].
  - apply H0.
  - apply H1.
  - apply H2.
  - apply H3.
  - apply H4.
  - apply H5. induction l as [|v l IHl]; constructor; [apply IH|apply IHl].
  - apply H6. induction l as [|[k v] l IHl]; constructor; [split; apply IH|apply IHl].
  - apply H8.
  - apply H7.
Qed.

Lemma pow256_1 : (256 ^ N.of_nat 1 = 256)%N. Proof. reflexivity. Qed.
Lemma pow256_2 : (256 ^ N.of_nat 2 = 65536)%N. Proof. reflexivity. Qed.
Lemma pow256_4 : (256 ^ N.of_nat 4 = 4294967296)%N. Proof. reflexivity. Qed.
Lemma pow256_8 : (256 ^ N.of_nat 8 = 18446744073709551616)%N. Proof. reflexivity. Qed.

Lemma rd_be_ok k n r : (n < 256 ^ N.of_nat k)%N -> rd_be k (be_bytes k n ++ r) = Some (n, r).
Proof.
  intros H. unfold rd_be. rewrite split_at_app by apply be_bytes_length.
  by rewrite be_val_bytes.
Qed.

Lemma rd_with_ok k f n r : (n < 256 ^ N.of_nat k)%N -> rd_with k f (be_bytes k n ++ r) = f n r.
Proof. intros H. unfold rd_with. by rewrite rd_be_ok. Qed.

Lemma rd_raw_ok s r : rd_raw (nlen s) (s ++ r) = Some (s, r).
Proof.
  unfold rd_raw, nlen. rewrite app_length.
  destruct (N.leb_spec (N.of_nat (length s)) (N.of_nat (length s + length r))); [|lia].
  rewrite Nat2N.id. by apply split_at_app.
Qed.

Lemma rd_seq_ok {A} (d : bytes -> option (A * bytes)) (e : A -> bytes) l r :
  Forall (fun v => forall r, d (e v ++ r) = Some (v, r)) l ->
  rd_seq d (length l) (concat (map e l) ++ r) = Some (l, r).
Proof.
  induction 1 as [|v l Hv Hl IH]; [done|].
  cbn [map concat length rd_seq]. rewrite <- app_assoc, Hv, IH. done.
Qed.

Lemma enc_nonempty v : 1 <= length (enc v).
Proof.
  destruct v as [|[]|n|s|s|l|l|t s|]; cbn [enc]; unfold enc_uint, enc_str_len, enc_bin_len,
    enc_arr_len, enc_map_len, enc_ext_len; rewrite ?app_length;
  repeat match goal with |- context [if ?c then _ else _] => destruct c end;
  cbn [length]; lia.
Qed.

Lemma concat_map_length_ge {A} (e : A -> bytes) l :
  (forall v, 1 <= length (e v)) -> length l <= length (concat (map e l)).
Proof.
  intros H. induction l as [|v l IH]; [done|]. cbn [map concat length].
  rewrite app_length. pose proof (H v). lia.
Qed.

(** One step of [dec] on a marker byte. *)
Ltac dec_marker :=
  repeat match goal with
  | |- context [(?x <? ?y)%N] => destruct (N.ltb_spec x y); try lia
  | |- context [(?x =? ?y)%N] => destruct (N.eqb_spec x y); try lia
  end.

Lemma dec_bn d m r :
  (m < 256)%N -> dec (S d) (bn m :: r) =
      (if m <? 128 then Some (MUInt m, r)
       else if m <? 144 then rd_map (dec d) (m - 128) r
       else if m <? 160 then rd_arr (dec d) (m - 144) r
       else if m <? 192 then rd_str (m - 160) r
       else dec (S d) (bn m :: r))%N.
Proof.
  intros H. cbn [dec]. rewrite nb_bn by done. cbv zeta.
  destruct (N.ltb_spec m 128); [done|].
  destruct (N.ltb_spec m 144); [done|].
  destruct (N.ltb_spec m 160); [done|].
  destruct (N.ltb_spec m 192); [done|]. done.
Qed.

Lemma dec_uint_ok d n r : (n < 2 ^ 64)%N ->
  dec (S d) (enc_uint n ++ r) = Some (MUInt n, r).
Proof.
  intros H. unfold enc_uint.
  destruct (N.ltb_spec n 128).
  { cbn [app]. rewrite dec_bn by lia. destruct (N.ltb_spec n 128); [done|lia]. }
  destruct (N.ltb_spec n 256).
  { cbn [app]. change (dec (S d) (bn 204 :: be_bytes 1 n ++ r))
      with (rd_with 1 rd_uint (be_bytes 1 n ++ r)).
    rewrite rd_with_ok by (rewrite pow256_1; lia). done. }
  destruct (N.ltb_spec n 65536).
  { cbn [app]. change (dec (S d) (bn 205 :: be_bytes 2 n ++ r))
      with (rd_with 2 rd_uint (be_bytes 2 n ++ r)).
    rewrite rd_with_ok by (rewrite pow256_2; lia). done. }
  destruct (N.ltb_spec n 4294967296).
  { cbn [app]. change (dec (S d) (bn 206 :: be_bytes 4 n ++ r))
      with (rd_with 4 rd_uint (be_bytes 4 n ++ r)).
    rewrite rd_with_ok by (rewrite pow256_4; lia). done. }
  cbn [app]. change (dec (S d) (bn 207 :: be_bytes 8 n ++ r))
      with (rd_with 8 rd_uint (be_bytes 8 n ++ r)).
  rewrite rd_with_ok by (rewrite pow256_8; lia). done.
Qed.

Lemma dec_str_len_ok d n r : (n < 2 ^ 32)%N ->
  dec (S d) (enc_str_len n ++ r) = rd_str n r.
Proof.
  intros H. unfold enc_str_len.
  destruct (N.ltb_spec n 32).
  { cbn [app]. rewrite dec_bn by lia. dec_marker. f_equal; lia. }
  destruct (N.ltb_spec n 256).
  { cbn [app]. change (dec (S d) (bn 217 :: be_bytes 1 n ++ r))
      with (rd_with 1 rd_str (be_bytes 1 n ++ r)).
    by rewrite rd_with_ok by (rewrite pow256_1; lia). }
  destruct (N.ltb_spec n 65536).
  { cbn [app]. change (dec (S d) (bn 218 :: be_bytes 2 n ++ r))
      with (rd_with 2 rd_str (be_bytes 2 n ++ r)).
    by rewrite rd_with_ok by (rewrite pow256_2; lia). }
  cbn [app]. change (dec (S d) (bn 219 :: be_bytes 4 n ++ r))
      with (rd_with 4 rd_str (be_bytes 4 n ++ r)).
  by rewrite rd_with_ok by (rewrite pow256_4; lia).
Qed.

Lemma dec_bin_len_ok d n r : (n < 2 ^ 32)%N ->
  dec (S d) (enc_bin_len n ++ r) = rd_bin n r.
Proof.
  intros H. unfold enc_bin_len.
  destruct (N.ltb_spec n 256).
  { cbn [app]. change (dec (S d) (bn 196 :: be_bytes 1 n ++ r))
      with (rd_with 1 rd_bin (be_bytes 1 n ++ r)).
    by rewrite rd_with_ok by (rewrite pow256_1; lia). }
  destruct (N.ltb_spec n 65536).
  { cbn [app]. change (dec (S d) (bn 197 :: be_bytes 2 n ++ r))
      with (rd_with 2 rd_bin (be_bytes 2 n ++ r)).
    by rewrite rd_with_ok by (rewrite pow256_2; lia). }
  cbn [app]. change (dec (S d) (bn 198 :: be_bytes 4 n ++ r))
      with (rd_with 4 rd_bin (be_bytes 4 n ++ r)).
  by rewrite rd_with_ok by (rewrite pow256_4; lia).
Qed.

Lemma dec_arr_len_ok d n r : (n < 2 ^ 32)%N ->
  dec (S d) (enc_arr_len n ++ r) = rd_arr (dec d) n r.
Proof.
  intros H. unfold enc_arr_len.
  destruct (N.ltb_spec n 16).
  { cbn [app]. rewrite dec_bn by lia. dec_marker. f_equal; lia. }
  destruct (N.ltb_spec n 65536).
  { cbn [app]. change (dec (S d) (bn 220 :: be_bytes 2 n ++ r))
      with (rd_with 2 (rd_arr (dec d)) (be_bytes 2 n ++ r)).
    by rewrite rd_with_ok by (rewrite pow256_2; lia). }
  cbn [app]. change (dec (S d) (bn 221 :: be_bytes 4 n ++ r))
      with (rd_with 4 (rd_arr (dec d)) (be_bytes 4 n ++ r)).
  by rewrite rd_with_ok by (rewrite pow256_4; lia).
Qed.

Lemma dec_map_len_ok d n r : (n < 2 ^ 32)%N ->
  dec (S d) (enc_map_len n ++ r) = rd_map (dec d) n r.
Proof.
  intros H. unfold enc_map_len.
  destruct (N.ltb_spec n 16).
  { cbn [app]. rewrite dec_bn by lia. dec_marker. f_equal; lia. }
  destruct (N.ltb_spec n 65536).
  { cbn [app]. change (dec (S d) (bn 222 :: be_bytes 2 n ++ r))
      with (rd_with 2 (rd_map (dec d)) (be_bytes 2 n ++ r)).
    by rewrite rd_with_ok by (rewrite pow256_2; lia). }
  cbn [app]. change (dec (S d) (bn 223 :: be_bytes 4 n ++ r))
      with (rd_with 4 (rd_map (dec d)) (be_bytes 4 n ++ r)).
  by rewrite rd_with_ok by (rewrite pow256_4; lia).
Qed.

Lemma dec_ext_len_ok d n t r : (n < 2 ^ 32)%N ->
  dec (S d) (enc_ext_len n ++ t :: r) = rd_ext n (t :: r).
Proof.
  intros H. unfold enc_ext_len.
  destruct (N.eqb_spec n 1) as [->|]; [done|]. destruct (N.eqb_spec n 2) as [->|]; [done|].
  destruct (N.eqb_spec n 4) as [->|]; [done|]. destruct (N.eqb_spec n 8) as [->|]; [done|].
  destruct (N.eqb_spec n 16) as [->|]; [done|].
  destruct (N.ltb_spec n 256).
  { cbn [app]. change (dec (S d) (bn 199 :: be_bytes 1 n ++ t :: r))
      with (rd_with 1 rd_ext (be_bytes 1 n ++ t :: r)).
    by rewrite rd_with_ok by (rewrite pow256_1; lia). }
  destruct (N.ltb_spec n 65536).
  { cbn [app]. change (dec (S d) (bn 200 :: be_bytes 2 n ++ t :: r))
      with (rd_with 2 rd_ext (be_bytes 2 n ++ t :: r)).
    by rewrite rd_with_ok by (rewrite pow256_2; lia). }
  cbn [app]. change (dec (S d) (bn 201 :: be_bytes 4 n ++ t :: r))
      with (rd_with 4 rd_ext (be_bytes 4 n ++ t :: r)).
  by rewrite rd_with_ok by (rewrite pow256_4; lia).
Qed.

Lemma mdepth_pos v : 1 <= mdepth v.
Proof. destruct v; simpl; lia. Qed.

Lemma dec_enc v : forall d r, mwf v -> mdepth v <= d -> dec d (enc v ++ r) = Some (v, r).
Proof.
  induction v as [|b|n|s|s|l IH|l IH|t s|] using mval_ind'; intros d r Hwf Hd;
    (destruct d as [|d]; [cbn in Hd; lia|]).
  - done.
  - by destruct b.
  - by apply dec_uint_ok.
  - cbn [enc]. rewrite <- app_assoc, dec_str_len_ok by done.
    unfold rd_str. by rewrite rd_raw_ok.
  - cbn [enc]. rewrite <- app_assoc, dec_bin_len_ok by done.
    unfold rd_bin. by rewrite rd_raw_ok.
  - cbn [enc]. cbn [mwf] in Hwf. destruct Hwf as [Hn Hl]. cbn [mdepth] in Hd.
    rewrite <- app_assoc, dec_arr_len_ok by done.
    unfold rd_arr, nlen. rewrite app_length.
    pose proof (concat_map_length_ge enc l enc_nonempty).
    destruct (N.leb_spec (N.of_nat (length l))
      (N.of_nat (length (concat (map enc l)) + length r))); [|lia].
    rewrite Nat2N.id, rd_seq_ok; [done|].
    clear Hn H H0. apply le_S_n in Hd. revert Hl Hd. induction IH as [|v l Hv _ IHl]; [constructor|].
    cbn [fold_right]. intros [Hw Hl] Hd. constructor.
    + intros r'. apply Hv; [done|lia].
    + apply IHl; [done|lia].
  - cbn [enc]. cbn [mwf] in Hwf. destruct Hwf as [Hn Hl]. cbn [mdepth] in Hd.
    rewrite <- app_assoc, dec_map_len_ok by done.
    unfold rd_map, nlen. rewrite app_length.
    assert (Hlen : length l <= length (concat (map (fun '(k, v) => enc k ++ enc v) l))).
    { apply concat_map_length_ge. intros [k v]. rewrite app_length.
      pose proof (enc_nonempty k). lia. }
    destruct (N.leb_spec (N.of_nat (length l))
      (N.of_nat (length (concat (map (fun '(k, v) => enc k ++ enc v) l)) + length r))); [|lia].
    rewrite Nat2N.id, rd_seq_ok; [done|].
    clear Hn H Hlen. apply le_S_n in Hd. revert Hl Hd. induction IH as [|[k v] l [Hk Hv] _ IHl]; [constructor|].
    cbn [fold_right]. intros [[Hwk Hwv] Hl] Hd. constructor.
    + intros r'. unfold rd_pair. rewrite <- app_assoc. cbn [fst snd] in *.
      rewrite Hk by (done || lia). rewrite Hv by (done || lia). done.
    + apply IHl; [done|lia].
  - cbn [enc]. rewrite <- app_assoc. cbn [app]. rewrite dec_ext_len_ok by done.
    unfold rd_ext. by rewrite rd_raw_ok.
  - done.
Qed.

Lemma decode_first_enc v r : mwf v -> mdepth v <= MAX_DEPTH ->
  decode_first (enc v ++ r) = Some v.
Proof. intros. unfold decode_first. by rewrite dec_enc. Qed.

Lemma enc_inj v w r : mwf v -> mwf w -> mdepth v <= MAX_DEPTH -> mdepth w <= MAX_DEPTH ->
  enc v = enc w ++ r -> v = w.
Proof.
  intros Hv Hw Dv Dw E.
  pose proof (decode_first_enc v [] Hv Dv) as A. rewrite app_nil_r, E in A.
  rewrite (decode_first_enc w r Hw Dw) in A. by injection A.
Qed.
