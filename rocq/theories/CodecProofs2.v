(** * CodecProofs2: the byte level of the codecs, both ways *)

From Coq Require Import ZifyBool ZifyNat ZifyN.
From Verif Require Import Base Utf8 Base64 Base64Proofs Msgpack MsgpackProofs Types Codec
  CodecProofs.

(** ** Written values fit the format *)

Lemma nlen_map {A B} (f : A -> B) l : nlen (map f l) = nlen l.
Proof. unfold nlen. by rewrite map_length. Qed.

Lemma fold_Forall {A} (P : A -> Prop) l :
  Forall P l <-> fold_right (fun v Q => P v /\ Q) True l.
Proof.
  split.
  - induction 1; cbn [fold_right]; auto.
  - induction l; cbn [fold_right]; [constructor|]. intros [? ?]. constructor; auto.
Qed.

Lemma fold_Forall2 {A B} (P : A -> Prop) (R : B -> Prop) l :
  Forall (fun kv => P (fst kv) /\ R (snd kv)) l
  <-> fold_right (fun '(k, v) Q => (P k /\ R v) /\ Q) True l.
Proof.
  split.
  - induction 1 as [|[k v]]; cbn [fold_right]; auto.
  - induction l as [|[k v]]; cbn [fold_right]; [constructor|]. intros [? ?]. constructor; auto.
Qed.

Lemma mwf_arr l : (nlen l < 2 ^ 32)%N -> Forall mwf l -> mwf (MArr l).
Proof. intros H F. split; [done|]. by apply fold_Forall. Qed.

Lemma mwf_wmap l : (nlen l < 2 ^ 32)%N ->
  Forall (fun kv => (nlen (fst kv) < 2 ^ 32)%N /\ mwf (snd kv)) l -> mwf (wmap l).
Proof.
  intros H F. unfold wmap. split; [by rewrite nlen_map|].
  clear H. apply (fold_Forall2 mwf mwf). rewrite Forall_map.
  eapply Forall_impl; [exact F|]. by intros [k v] [? ?].
Qed.

Lemma mdepth_arr d l : Forall (fun v => mdepth v <= d) l -> mdepth (MArr l) <= S d.
Proof.
  intros F. cbn [mdepth]. apply le_n_S. induction F; cbn [fold_right]; lia.
Qed.

Lemma mdepth_wmap d l : 1 <= d -> Forall (fun kv => mdepth (snd kv) <= d) l ->
  mdepth (wmap l) <= S d.
Proof.
  intros Hd F. cbn [wmap mdepth]. apply le_n_S.
  induction F as [|[k v] l H F IH]; cbn in *; lia.
Qed.

Definition fits (d : nat) (v : mval) : Prop := mwf v /\ mdepth v <= d.

Lemma fits_le d d' v : d <= d' -> fits d v -> fits d' v.
Proof. intros ? [? ?]. split; [done|lia]. Qed.

Lemma fits_wmap d l : 1 <= d -> (nlen l < 2 ^ 32)%N ->
  Forall (fun kv => (nlen (fst kv) < 2 ^ 32)%N /\ fits d (snd kv)) l -> fits (S d) (wmap l).
Proof.
  intros Hd H F. split.
  - apply mwf_wmap; [done|]. eapply Forall_impl; [exact F|]. by intros [k v] [? [? ?]].
  - apply mdepth_wmap; [done|]. eapply Forall_impl; [exact F|]. by intros [k v] [? [? ?]].
Qed.

Lemma fits_arr d l : (nlen l < 2 ^ 32)%N -> Forall (fits d) l -> fits (S d) (MArr l).
Proof.
  intros H F. split.
  - apply mwf_arr; [done|]. eapply Forall_impl; [exact F|]. by intros ? [? ?].
  - apply mdepth_arr. eapply Forall_impl; [exact F|]. by intros ? [? ?].
Qed.

Lemma fits_str s : text_ok s -> fits 1 (MStr s).
Proof. intros [_ H]. split; [exact H|done]. Qed.

Lemma fits_bin s : bin_ok s -> fits 1 (wbin s).
Proof. intros H. split; [|done]. cbn. by apply b64_len_lt. Qed.

Lemma bin_ok_small n s : length s = n -> (N.of_nat n < 3 * 2 ^ 30)%N -> bin_ok s.
Proof. by intros <-. Qed.

Lemma fits_warr s : arr_ok s -> fits 2 (warr s).
Proof.
  intros H. apply fits_arr; [unfold nlen; by rewrite map_length|].
  apply Forall_forall. intros v (b & -> & _)%elem_of_list_fmap.
  split; [|done]. cbn [mwf]. pose proof (nb_lt b). lia.
Qed.

Lemma fits_uint n : u32_ok n -> fits 1 (MUInt n).
Proof. unfold u32_ok. intros H. split; [|done]. cbn [mwf]. lia. Qed.

Lemma fits_bool b : fits 1 (MBool b).
Proof. done. Qed.

Lemma fits_usecret s : usecret_ok s -> fits 2 (wsecret s).
Proof.
  intros [H1 H2]. apply fits_arr; [done|].
  repeat constructor; apply fits_bin; [|done]. by eapply bin_ok_small.
Qed.

Lemma fits_secret s : secret_ok 49 s \/ secret_ok 81 s -> fits 2 (wsecret s).
Proof.
  intros H. apply fits_usecret. destruct H as [[H1 H2]|[H1 H2]]; split; try done;
    by eapply bin_ok_small.
Qed.

Ltac fit_entry :=
  split; [vm_compute; reflexivity|].

Lemma fits_seed_info si : seed_info_ok si -> fits 2 (wseed_info si).
Proof.
  intros [H1 H2]. destruct si as [ed x []]; cbn in H1, H2;
    apply fits_wmap; try done; cbn [si_ed si_x si_exportable app];
    repeat constructor; cbn [fst snd];
    try (apply fits_bin; by eapply bin_ok_small).
Qed.

Lemma fits_cert_info ci : cert_info_ok ci -> fits 2 (wcert_info ci).
Proof.
  intros (H1 & H2 & H3). apply fits_wmap; try done.
  repeat constructor; cbn [fst snd];
    first [by apply fits_str | apply fits_bin; done | apply fits_bin; by eapply bin_ok_small].
Qed.

Lemma fits_dlp d : dlp_ok d -> fits 3 (wdlp d).
Proof.
  intros (H1 & H2 & H3). apply fits_wmap; [lia|done|].
  repeat (apply Forall_cons; split; [split; [done|]|]); [..|by apply Forall_nil]; cbn [snd].
  - eapply fits_le; [|by apply fits_uint]. lia.
  - eapply fits_le; [|by apply fits_uint]. lia.
  - apply fits_secret. auto.
Qed.

Ltac fit :=
  first
  [ eapply (fits_le 1); [lia|]; by apply fits_str
  | eapply (fits_le 1); [lia|]; apply fits_bin; by eapply bin_ok_small
  | eapply (fits_le 1); [lia|]; by apply fits_uint
  | eapply (fits_le 1); [lia|]; by apply fits_bool
  | eapply (fits_le 2); [lia|]; by apply fits_warr
  | eapply (fits_le 2); [lia|]; apply fits_warr; unfold arr_ok;
      match goal with H : length ?s = 24 |- context [length ?s] => rewrite H; done end
  | eapply (fits_le 2); [lia|]; by apply fits_usecret
  | eapply (fits_le 2); [lia|]; apply fits_secret; by auto
  | eapply (fits_le 2); [lia|]; by apply fits_seed_info
  | eapply (fits_le 2); [lia|]; by apply fits_cert_info
  | eapply (fits_le 3); [lia|]; by apply fits_dlp ].

Ltac fit_fields :=
  cbn [app wopt];
  repeat (apply Forall_cons; split; [split; [vm_compute; reflexivity|cbn [snd]]|]);
  [..|by apply Forall_nil].

Lemma text_ok_lit s : utf8 (str s) = true -> (N.of_nat (length (str s)) < 2 ^ 32)%N ->
  text_ok (str s).
Proof. by split. Qed.

Ltac fit_type := eapply (fits_le 1); [lia|]; apply fits_str, text_ok_lit; vm_compute; reflexivity.

Lemma fits_info e : entry_info_ok e -> fits 3 (winfo e).
Proof.
  destruct e; intros [H1 H2]; (apply fits_wmap; [lia|vm_compute; reflexivity|]);
    fit_fields; first [fit_type|fit].
Qed.

Lemma fits_entry e : entry_ok e -> fits 3 (wentry e).
Proof.
  destruct e; cbn [entry_ok]; intros H; destruct_and?;
    (apply fits_wmap; [lia|vm_compute; reflexivity|]);
    fit_fields; first [fit_type|fit].
Qed.

Lemma fits_api a : api_ok a -> fits 5 (wapi a).
Proof.
  intros [Hid H]; unfold wapi; cbv zeta;
  destruct a; cbn [msg_id] in Hid; destruct_and?;
  repeat match goal with
  | o : option _ |- _ => destruct o; cbn [opt_ok] in *; cbn [wopt]
  end;
  try match goal with b : bool |- _ => destruct b end;
  (apply fits_wmap; [lia|vm_compute; reflexivity|]);
  fit_fields; try first [fit_type|fit].
  all: try (eapply (fits_le 3); [lia|]; by apply fits_info).
  all: try (apply fits_arr; [by rewrite nlen_map|];
    apply Forall_forall; intros v (x & -> & Hx)%elem_of_list_fmap;
    match goal with F : Forall ?P ?l |- _ =>
      assert (P x) by (rewrite Forall_forall in F; by apply F) end;
    first [fit | by apply fits_info]).
Qed.

Lemma decode_encode_entry e r : entry_ok e -> decode_entry (encode_entry e ++ r) = Ok e.
Proof.
  intros H. destruct (fits_entry e H) as [Hw Hd].
  unfold decode_entry, encode_entry. rewrite decode_first_enc.
  - cbn [obind]. by rewrite rentry_ok.
  - done.
  - unfold MAX_DEPTH. lia.
Qed.

Lemma decode_encode_api a r : api_ok a -> decode_api (encode_api a ++ r) = Ok a.
Proof.
  intros H. destruct (fits_api a H) as [Hw Hd].
  unfold decode_api, encode_api. rewrite decode_first_enc.
  - cbn [obind]. by rewrite rapi_ok.
  - done.
  - unfold MAX_DEPTH. lia.
Qed.

(** ** Read values have the sizes their types promise *)

Fixpoint msmall (v : mval) : Prop :=
  match v with
  | MNil | MBool _ | MUInt _ | MExt _ _ | MOther => True
  | MStr s | MBin s => (nlen s < 2 ^ 32)%N
  | MArr l => (nlen l < 2 ^ 32)%N /\ fold_right (fun v P => msmall v /\ P) True l
  | MMap l => (nlen l < 2 ^ 32)%N
      /\ fold_right (fun '(k, v) P => (msmall k /\ msmall v) /\ P) True l
  end.

Lemma rd_be_lt k s n r : rd_be k s = Some (n, r) -> (n < 256 ^ N.of_nat k)%N.
Proof.
  unfold rd_be. destruct (split_at k s) as [[a b]|] eqn:E; [|done].
  intros [= <- <-]. apply split_at_Some in E as [_ <-].
  unfold be_val. rewrite <- rev_length. apply le_val_lt.
Qed.

Lemma rd_raw_len n s a r : rd_raw n s = Some (a, r) -> nlen a = n.
Proof.
  unfold rd_raw. destruct (_ <=? _)%N; [|done]. intros [_ H]%split_at_Some.
  unfold nlen. lia.
Qed.

Lemma rd_seq_spec {A} (P : A -> Prop) d n s l r :
  (forall s a r, d s = Some (a, r) -> P a) ->
  rd_seq d n s = Some (l, r) -> length l = n /\ Forall P l.
Proof.
  intros Hd. revert s l r. induction n as [|n IH]; intros s l r; cbn [rd_seq].
  - by intros [= <- <-].
  - destruct (d s) as [[v s']|] eqn:E; [|done].
    destruct (rd_seq d n s') as [[l' s'']|] eqn:E'; [|done].
    intros [= <- <-]. apply IH in E' as [H1 H2]. cbn. split; [lia|].
    constructor; [by eapply Hd|done].
Qed.

Lemma rd_arr_small d n s v r :
  (forall s a r, d s = Some (a, r) -> msmall a) -> (n < 2 ^ 32)%N ->
  rd_arr d n s = Some (v, r) -> msmall v.
Proof.
  intros Hd Hn. unfold rd_arr. destruct (_ <=? _)%N; [|done].
  destruct (rd_seq d (N.to_nat n) s) as [[l s']|] eqn:E; [|done].
  intros [= <- <-]. eapply rd_seq_spec in E as [H1 H2]; [|exact Hd].
  split; [unfold nlen; lia|]. by apply fold_Forall.
Qed.

Lemma rd_map_small d n s v r :
  (forall s a r, d s = Some (a, r) -> msmall a) -> (n < 2 ^ 32)%N ->
  rd_map d n s = Some (v, r) -> msmall v.
Proof.
  intros Hd Hn. unfold rd_map. destruct (_ <=? _)%N; [|done].
  destruct (rd_seq (rd_pair d) (N.to_nat n) s) as [[l s']|] eqn:E; [|done].
  intros [= <- <-].
  eapply (rd_seq_spec (fun kv => msmall (fst kv) /\ msmall (snd kv))) in E as [H1 H2].
  - split; [unfold nlen; lia|]. by apply (fold_Forall2 msmall msmall).
  - intros s0 [a b] r0. unfold rd_pair.
    destruct (d s0) as [[k s1]|] eqn:Ek; [|done].
    destruct (d s1) as [[w s2]|] eqn:Ev; [|done].
    intros [= <- <- <-]. cbn. eauto.
Qed.

Lemma rd_with_small k f s v r (Hk : k = 1 \/ k = 2 \/ k = 4) :
  (forall n s v r, (n < 2 ^ 32)%N -> f n s = Some (v, r) -> msmall v) ->
  rd_with k f s = Some (v, r) -> msmall v.
Proof.
  intros Hf. unfold rd_with. destruct (rd_be k s) as [[n s']|] eqn:E; [|done].
  apply rd_be_lt in E. intros H. eapply Hf; [|exact H].
  destruct Hk as [-> | [-> | ->]]; rewrite ?pow256_1, ?pow256_2, ?pow256_4 in E; lia.
Qed.

Lemma rd_str_small n s v r : (n < 2 ^ 32)%N -> rd_str n s = Some (v, r) -> msmall v.
Proof.
  intros Hn. unfold rd_str. destruct (rd_raw n s) as [[a b]|] eqn:E; [|done].
  intros [= <- <-]. apply rd_raw_len in E. cbn. lia.
Qed.

Lemma rd_bin_small n s v r : (n < 2 ^ 32)%N -> rd_bin n s = Some (v, r) -> msmall v.
Proof.
  intros Hn. unfold rd_bin. destruct (rd_raw n s) as [[a b]|] eqn:E; [|done].
  intros [= <- <-]. apply rd_raw_len in E. cbn. lia.
Qed.

Lemma rd_other_small n s v r : rd_other n s = Some (v, r) -> msmall v.
Proof. unfold rd_other. destruct (rd_raw n s) as [[a b]|]; [|done]. by intros [= <- <-]. Qed.

Lemma rd_ext_small n s v r : rd_ext n s = Some (v, r) -> msmall v.
Proof.
  unfold rd_ext. destruct s as [|t s]; [done|].
  destruct (rd_raw n s) as [[a b]|]; [|done]. by intros [= <- <-].
Qed.

Lemma rd_uint_small k s v r : rd_with k rd_uint s = Some (v, r) -> msmall v.
Proof. unfold rd_with. destruct (rd_be k s) as [[n s']|]; [|done]. by intros [= <- <-]. Qed.

Lemma rd_int_small k s v r : rd_with k (rd_int k) s = Some (v, r) -> msmall v.
Proof.
  unfold rd_with, rd_int. destruct (rd_be k s) as [[n s']|]; [|done].
  destruct (_ <? _)%N; by intros [= <- <-].
Qed.

Lemma dec_small d : forall s v r, dec d s = Some (v, r) -> msmall v.
Proof.
  induction d as [|d IH]; intros s v r; [done|].
  destruct s as [|b s]; [done|]. cbn [dec]. cbv zeta.
  pose proof (nb_lt b) as Hb.
  repeat match goal with
  | |- (if (?x <? ?y)%N then _ else _) = _ -> _ => destruct (N.ltb_spec x y)
  | |- (if (?x =? ?y)%N then _ else _) = _ -> _ => destruct (N.eqb_spec x y)
  end; try (by intros [= <- <-]); try done;
  try (by apply rd_other_small); try (by apply rd_ext_small); try (by apply rd_uint_small); try (by apply rd_int_small);
  try (apply rd_map_small; [exact IH|lia]);
  try (apply rd_arr_small; [exact IH|lia]);
  try (apply rd_str_small; lia);
  (eapply rd_with_small; [lia|]; intros ???? ?;
    first [by apply rd_bin_small | by apply rd_str_small | by eapply rd_ext_small
          | apply rd_map_small; [exact IH|done] | apply rd_arr_small; [exact IH|done]]).
Qed.

Lemma decode_first_small s v : decode_first s = Some v -> msmall v.
Proof.
  unfold decode_first. destruct (dec MAX_DEPTH s) as [[w r]|] eqn:E; [|done].
  intros [= <-]. by eapply dec_small.
Qed.

Definition fsmall (fs : list (bytes * mval)) : Prop := Forall (fun kv => msmall (snd kv)) fs.

Lemma rfields_small names l fs :
  msmall (MMap l) -> rfields names l = Some fs -> fsmall fs.
Proof.
  cbn [msmall]. intros [_ H].
  revert fs H. induction l as [|[k v] l IH]; intros fs H; cbn [rfields].
  - intros [= <-]. constructor.
  - cbn [fold_right] in H. destruct H as [[H1 H2] H].
    unfold obind. destruct (rkey names k); [|done]. destruct (rfields names l) eqn:E; [|done].
    intros [= <-]. constructor; [done|]. by apply IH.
Qed.

Lemma rpos_small l : forall names fs,
  Forall msmall l -> rpos names l = Some fs -> fsmall fs.
Proof.
  induction l as [|v l IH]; intros names fs H; cbn [rpos].
  - intros [= <-]. constructor.
  - inversion H as [|? ? Hv Hl]; subst. destruct names as [|n names]; [done|].
    unfold obind. destruct (rpos names l) as [fs'|] eqn:E; [|done].
    intros [= <-]. constructor; [done|]. by eapply IH.
Qed.

Lemma msmall_arr l : msmall (MArr l) -> (nlen l < 2 ^ 32)%N /\ forall v, v ∈ l -> msmall v.
Proof.
  cbn [msmall]. intros [H F]. split; [done|]. clear H.
  induction l as [|w l IH]; intros v Hin; [by apply elem_of_nil in Hin|].
  cbn in F. destruct F as [F1 F2].
  apply elem_of_cons in Hin as [->|Hin]; [done|by apply IH].
Qed.

Lemma msmall_forall l : msmall (MArr l) -> Forall msmall l.
Proof. intros H. apply Forall_forall. intros v Hv. apply msmall_arr in H as [_ H]. by apply H. Qed.

Lemma rstruct_small names v fs : msmall v -> rstruct names v = Some fs -> fsmall fs.
Proof.
  destruct v as [| | | | |l|l| |]; cbn [rstruct]; try done.
  - intros H. apply rpos_small. by apply msmall_forall.
  - apply rfields_small.
Qed.

Lemma occurrences_small k fs : fsmall fs -> Forall msmall (occurrences k fs).
Proof.
  induction 1 as [|[k' v] fs H F IH]; cbn [occurrences]; [constructor|].
  destruct (beq k' k); [by constructor|done].
Qed.

Lemma req_inv {A} (r : mval -> option A) k fs a :
  fsmall fs -> req r k fs = Some a -> exists v, msmall v /\ r v = Some a.
Proof.
  intros H. pose proof (occurrences_small k fs H) as F. unfold req.
  destruct (occurrences k fs) as [|v [|]]; try done. inversion F. eauto.
Qed.

Lemma dft_inv {A} (r : mval -> option A) d k fs a :
  fsmall fs -> dft r d k fs = Some a -> a = d \/ exists v, msmall v /\ r v = Some a.
Proof.
  intros H. pose proof (occurrences_small k fs H) as F. unfold dft.
  destruct (occurrences k fs) as [|v [|]]; try done; [intros [= <-]; auto|].
  inversion F. eauto.
Qed.

Lemma rtext_inv v s : msmall v -> rtext v = Some s -> text_ok s.
Proof.
  destruct v; cbn; try done; destruct (utf8 s0) eqn:E; try done; by intros H [= <-].
Qed.

Lemma rbin_inv v s : msmall v -> rbin v = Some s -> bin_ok s.
Proof.
  unfold rbin, obind. destruct (rtext v) as [t|] eqn:E; [|done].
  intros Hv. apply rtext_inv in E as [_ Hl]; [|done].
  destruct (from_b64url t) as [b|] eqn:Eb; [|done].
  intros [= <-]. apply b64_len_inv. by rewrite (to_from_b64url _ _ Eb).
Qed.

Lemma rsized_inv n v s : rsized n v = Some s -> length s = n.
Proof.
  unfold rsized, obind. destruct (rbin v) as [t|]; [|done].
  destruct (Nat.eqb_spec (length t) n); [|done]. by intros [= <-].
Qed.

Lemma rall_inv {A} (r : mval -> option A) (P : A -> Prop) l out :
  (forall v a, v ∈ l -> r v = Some a -> P a) -> rall r l = Some out ->
  length out = length l /\ Forall P out.
Proof.
  revert out. induction l as [|v l IH]; intros out Hr; cbn [rall].
  - by intros [= <-].
  - unfold obind. destruct (r v) as [a|] eqn:E; [|done].
    destruct (rall r l) as [t|] eqn:Et; [|done]. intros [= <-].
    destruct (IH t) as [H1 H2]; [|done|].
    { intros ?? Hin. apply Hr. by right. }
    cbn. split; [lia|]. constructor; [|done]. eapply Hr; [by left|done].
Qed.

Lemma rlist_inv {A} (r : mval -> option A) (P : A -> Prop) v out :
  (forall v a, msmall v -> r v = Some a -> P a) -> msmall v -> rlist r v = Some out ->
  (N.of_nat (length out) < 2 ^ 32)%N /\ Forall P out.
Proof.
  intros Hr. destruct v; cbn [rlist]; try done.
  intros [Hl Hs]%msmall_arr E. apply (rall_inv _ P) in E as [H1 H2].
  - split; [|done]. rewrite H1. done.
  - intros w a Hin. apply Hr. by apply Hs.
Qed.

Lemma rarr_inv v s : msmall v -> rarr v = Some s -> arr_ok s.
Proof.
  intros H E. apply (rlist_inv ru8 (fun _ => True)) in E as [? _]; done.
Qed.

Lemma rnonce_inv v s : rnonce v = Some s -> length s = 24.
Proof.
  unfold rnonce, obind. destruct (rarr v) as [t|]; [|done].
  destruct (Nat.eqb_spec (length t) 24); [|done]. by intros [= <-].
Qed.

Lemma rsecret_inv c v s : rsecret c v = Some s -> secret_ok c s.
Proof.
  destruct v as [| | | | |[|h [|d [|]]]| | |]; cbn [rsecret]; try done.
  unfold obind. destruct (rsized 24 h) eqn:E1; [|done].
  destruct (rsized c d) eqn:E2; [|done]. intros [= <-].
  split; cbn; by eapply rsized_inv.
Qed.

Lemma rusecret_inv v s : msmall v -> rusecret v = Some s -> usecret_ok s.
Proof.
  destruct v as [| | | | |[|h [|d [|]]]| | |]; cbn [rusecret]; try done.
  unfold obind. intros Hs. destruct (rsized 24 h) eqn:E1; [|done].
  destruct (rbin d) eqn:E2; [|done]. intros [= <-].
  split; cbn; [by eapply rsized_inv|]. eapply rbin_inv; [|done].
  apply msmall_arr in Hs as [_ Hs]. apply Hs. by right; left.
Qed.

Lemma ru32_inv v n : ru32 v = Some n -> u32_ok n.
Proof. destruct v; cbn; try done. destruct (N.ltb_spec n0 (2 ^ 32)); [|done]. by intros [= <-]. Qed.

Ltac split_binds :=
  repeat match goal with
  | H : obind ?o _ = Some _ |- _ =>
      let E := fresh "E" in destruct o eqn:E; cbn [obind] in H; [|discriminate H]
  | H : Some _ = Some _ |- _ => injection H as <-
  end.

Ltac inv_req :=
  repeat match goal with
  | F : fsmall ?fs, E : req _ _ ?fs = Some _ |- _ =>
      apply (req_inv _ _ _ _ F) in E as (? & ? & ?)
  | F : fsmall ?fs, E : dft _ _ _ ?fs = Some _ |- _ =>
      apply (dft_inv _ _ _ _ _ F) in E as [->|(? & ? & ?)]
  end.

Lemma rseed_info_inv v si : msmall v -> rseed_info v = Some si -> seed_info_ok si.
Proof.
  unfold rseed_info. intros Hv E. destruct (rstruct _ v) as [fs|] eqn:Ef; [|done].
  cbn [obind] in E. pose proof (rstruct_small _ _ _ Hv Ef) as F. split_binds.
  apply (req_inv _ _ _ _ F) in E0 as (? & ? & ?). apply (req_inv _ _ _ _ F) in E1 as (? & ? & ?).
  split; cbn; by eapply rsized_inv.
Qed.

Lemma rcert_info_inv v ci : msmall v -> rcert_info v = Some ci -> cert_info_ok ci.
Proof.
  unfold rcert_info. intros Hv E. destruct (rstruct _ v) as [fs|] eqn:Ef; [|done].
  cbn [obind] in E. pose proof (rstruct_small _ _ _ Hv Ef) as F. split_binds. inv_req.
  split; [eapply rtext_inv; [|eassumption]; assumption|]. split; [by eapply rsized_inv|eapply rbin_inv; [|eassumption]; assumption].
Qed.

Lemma rdlp_inv v d : msmall v -> rdlp v = Some d -> dlp_ok d.
Proof.
  unfold rdlp. intros Hv E. destruct (rstruct _ v) as [fs|] eqn:Ef; [|done].
  cbn [obind] in E. pose proof (rstruct_small _ _ _ Hv Ef) as F. split_binds. inv_req.
  split; [by eapply ru32_inv|]. split; [by eapply ru32_inv|by eapply rsecret_inv].
Qed.

Lemma ropt_inv {A} (r : mval -> option A) (P : A -> Prop) v o :
  (forall a, r v = Some a -> P a) -> ropt r v = Some o -> opt_ok P o.
Proof.
  intros Hr. unfold ropt, obind.
  destruct v; try (destruct (r _) as [a|] eqn:E; [|done]; intros [= <-]; by apply Hr).
  by intros [= <-].
Qed.

Lemma rtyped_inv {A} (P : A -> Prop) decl
    (vs : list (bytes * (list (bytes * mval) -> option A))) v a :
  Forall (fun nr => forall fs a, fsmall fs -> snd nr fs = Some a -> P a) vs ->
  msmall v -> rtyped decl vs v = Some a -> P a.
Proof.
  intros HV Hv.
  assert (HP : forall t fs, fsmall fs -> variant t vs fs = Some a -> P a).
  { intros t fs F. unfold variant.
    induction HV as [|[n r] vs Hr HV IH]; cbn [lookup_variant]; [done|].
    destruct (beq t n); [by apply Hr|done]. }
  destruct v as [| | | | |l|l| |]; cbn [rtyped]; try done.
  - destruct l as [|t l]; [done|]. apply msmall_forall in Hv.
    inversion Hv as [|? ? _ Hl]; subst.
    destruct (rvariant decl t) as [n|]; [|done]. cbn [obind].
    destruct (lookup_variant n decl) as [names|]; [|done]. cbn [obind].
    destruct (rpos names l) as [fs|] eqn:E; [|done]. cbn [obind].
    apply HP. by eapply rpos_small.
  - destruct (tags l) as [|t [|]]; try done.
    destruct (rvariant decl t) as [n|]; [|done]. cbn [obind].
    destruct (lookup_variant n decl) as [names|]; [|done]. cbn [obind].
    destruct (rfields names l) as [fs|] eqn:E; [|done]. cbn [obind].
    apply HP. by eapply rfields_small.
Qed.

Ltac inv_leaf :=
  first
  [ eapply rtext_inv; [|eassumption]; assumption | by eapply rsized_inv | eapply rbin_inv; [|eassumption]; assumption | eapply rarr_inv; [|eassumption]; assumption
  | by eapply rnonce_inv | by eapply rsecret_inv | eapply rusecret_inv; [|eassumption]; assumption | by eapply ru32_inv
  | eapply rseed_info_inv; [|eassumption]; assumption | eapply rcert_info_inv; [|eassumption]; assumption | exact I
  | eapply ropt_inv; [|eassumption]; intros ? ?;
    first [by eapply rsecret_inv | eapply rdlp_inv; [|eassumption]; assumption] ].

Lemma rinfo_inv v e : msmall v -> rinfo v = Some e -> entry_info_ok e.
Proof.
  apply rtyped_inv. unfold info_variants.
  repeat (apply Forall_cons; split; [|]); [..|by apply Forall_nil]; cbn [snd];
    intros fs a F E; split_binds; inv_req; split; inv_leaf.
Qed.

Lemma rentry_inv v e : msmall v -> rentry v = Some e -> entry_ok e.
Proof.
  apply rtyped_inv. unfold entry_variants.
  repeat (apply Forall_cons; split; [|]); [..|by apply Forall_nil]; cbn [snd];
    intros fs a F E; split_binds; inv_req; cbn [entry_ok]; repeat split; inv_leaf.
Qed.

Lemma rapi_inv v a : msmall v -> rapi v = Some a -> api_ok a.
Proof.
  apply rtyped_inv. unfold api_variants. cbv zeta.
  repeat (apply Forall_cons; split; [|]); [..|by apply Forall_nil]; cbn [snd];
    intros fs a' F E; split_binds; inv_req;
    (split; cbn [msg_id]; [eapply rtext_inv; [|eassumption]; assumption|]);
    repeat match goal with |- _ /\ _ => split end; try inv_leaf.
  all: try (eapply rinfo_inv; [|eassumption]; assumption).
  all: try (eapply (rlist_inv rinfo); [exact rinfo_inv| |]; eassumption).
  all: eapply (rlist_inv ru32); [intros ???; by apply ru32_inv| |]; eassumption.
Qed.

Lemma decode_entry_ok s e : decode_entry s = Ok e -> entry_ok e.
Proof.
  unfold decode_entry, obind, ok_of_opt. destruct (decode_first s) as [v|] eqn:E; [|done].
  destruct (rentry v) as [e'|] eqn:Er; [|done]. intros [= <-].
  eapply rentry_inv; [|done]. by eapply decode_first_small.
Qed.

Lemma decode_api_ok s a : decode_api s = Ok a -> api_ok a.
Proof.
  unfold decode_api, obind, ok_of_opt. destruct (decode_first s) as [v|] eqn:E; [|done].
  destruct (rapi v) as [e'|] eqn:Er; [|done]. intros [= <-].
  eapply rapi_inv; [|done]. by eapply decode_first_small.
Qed.
