(** * EchoProofs: a response that fits a frame is read as it was, or not at all

    Unlike the round trip of C39 nothing is assumed of the fields. *)

From Coq Require Import ZifyBool ZifyNat ZifyN.
From Verif Require Import Base Utf8 Base64 Base64Proofs Msgpack MsgpackProofs Types Codec CodecProofs CodecProofs2
  System ServerVocab.

(** ** Sizes follow from the size of the whole *)

Fixpoint nums_ok (v : mval) : Prop :=
  match v with
  | MUInt n => (n < 2 ^ 64)%N
  | MArr l => fold_right (fun v P => nums_ok v /\ P) True l
  | MMap l => fold_right (fun '(k, v) P => (nums_ok k /\ nums_ok v) /\ P) True l
  | MOther => False
  | _ => True
  end.

Lemma concat_part {A} (e : A -> bytes) l x : x ∈ l -> length (e x) <= length (concat (map e l)).
Proof.
  induction l as [|y l IH]; intros H; [by apply elem_of_nil in H|]. cbn [map concat]. rewrite app_length.
  apply elem_of_cons in H as [->|H]; [lia|]. specialize (IH H). lia.
Qed.

Lemma small_mwf v : nums_ok v -> (N.of_nat (length (enc v)) < 2 ^ 32)%N -> mwf v.
Proof.
  induction v as [| | | | |l IH|l IH| |] using mval_ind'; cbn [nums_ok mwf enc]; try done;
    rewrite ?app_length; unfold nlen; intros Hn Hl; try lia.
  - assert (length l <= length (concat (map enc l))) by (apply concat_map_length_ge; apply enc_nonempty).
    split; [lia|]. assert (Hs : forall v, v ∈ l -> (N.of_nat (length (enc v)) < 2 ^ 32)%N).
    { intros v Hv. pose proof (concat_part enc l v Hv). lia. }
    clear Hl H. induction l as [|v l IHl]; [done|]. cbn in *. destruct Hn as [N1 N2].
    apply Forall_cons in IH as [I1 I2]. split; [apply I1; [done|apply Hs; by left]|].
    apply IHl; try done. intros w Hw. apply Hs. by right.
  - assert (length l <= length (concat (map (fun '(k, v) => enc k ++ enc v) l))).
    { apply concat_map_length_ge. intros [k v]. rewrite app_length. pose proof (enc_nonempty k). lia. }
    split; [lia|]. assert (Hs : forall k v, (k, v) ∈ l -> (N.of_nat (length (enc k)) < 2 ^ 32)%N
      /\ (N.of_nat (length (enc v)) < 2 ^ 32)%N).
    { intros k v Hv. pose proof (concat_part (fun '(k, v) => enc k ++ enc v) l (k, v) Hv) as P. cbn in P.
      rewrite app_length in P. lia. }
    clear Hl H. induction l as [|[k v] l IHl]; [done|]. cbn in *. destruct Hn as [[N1 N2] N3].
    apply Forall_cons in IH as [[I1 I2] I3]. destruct (Hs k v) as [S1 S2]; [by left|].
    split; [split; [by apply I1|by apply I2]|]. apply IHl; try done. intros a b Hw. apply Hs. by right.
  - cbn [length] in Hl. lia.
Qed.

(** ** Reading back *)

Lemma echo_text s s' : rtext (MStr s) = Some s' -> s' = s.
Proof. cbn. destruct (utf8 s); [|done]. by intros [= <-]. Qed.
Lemma echo_bin s s' : rbin (wbin s) = Some s' -> s' = s.
Proof. rewrite rbin_wbin. by intros [= <-]. Qed.
Lemma echo_sized n s s' : rsized n (wbin s) = Some s' -> s' = s.
Proof. unfold rsized. rewrite rbin_wbin. cbn. destruct (Nat.eqb _ _); [|done]. by intros [= <-]. Qed.
Lemma echo_arr s s' : rarr (warr s) = Some s' -> s' = s.
Proof. rewrite rarr_warr. by intros [= <-]. Qed.
Lemma echo_nonce s s' : rnonce (warr s) = Some s' -> s' = s.
Proof. unfold rnonce. rewrite rarr_warr. cbn. destruct (Nat.eqb _ _); [|done]. by intros [= <-]. Qed.
Lemma echo_usecret s s' : rusecret (wsecret s) = Some s' -> s' = s.
Proof.
  unfold wsecret, rusecret. destruct (rsized 24 _) as [h|] eqn:E; [|done]. cbn [obind].
  apply echo_sized in E as ->. rewrite rbin_wbin. cbn [obind]. intros [= <-]. by destruct s.
Qed.

Ltac fields_in H := unfold req, dft in H;
  repeat match type of H with context [occurrences ?k ?fs] =>
    rewrite (occurrences_mask k fs) in H;
    let ks := eval cbn [map fst app] in (map fst fs) in
    let m := eval vm_compute in (mask k ks) in
    replace (mask k (map fst fs)) with m in H by (vm_compute; reflexivity);
    cbn [select map snd app] in H
  end; cbv iota in H; cbn [obind] in H.

Ltac split_in H :=
  repeat match type of H with
  | obind ?o _ = Some _ => let E := fresh "E" in destruct o eqn:E; cbn [obind] in H; [|discriminate H]
  | Some _ = Some _ => injection H as <-
  end.

Lemma echo_seed_info si x : rseed_info (wseed_info si) = Some x -> x = si.
Proof.
  destruct si as [ed xk []]; unfold rseed_info, wseed_info; rewrite rstruct_wmap;
    cbn [si_ed si_x si_exportable obind]; intros H; fields_in H; split_in H;
    repeat match goal with E : rsized _ _ = Some _ |- _ => apply echo_sized in E as -> end.
  - cbn in E1. by injection E1 as <-.
  - done.
Qed.
Lemma echo_cert_info ci x : rcert_info (wcert_info ci) = Some x -> x = ci.
Proof.
  destruct ci as [s d c]; unfold rcert_info, wcert_info; rewrite rstruct_wmap;
    cbn [ci_sni ci_digest ci_cert obind]; intros H; fields_in H; split_in H.
  apply echo_text in E as ->. apply echo_sized in E0 as ->. apply echo_bin in E1 as ->. done.
Qed.

Ltac typed_in H :=
  rewrite rtyped_wtyped in H
    by first [eexists; vm_compute; reflexivity | cbn [app]; occ1; reflexivity];
  unfold variant in H;
  match type of H with context [lookup_variant ?t ?l] =>
    let r := eval hnf in (lookup_variant t l) in
    replace (lookup_variant t l) with r in H by reflexivity
  end; cbv beta iota in H.

Lemma echo_info i x : rinfo (winfo i) = Some x -> x = i.
Proof.
  destruct i as [t si|t si|t ci]; unfold rinfo, winfo; intros H; typed_in H; fields_in H; split_in H;
    apply echo_text in E as ->;
    first [apply echo_seed_info in E0 as ->|apply echo_cert_info in E0 as ->]; done.
Qed.
Lemma echo_all {A} (r : mval -> option A) (w : A -> mval) l x :
  (forall a b, r (w a) = Some b -> b = a) -> rall r (map w l) = Some x -> x = l.
Proof.
  intros Hr. revert x. induction l as [|a l IH]; intros x H; cbn in H; [by injection H as <-|].
  split_in H. by rewrite (Hr _ _ E), (IH _ eq_refl).
Qed.

Lemma echo_api a b : is_request a = false -> rapi (wapi a) = Some b -> b = a.
Proof.
  destruct a; cbn [is_request]; intros Hq H; try discriminate Hq; clear Hq; unfold rapi, wapi in H;
    cbv zeta in H; typed_in H; fields_in H; split_in H;
    repeat match goal with
    | E : rtext _ = Some _ |- _ => apply echo_text in E as ->
    | E : rsized _ _ = Some _ |- _ => apply echo_sized in E as ->
    | E : rnonce _ = Some _ |- _ => apply echo_nonce in E as ->
    | E : rarr _ = Some _ |- _ => apply echo_arr in E as ->
    | E : rusecret _ = Some _ |- _ => apply echo_usecret in E as ->
    | E : rseed_info _ = Some _ |- _ => apply echo_seed_info in E as ->
    | E : rcert_info _ = Some _ |- _ => apply echo_cert_info in E as ->
    | E : rinfo _ = Some _ |- _ => apply echo_info in E as ->
    | E : rlist rinfo _ = Some _ |- _ =>
        apply (echo_all rinfo winfo) in E as ->; [|by apply echo_info]
    end; done.
Qed.

(** ** No large numbers in responses *)

Lemma nums_warr s : nums_ok (warr s).
Proof.
  unfold warr. cbn [nums_ok]. induction s as [|b s IH]; [done|]. cbn. split; [|done].
  pose proof (nb_lt b). lia.
Qed.
Lemma nums_seed_info si : nums_ok (wseed_info si).
Proof. by destruct si as [ed x []]. Qed.
Lemma nums_info i : nums_ok (winfo i).
Proof. destruct i; cbn; repeat split; first [apply nums_seed_info|done]. Qed.
Lemma nums_infos l : nums_ok (MArr (map winfo l)).
Proof. cbn [nums_ok]. induction l as [|i l IH]; [done|]. cbn. split; [apply nums_info|done]. Qed.

Lemma nums_api a : is_request a = false -> nums_ok (wapi a).
Proof.
  destruct a; cbn [is_request]; intros Hq; try discriminate Hq; clear Hq;
    cbn [wapi wtyped wmap map nums_ok fold_right fst snd];
    repeat split; first [apply nums_info|apply nums_infos|apply nums_seed_info|apply nums_warr|done].
Qed.

Lemma api_depth a : is_request a = false -> mdepth (wapi a) <= 6.
Proof.
  assert (Ha : forall s, mdepth (warr s) <= 2).
  { intros s. unfold warr. cbn [mdepth]. apply le_n_S. induction s as [|b s IH]; cbn; [lia|]. cbn in IH. lia. }
  assert (Hs : forall si, mdepth (wseed_info si) <= 2) by (intros [? ? []]; cbn; lia).
  assert (Hi : forall i, mdepth (winfo i) <= 3).
  { intros [t [? ? []]|t [? ? []]|t ci]; cbn; lia. }
  assert (Hl : forall l, mdepth (MArr (map winfo l)) <= 4).
  { intros l. cbn [mdepth]. apply le_n_S. induction l as [|i l IH]; cbn; [lia|]. pose proof (Hi i). lia. }
  destruct a; cbn [is_request]; intros Hq; try discriminate Hq; clear Hq;
    cbn [wapi wtyped wmap map mdepth fold_right fst snd];
    repeat match goal with
    | |- context [mdepth (warr ?s)] => let H := fresh in pose proof (Ha s) as H; revert H; generalize (mdepth (warr s))
    | |- context [mdepth (wseed_info ?s)] => let H := fresh in pose proof (Hs s) as H; revert H; generalize (mdepth (wseed_info s))
    | |- context [mdepth (winfo ?s)] => let H := fresh in pose proof (Hi s) as H; revert H; generalize (mdepth (winfo s))
    | |- context [fold_right ?f 0 (map winfo ?s)] => let H := fresh in pose proof (Hl s) as H; cbn [mdepth] in H; revert H;
        generalize (fold_right f 0 (map winfo s))
    end; intros; try lia; cbn; lia.
Qed.

(** The theorem of this file. *)
Lemma echo a b : is_request a = false -> System.fits a = true -> decode_api (encode_api a) = Ok b -> b = a.
Proof.
  intros Hq Hf. unfold System.fits, MAX_FRAME in Hf. apply N.leb_le in Hf.
  unfold decode_api, encode_api in *. rewrite <- (app_nil_r (enc (wapi a))). rewrite decode_first_enc.
  - cbn [obind]. destruct (rapi (wapi a)) as [x|] eqn:E; [|done]. cbn. intros [= <-]. by eapply echo_api.
  - apply small_mwf; [by apply nums_api|lia].
  - pose proof (api_depth a Hq). unfold MAX_DEPTH. lia.
Qed.
