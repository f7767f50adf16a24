(** * PropertiesTls: the names of certificates (C71) *)

From Verif Require Import Base Utf8 Crypto Toy Types Codec Secret Store StoreProofs Lru Server System ServerSpec ServerVocab
  ServerTheorems Client Asks World WorldVocab WorldProofs3 Tls.
From Verif Require Demo DemoWorld PropertiesWorld.

(** ** The words *)

(** A server name as TLS libraries take it: labels of letters, digits, hyphens and underscores, joined by
    dots; a label has 1 to 63 characters and neither begins nor ends with a hyphen; 253 characters at most; and the last label is
    not a number (then it would be an address). *)
Definition digit (b : byte) : Prop := b ∈ str "0123456789".
Definition name_char (b : byte) : Prop :=
  digit b \/ b ∈ str "abcdefghijklmnopqrstuvwxyz" \/ b ∈ str "ABCDEFGHIJKLMNOPQRSTUVWXYZ" \/ b ∈ str "-_".
Definition label (l : bytes) : Prop :=
  1 <= length l <= 63 /\ Forall name_char l
  /\ (forall b r, l = b :: r -> b <> x2d) /\ (forall b r, l = r ++ [b] -> b <> x2d).
Definition server_name (s : bytes) : Prop :=
  exists ls l, Forall label (ls ++ [l]) /\ s = concat (map (fun x => x ++ str ".") ls) ++ l
    /\ length s <= 253 /\ ~ Forall digit l.

(** A certificate as the generator makes them. *)
Definition generated (gc : gencert) : Prop :=
  exists gen n1 n2, nanoid n1 /\ nanoid n2 /\ new_cert gen n1 n2 = Ok gc.

(** The certificate has such a name, and the digest is that of the certificate. *)
Definition presentable (C : Crypto) (ci : cert_info) : Prop :=
  server_name (ci_sni ci) /\ ci_digest ci = blake2b C 32 (ci_cert ci).

(** ** Lemmas *)

Lemma letters_name b : b ∈ letters -> name_char b.
Proof.
  intros H.
  assert (Hall : forallb (fun b => bool_decide (b ∈ str "0123456789") || bool_decide (b ∈ str "abcdefghijklmnopqrstuvwxyz")
    || bool_decide (b ∈ str "ABCDEFGHIJKLMNOPQRSTUVWXYZ") || bool_decide (b ∈ str "-_")) letters = true) by (by vm_compute).
  rewrite forallb_forall in Hall. specialize (Hall b (proj1 (elem_of_list_In _ _) H)).
  unfold name_char, digit. repeat (apply orb_prop in Hall as [Hall|Hall]); apply bool_decide_eq_true_1 in Hall; tauto.
Qed.

Lemma nanoid_label n : nanoid n -> label (str "a" ++ n ++ str "a").
Proof.
  intros [Hl Hn].
  assert (Ha : name_char x61) by (apply letters_name; by apply (bool_decide_unpack _)).
  split; [rewrite !app_length, Hl; cbn; lia|]. split; [|split].
  - apply Forall_app. split; [by apply Forall_cons|]. apply Forall_app. split; [|by apply Forall_cons].
    eapply Forall_impl; [exact Hn|]. apply letters_name.
  - intros b r [= <- _]. done.
  - intros b r E. rewrite app_assoc in E. apply app_inj_tail in E as [_ <-]. done.
Qed.

Lemma sni_name n1 n2 : nanoid n1 -> nanoid n2 -> server_name (sni_text n1 n2).
Proof.
  intros H1 H2. exists [str "a" ++ n1 ++ str "a"], (str "a" ++ n2 ++ str "a"). split; [|split; [|split]].
  - cbn [app]. apply Forall_cons. split; [by apply nanoid_label|]. apply Forall_cons. split; [by apply nanoid_label|done].
  - unfold sni_text. cbn [map concat]. rewrite app_nil_r, <- !app_assoc. done.
  - unfold sni_text. rewrite !app_length. destruct H1 as [-> _], H2 as [-> _]. cbn. lia.
  - intros H. apply Forall_app in H as [H _]. apply Forall_cons in H as [H _].
    unfold digit in H. revert H. apply (bool_decide_unpack _). by vm_compute.
Qed.

Lemma generated_name gc : generated gc -> server_name (gc_sni gc).
Proof.
  intros (gen & n1 & n2 & H1 & H2 & H). unfold new_cert in H. destruct (gen _ _) as [[p c]|]; [|done].
  injection H as <-. by apply sni_name.
Qed.

(** ** C71 *)

(** The certificate that is reported is the one that was made for exactly the name that is reported. *)
Theorem C71_for_this_name :
  forall gen n1 n2 gc, new_cert gen n1 n2 = Ok gc ->
    exists cn, gen [gc_sni gc] cn = Ok (gc_priv gc, gc_cert gc).
Proof.
  intros gen n1 n2 gc H. unfold new_cert in H. destruct (gen _ _) as [[p c]|] eqn:E; [|done]. injection H as <-.
  by eexists.
Qed.
Print Assumptions C71_for_this_name.

Example C71_for_this_name_ex :
  match new_cert (fun names cn => Ok (cn, concat names)) (Demo.fill 21 x41) (Demo.fill 21 x5f) with
  | Ok gc => beq (gc_sni gc) (str "aAAAAAAAAAAAAAAAAAAAAAa.a_____________________a") | _ => false end = true.
Proof. by vm_compute. Qed.

(** Certificates of the same name were made of the same random letters: two names differ wherever the letters
    drawn for them do. *)
Theorem C71_own_name :
  forall gen gen' n1 n2 n1' n2' gc gc', nanoid n1 -> nanoid n1' ->
    new_cert gen n1 n2 = Ok gc -> new_cert gen' n1' n2' = Ok gc' ->
    gc_sni gc = gc_sni gc' -> n1 = n1' /\ n2 = n2'.
Proof.
  intros gen gen' n1 n2 n1' n2' gc gc' [L _] [L' _] H H' E. unfold new_cert in H, H'.
  destruct (gen _ _) as [[p c]|]; [|done]. destruct (gen' _ _) as [[p' c']|]; [|done].
  injection H as <-. injection H' as <-. cbn [gc_sni] in E. unfold sni_text in E.
  apply app_inj_1 in E as [_ E]; [|done]. apply app_inj_1 in E as [-> E]; [|congruence].
  apply app_inj_1 in E as [_ E]; [|done]. by apply app_inv_tail in E as ->.
Qed.
Print Assumptions C71_own_name.

Example C71_own_name_ex :
  nanoid (Demo.fill 21 x41) /\ nanoid (Demo.fill 21 x5f)
  /\ match new_cert (fun names cn => Ok (cn, concat names)) (Demo.fill 21 x41) (Demo.fill 21 x5f),
           new_cert (fun names cn => Ok (cn, concat names)) (Demo.fill 21 x41) (Demo.fill 21 x41) with
     | Ok a, Ok b => beq (gc_sni a) (gc_sni b) | _, _ => true end = false.
Proof.
  split; [|split; [|by vm_compute]]; (split; [done|]); unfold Demo.fill; cbn [repeat];
    repeat (apply Forall_cons; split; [by apply (bool_decide_unpack _)|]); done.
Qed.

(** All certificates a client hears of, in whatever way, have names that TLS can use, and their digests are
    right. *)
Theorem C71_presentable :
  forall S (SO : StoreOk S) g, CryptoOk (g_crypto g) ->
  (forall gc, g_rcgen g gc = true -> generated gc) ->
  forall evs, Forall typed evs -> ids_differ S g evs ->
  forall cid k t ci,
    gives S g evs cid k (ANewCert t) (Ok (VCert ci))
    \/ (exists u, gives S g evs cid k (AGet u) (Ok (VInfo (ICert t ci))))
    \/ (exists l, gives S g evs cid k AList (Ok (VInfos l)) /\ ICert t ci ∈ l) ->
    presentable (g_crypto g) ci.
Proof.
  intros S SO g HC Hgen evs Ht Hd cid k t ci H.
  assert (Hst : forall w e, Forall (stored_ok g) w -> e ∈ w -> info_of e = ICert t ci -> presentable (g_crypto g) ci).
  { intros w e Hw He Ei. rewrite Forall_forall in Hw. destruct (Hw e He) as [_ Hok].
    destruct e as [| |t' ci' sec]; try done. cbn in Ei. injection Ei as -> ->.
    destruct Hok as (gc & Hg & -> & _). split; [|done]. by apply generated_name, Hgen. }
  destruct H as [H|[(u & H)|(l & H & Hin)]];
    destruct (ok_served S SO g HC evs cid k _ _ Ht Hd H) as (pre & c & tid & rq & d & m & Hsv & Her & Hv);
    destruct (served_right S SO g HC _ _ _ _ _ _ _ _ _ _ Hsv Her) as (L & w & M & [_ R]);
    cbn [request_of] in R; destruct m; try done; cbn [value_of] in Hv.
  - injection Hv as ->. destruct R as (_ & _ & gc & sec & Hg & -> & _). split; [|done]. by apply generated_name, Hgen.
  - injection Hv as ->. destruct R as (_ & e & He & _ & Ei). by eapply Hst; [apply (me_fine _ _ _ _ _ _ _ _ M)|exact He|].
  - injection Hv as ->. destruct R as (_ & L1 & _ & [z Hz] & Hp). rewrite Hp in Hin.
    apply elem_of_list_fmap in Hin as (e & Ei & He). eapply Hst; [apply (me_fine _ _ _ _ _ _ _ _ M)| |by symmetry].
    rewrite Hz. apply elem_of_app. by left.
Qed.
Print Assumptions C71_presentable.

(** A keystore whose generator drew these letters. *)
Definition ex_sni : bytes := sni_text (Demo.fill 21 x41) (Demo.fill 21 x5f).
Definition ex_env : genv :=
  let g := DemoWorld.env in
  GEnv toy (g_salt g) (g_ops g) (g_mem g) (g_id_seed g) (g_id_pk g) (g_name g) (g_version g) (g_bidi g) false
    (fun gc => beq (gc_sni gc) ex_sni).
Definition ex_oracle : oracle :=
  Oracle (Demo.fill 32 x01) false (Some (GenCert ex_sni (str "priv") (str "cert"))) (Ok (Demo.fill 64 x77)) true.
Definition ex_call (k : nat) (id : string) (a : ask) : list wevent :=
  [WAsk 1 (DemoWorld.drawn id) a; WClient 1 (Begin k); WPut 1 k; WClient 1 (Sent k true); WServe 1]
  ++ repeat (WServer (EvStep 1 k ex_oracle)) 15 ++ [WTake 1; WClient 1 (Poll k)].
Definition ex_evs : list wevent :=
  [WConnect 1 Demo.demo_rx Demo.demo_tx] ++ ex_call 0 "a0" (AUnlock DemoWorld.pass) ++ ex_call 1 "a1" (ANewCert (str "c"))
  ++ ex_call 2 "a2" (AGet (str "c")) ++ ex_call 3 "a3" AList.
Definition ex_cert : cert_info := CertInfo ex_sni (blake2b toy 32 (str "cert")) (str "cert").

Example C71_presentable_ex :
  (forall gc, g_rcgen ex_env gc = true -> generated gc)
  /\ Forall typed ex_evs /\ ids_differ sql_store ex_env ex_evs
  /\ gives sql_store ex_env ex_evs 1 1 (ANewCert (str "c")) (Ok (VCert ex_cert))
  /\ gives sql_store ex_env ex_evs 1 2 (AGet (str "c")) (Ok (VInfo (ICert (str "c") ex_cert)))
  /\ gives sql_store ex_env ex_evs 1 3 AList (Ok (VInfos [ICert (str "c") ex_cert])).
Proof.
  split; [|split; [|split; [|split; [|split]]]].
  - intros [sni priv cert] H. cbn in H. apply beq_true in H as ->.
    exists (fun _ _ => Ok (priv, cert)), (Demo.fill 21 x41), (Demo.fill 21 x5f).
    split; [|split; [|done]]; (split; [done|]); unfold Demo.fill; cbn [repeat];
      repeat apply Forall_cons_2; try apply Forall_nil_2; by apply (bool_decide_unpack _).
  - unfold ex_evs, ex_call. cbn [repeat app]. repeat apply Forall_cons_2; try apply Forall_nil_2; try done;
      (split; [try done; DemoWorld.txt|split; [DemoWorld.txt|done]]).
  - apply DemoWorld.apart_in_ids. vm_compute. reflexivity.
  - apply (DemoWorld.gave_in_gives ex_env sql_store ex_evs 1 1 "a1"); [DemoWorld.txt|]. vm_compute. reflexivity.
  - apply (DemoWorld.gave_in_gives ex_env sql_store ex_evs 1 2 "a2"); [DemoWorld.txt|]. vm_compute. reflexivity.
  - apply (DemoWorld.gave_in_gives ex_env sql_store ex_evs 1 3 "a3"); [DemoWorld.txt|]. vm_compute. reflexivity.
Qed.

(** Certificates made from different letters have different names. *)
Theorem C71_names_differ :
  forall n1 n2 m1 m2, nanoid n1 -> nanoid n2 -> nanoid m1 -> nanoid m2 ->
    sni_text n1 n2 = sni_text m1 m2 -> n1 = m1 /\ n2 = m2.
Proof.
  intros n1 n2 m1 m2 [L1 _] [L2 _] [L3 _] [L4 _] H. unfold sni_text in H.
  apply app_inj_1 in H as [_ H]; [|done]. apply app_inj_1 in H as [-> H]; [|congruence].
  apply app_inj_1 in H as [_ H]; [|done]. by apply app_inj_1 in H as [-> _]; [|congruence].
Qed.
Print Assumptions C71_names_differ.

Example C71_names_differ_ex : nanoid (Demo.fill 21 x41) /\ nanoid (Demo.fill 21 x5f).
Proof.
  split; (split; [done|]); unfold Demo.fill; cbn [repeat]; repeat apply Forall_cons_2; try apply Forall_nil_2;
    by apply (bool_decide_unpack _).
Qed.
