(** * PropertiesNetUse: what clients do with each other's keys, over any network (C79)

    Executions are those of [Net], the words those of [NetVocab]: every connection is subject to whatever a
    network does with bytes. *)

From Verif Require Import Base Utf8 Crypto Toy Types Codec Secret Store StoreProofs Lru Server System ServerSpec
  ServerVocab ServerTheorems Wire WireVocab Handshake Client Asks World WorldVocab WorldProofs WorldProofs2 WorldProofs3 Net NetVocab
  NetProofs NetProofs2.
From Verif Require PropertiesWorld PropertiesCreated PropertiesWrites Demo DemoWorld.
From Verif Require Import DemoNet.

(** ** The demonstration *)

(** One client makes a seed, a deep-locked one and a certificate, encrypts and exports. *)
Definition makes : list nevent :=
  Eval vm_compute in play (ninit sql_store env)
    ([fun _ => [NConnect 1 Demo.demo_seed (drawn_keys x50)]]
     ++ ncall 1 0 "a0" (AUnlock DemoWorld.pass) x00 ++ ncall 1 1 "a1" (ANewSeed (str "s") None true) x0a
     ++ ncall 1 2 "a2" (ANewSeed (str "d") (Some (str "deep")) false) x0b ++ ncall 1 3 "a3" (ANewCert (str "c")) x00
     ++ ncall 1 4 "a4" (ASecretBox (str "s") None (str "hi")) x0c
     ++ ncall 1 5 "a5" (ABox DemoWorld.xS DemoWorld.xS None (str "hi")) x0c
     ++ ncall 1 6 "a6" (AExport (str "s") DemoWorld.xS DemoWorld.xO None) x0c
     ++ ncall 1 7 "a7" (ABoxSign (si_ed DemoWorld.infoS) (si_ed DemoWorld.infoS) None (str "hi")) x0c
     ++ ncall 1 8 "a8" (ADerive (str "s") None (str "s1") None [1; 2]%N) x00
     ++ [fun _ => [NConnect 2 Demo.demo_seed (drawn_keys x60)]] ++ ncall 2 0 "b0" (AUnlock DemoWorld.pass) x00).
(** Another one uses them. *)
Definition uses : list nevent :=
  Eval vm_compute in play (nrun sql_store env makes)
    (ncall 2 1 "b1" AList x00 ++ ncall 2 2 "b2" (ASign (si_ed DemoWorld.infoD) (Some (str "deep")) (str "data")) x00
     ++ ncall 2 3 "b3" (ASign (si_ed DemoWorld.infoD) None (str "data")) x00
     ++ ncall 2 4 "b4" (ASecretBoxOpen (str "s") None DemoWorld.nonce DemoWorld.secret_cipher) x00
     ++ ncall 2 5 "b5" (ABoxOpen DemoWorld.xS DemoWorld.xS None DemoWorld.nonce DemoWorld.box_cipher) x00
     ++ ncall 2 6 "b6" (ACertKey (str "c")) x00
     ++ ncall 2 7 "b7" (ABoxSignOpen (si_ed DemoWorld.infoS) (si_ed DemoWorld.infoS) None DemoWorld.nonce DemoWorld.sign_cipher) x00).
(** In another keystore the exported seed is imported. *)
Definition takes : list nevent :=
  Eval vm_compute in play (ninit sql_store env)
    ([fun _ => [NConnect 1 Demo.demo_seed (drawn_keys x50)]]
     ++ ncall 1 0 "a0" (AUnlock DemoWorld.pass) x00 ++ ncall 1 1 "a1" (ANewSeed (str "o") None true) x0d
     ++ ncall 1 2 "a2" (AImport DemoWorld.xS DemoWorld.xO None DemoWorld.nonce DemoWorld.export_cipher (str "s2") false) x0e
     ++ ncall 1 3 "a3" (ADerive (str "s2") None (str "x1") None [1; 2]%N) x00).

Definition textb (t : bytes) : bool := utf8 t && N.ltb (N.of_nat (length t)) (2 ^ 32).
Definition arrb (m : bytes) : bool := N.ltb (N.of_nat (length m)) (2 ^ 32).
Definition askb (a : ask) : bool :=
  match a with
  | AHello _ | AUnlock _ | AList => true
  | AGet t | ANewCert t | ACertKey t | ANewSeed t _ _ => textb t
  | AExport t s r _ => textb t && (Nat.eqb (length s) 32 && Nat.eqb (length r) 32)
  | AImport s r _ n c t _ => Nat.eqb (length s) 32 && (Nat.eqb (length r) 32 && (Nat.eqb (length n) 24 && (arrb c && textb t)))
  | ADerive s _ t _ p =>
      textb s && (textb t && (N.ltb (N.of_nat (length p)) (2 ^ 32) && forallb (fun n => N.ltb n (2 ^ 32)) p))
  | ASign k _ m => Nat.eqb (length k) 32 && arrb m
  | ABox s r _ m | ABoxSign s r _ m => Nat.eqb (length s) 32 && (Nat.eqb (length r) 32 && arrb m)
  | ABoxOpen s r _ n c | ABoxSignOpen s r _ n c => Nat.eqb (length s) 32 && (Nat.eqb (length r) 32 && (Nat.eqb (length n) 24 && arrb c))
  | ASecretBox t _ m => textb t && arrb m
  | ASecretBoxOpen t _ n c => textb t && (Nat.eqb (length n) 24 && arrb c)
  end.
Lemma textb_ok t : textb t = true -> text_ok t.
Proof. intros H. apply andb_prop in H as [H1 H2]. apply N.ltb_lt in H2. by split. Qed.
Lemma arrb_ok m : arrb m = true -> arr_ok m.
Proof. apply N.ltb_lt. Qed.
Lemma u32b_ok p : forallb (fun n => N.ltb n (2 ^ 32)) p = true -> Forall u32_ok p.
Proof. intros H. rewrite forallb_forall in H. apply Forall_forall. intros n Hn. apply N.ltb_lt, H. by apply elem_of_list_In. Qed.
Lemma askb_ok a : askb a = true -> ask_ok a.
Proof.
  destruct a; cbn [askb ask_ok]; intros H; try discriminate H; try exact I;
    repeat match goal with X : _ && _ = true |- _ => apply andb_prop in X as [? ?] end;
    repeat match goal with
    | |- _ /\ _ => split
    | |- text_ok _ => by apply textb_ok
    | |- arr_ok _ => by apply arrb_ok
    | |- (_ < _)%N => by apply N.ltb_lt
    | X : forallb _ ?p = true |- Forall u32_ok ?p => by apply u32b_ok
    | |- length _ = _ => by apply Nat.eqb_eq
    end.
Qed.
Definition typed_allb (e : nevent) : bool :=
  match e with
  | NAsk _ d a => askb a && (textb (d_id d) && (Nat.eqb (length (d_hdr d)) 24 && Nat.eqb (length (d_hdr2 d)) 24))
  | NClient _ (NewCall _) => false
  | _ => true
  end.
Lemma typed_all evs : forallb typed_allb evs = true -> Forall ntyped evs.
Proof.
  intros H. apply Forall_forall. intros e He. rewrite forallb_forall in H. specialize (H e (proj1 (elem_of_list_In _ _) He)).
  destruct e as [|cid d a|cid e| | | | | |]; cbn [typed_allb ntyped] in *; try exact I.
  - apply andb_prop in H as [H1 H]. apply andb_prop in H as [H2 H]. apply andb_prop in H as [H3 H4].
    split; [by apply askb_ok|]. split; [by apply textb_ok|]. split; by apply Nat.eqb_eq.
  - destruct e; try exact I. discriminate H.
Qed.

Lemma uses_typed : Forall ntyped (makes ++ uses).
Proof. apply typed_all. vm_compute. reflexivity. Qed.
Lemma uses_not_forged : ~ forged sql_store env (makes ++ uses).
Proof. apply not_forged. vm_compute. reflexivity. Qed.
Lemma uses_ids : nids_differ sql_store env (makes ++ uses).
Proof. apply napart_ids. vm_compute. reflexivity. Qed.
Lemma uses_unlocked : nunlocked sql_store env makes 2.
Proof. exists 0, DemoWorld.pass. apply (ngave_gives _ 2 0 "b0"); [DemoWorld.txt|]. vm_compute. reflexivity. Qed.
Lemma not_made_after evs cid j k : nnot_made sql_store env evs cid j -> (j <= k)%nat -> nnot_made sql_store env evs cid k.
Proof.
  intros H Hk l c [Hl Hc]. destruct (lookup_lt_is_Some_2 (k_calls (x_cli l)) j) as [c1 E].
  - apply lookup_lt_Some in Hc. lia.
  - exact (H l c1 (conj Hl E)).
Qed.
Lemma uses_not_made k : (1 <= k)%nat -> nnot_made sql_store env makes 2 k.
Proof. apply not_made_after, nabsent. vm_compute. reflexivity. Qed.
Lemma uses_well k id a v : text_ok (str id) -> ngave (makes ++ uses) 2 k id a = Some v ->
  nwell sql_store env (makes ++ uses) 2 k a v.
Proof. intros Hid H. apply (ngave_well _ 2 k id); [done|done|]. vm_compute. reflexivity. Qed.

(** ** C79: keys are of use over any network, and of no other use *)

(** Unlocking succeeds with the right passphrase only, and with it whenever an answer comes. *)
Theorem C79_unlock :
  forall S (SO : StoreOk S) g, CryptoOk (g_crypto g) ->
  forall evs, Forall ntyped evs -> ~ forged S g evs -> nids_differ S g evs ->
  forall cid k pass,
    (forall v, ngives S g evs cid k (AUnlock pass) (Ok v) -> right_pass g pass)
    /\ (forall r, nwell S g evs cid k (AUnlock pass) r -> right_pass g pass -> r = Ok VUnit).
Proof.
  intros S SO g HC evs Ht Hf Hd cid k pass. destruct (sim_run S g HC evs Ht Hf) as (wevs & Hw & R & _).
  destruct (PropertiesWorld.C60_unlock S SO g HC wevs Hw (tr_ids _ _ _ _ R Hd) cid k pass) as [H1 H2].
  split; [intros v Hv; exact (H1 v (tr_gives _ _ _ _ R _ _ _ _ Hv))|].
  intros r Hr. exact (H2 r (tr_well _ _ _ _ R _ _ _ _ Hr)).
Qed.
Print Assumptions C79_unlock.

Example C79_unlock_ex :
  nwell sql_store env (makes ++ uses) 2 0 (AUnlock DemoWorld.pass) (Ok VUnit).
Proof. apply (uses_well 0 "b0"); [DemoWorld.txt|]. vm_compute. reflexivity. Qed.

(** A deep-locked seed signs for every client that gives its passphrase, and for none that gives none. *)
Theorem C79_deep_sign :
  forall S (SO : StoreOk S) g, CryptoOk (g_crypto g) ->
  forall evs more, Forall ntyped (evs ++ more) -> ~ forged S g (evs ++ more) -> nids_differ S g (evs ++ more) ->
    nkeeps S SO (evs ++ more) ->
  forall cid k t p x si cid' k' data,
    ngives S g evs cid k (ANewSeed t (Some p) x) (Ok (VSeed si)) ->
    nunlocked S g evs cid' -> nnot_made S g evs cid' k' ->
    (forall r, nwell S g (evs ++ more) cid' k' (ASign (si_ed si) (Some p) data) r ->
       exists sig, r = Ok (VBytes sig) /\ sign_verify (g_crypto g) (si_ed si) sig data = true)
    /\ (forall r, nwell S g (evs ++ more) cid' k' (ASign (si_ed si) None data) r -> exists er, r = Err er).
Proof.
  intros S SO g HC evs more Ht Hf Hd Hk cid k t p x si cid' k' data Hg Hu Hn.
  destruct (sim_both S g HC evs more Ht Hf) as (wevs & wmore & Wt & R1 & R2 & Kr).
  destruct (PropertiesWorld.C60_deep_sign S SO g HC wevs wmore Wt (tr_ids _ _ _ _ R2 Hd) (tr_keeps _ _ _ SO Kr Hk)
    cid k t p x si cid' k' data (tr_gives _ _ _ _ R1 _ _ _ _ Hg) (tr_unlocked _ _ _ _ R1 _ Hu) (tr_not_made _ _ _ _ R1 _ _ Hn)) as [H1 H2].
  split; intros r Hr; [apply H1|apply H2]; exact (tr_well _ _ _ _ R2 _ _ _ _ Hr).
Qed.
Print Assumptions C79_deep_sign.

Example C79_deep_sign_ex :
  Forall ntyped (makes ++ uses) /\ ~ forged sql_store env (makes ++ uses) /\ nids_differ sql_store env (makes ++ uses)
  /\ ngives sql_store env makes 1 2 (ANewSeed (str "d") (Some (str "deep")) false) (Ok (VSeed DemoWorld.infoD))
  /\ nunlocked sql_store env makes 2 /\ nnot_made sql_store env makes 2 2 /\ nnot_made sql_store env makes 2 3
  /\ (exists sig, nwell sql_store env (makes ++ uses) 2 2 (ASign (si_ed DemoWorld.infoD) (Some (str "deep")) (str "data")) (Ok (VBytes sig)))
  /\ exists er, nwell sql_store env (makes ++ uses) 2 3 (ASign (si_ed DemoWorld.infoD) None (str "data")) (Err er).
Proof.
  split; [apply uses_typed|]. split; [apply uses_not_forged|]. split; [apply uses_ids|].
  split; [apply (ngave_gives _ 1 2 "a2"); [DemoWorld.txt|]; vm_compute; reflexivity|].
  split; [apply uses_unlocked|]. split; [apply uses_not_made; lia|]. split; [apply uses_not_made; lia|].
  split; eexists; [apply (uses_well 2 "b2")|apply (uses_well 3 "b3")]; [DemoWorld.txt|vm_compute; reflexivity|DemoWorld.txt|vm_compute; reflexivity].
Qed.

(** No client gets out a seed that was created as not exportable or with a passphrase of its own. *)
Theorem C79_not_exported :
  forall S (SO : StoreOk S) g, CryptoOk (g_crypto g) ->
  forall evs, Forall ntyped evs -> ~ forged S g evs -> nids_differ S g evs -> nkeeps S SO evs ->
  forall cid k t pass x si cid' k' s r p v',
    ngives S g evs cid k (ANewSeed t pass x) (Ok (VSeed si)) ->
    ngives S g evs cid' k' (AExport t s r p) (Ok v') ->
    x = true /\ pass = None.
Proof.
  intros S SO g HC evs Ht Hf Hd Hk cid k t pass x si cid' k' s r p v' Hg He.
  destruct (sim_run S g HC evs Ht Hf) as (wevs & Hw & R & Kr).
  pose proof (tr_gives _ _ _ _ R _ _ _ _ Hg) as Hg'. pose proof (tr_gives _ _ _ _ R _ _ _ _ He) as He'.
  pose proof (tr_ids _ _ _ _ R Hd) as Hi. pose proof (tr_keeps _ _ _ SO Kr Hk) as Hk'.
  pose proof (PropertiesCreated.C59_exportable_as_asked S SO g HC wevs Hw Hi cid k t pass x si Hg') as Hx.
  set (i := match pass with None => ISeed t si | Some _ => IDeep t si end).
  assert (info_tag i = t) as Et by (by subst i; destruct pass). rewrite <- Et in He'.
  destruct (PropertiesCreated.C59_not_exported S SO g HC wevs Hw Hi Hk' cid k _ _ i cid' k' s r p v' Hg' eq_refl He') as [H1 H2].
  subst i. destruct pass; cbn in H1, H2; [discriminate H2|]. split; [congruence|done].
Qed.
Print Assumptions C79_not_exported.

Example C79_not_exported_ex :
  ngives sql_store env makes 1 1 (ANewSeed (str "s") None true) (Ok (VSeed DemoWorld.infoS))
  /\ ngives sql_store env makes 1 6 (AExport (str "s") DemoWorld.xS DemoWorld.xO None)
       (Ok (VBox DemoWorld.nonce DemoWorld.export_cipher)).
Proof.
  split; [apply (ngave_gives _ 1 1 "a1")|apply (ngave_gives _ 1 6 "a6")]; [DemoWorld.txt|vm_compute; reflexivity|DemoWorld.txt|vm_compute; reflexivity].
Qed.

(** What is encrypted for a key, over one network, the owner of the key reads over another. *)
Theorem C79_box :
  forall S1 (SO1 : StoreOk S1) g1 S2 (SO2 : StoreOk S2) g2,
  CryptoOk (g_crypto g1) -> g_crypto g2 = g_crypto g1 ->
  forall evs1, Forall ntyped evs1 -> ~ forged S1 g1 evs1 -> nids_differ S1 g1 evs1 ->
  forall evs2 more, Forall ntyped (evs2 ++ more) -> ~ forged S2 g2 (evs2 ++ more) -> nids_differ S2 g2 (evs2 ++ more) ->
    nkeeps S2 SO2 (evs2 ++ more) ->
  forall cid2 k2 a v t si, ngives S2 g2 evs2 cid2 k2 a (Ok v) -> creates a v = Some (ISeed t si) ->
  forall cid1 k1 s p data n cipher,
    ngives S1 g1 evs1 cid1 k1 (ABox s (si_x si) p data) (Ok (VBox n cipher)) ->
  forall cid k p' r,
    nunlocked S2 g2 evs2 cid -> nnot_made S2 g2 evs2 cid k ->
    nwell S2 g2 (evs2 ++ more) cid k (ABoxOpen s (si_x si) p' n cipher) r -> r = Ok (VBytes data).
Proof.
  intros S1 SO1 g1 S2 SO2 g2 HC E evs1 Ht1 Hf1 Hd1 evs2 more Ht Hf Hd Hk cid2 k2 a v t si Hg Hc cid1 k1 s p data n cipher Hb
    cid k p' r Hu Hn Hw.
  assert (CryptoOk (g_crypto g2)) as HC2 by (by rewrite E).
  destruct (sim_run S1 g1 HC evs1 Ht1 Hf1) as (w1 & W1 & R & _).
  destruct (sim_both S2 g2 HC2 evs2 more Ht Hf) as (wevs & wmore & Wt & R1 & R2 & Kr).
  eapply (PropertiesWorld.C59_box S1 SO1 g1 S2 SO2 g2 HC E w1 W1 (tr_ids _ _ _ _ R Hd1) wevs wmore Wt (tr_ids _ _ _ _ R2 Hd)
    (tr_keeps _ _ _ SO2 Kr Hk)).
  - exact (tr_gives _ _ _ _ R1 _ _ _ _ Hg).
  - done.
  - exact (tr_gives _ _ _ _ R _ _ _ _ Hb).
  - exact (tr_unlocked _ _ _ _ R1 _ Hu).
  - exact (tr_not_made _ _ _ _ R1 _ _ Hn).
  - exact (tr_well _ _ _ _ R2 _ _ _ _ Hw).
Qed.
Print Assumptions C79_box.

Example C79_box_ex :
  ngives sql_store env makes 1 5 (ABox DemoWorld.xS DemoWorld.xS None (str "hi")) (Ok (VBox DemoWorld.nonce DemoWorld.box_cipher))
  /\ nnot_made sql_store env makes 2 5
  /\ nwell sql_store env (makes ++ uses) 2 5 (ABoxOpen DemoWorld.xS DemoWorld.xS None DemoWorld.nonce DemoWorld.box_cipher)
       (Ok (VBytes (str "hi"))).
Proof.
  split; [apply (ngave_gives _ 1 5 "a5"); [DemoWorld.txt|]; vm_compute; reflexivity|]. split; [apply uses_not_made; lia|].
  apply (uses_well 5 "b5"); [DemoWorld.txt|]. vm_compute. reflexivity.
Qed.

(** The same for the functions that take signing keys. *)
Theorem C79_box_by_sign :
  forall S1 (SO1 : StoreOk S1) g1 S2 (SO2 : StoreOk S2) g2,
  CryptoOk (g_crypto g1) -> g_crypto g2 = g_crypto g1 ->
  forall evs1, Forall ntyped evs1 -> ~ forged S1 g1 evs1 -> nids_differ S1 g1 evs1 ->
  forall evs2 more, Forall ntyped (evs2 ++ more) -> ~ forged S2 g2 (evs2 ++ more) -> nids_differ S2 g2 (evs2 ++ more) ->
    nkeeps S2 SO2 (evs2 ++ more) ->
  forall cid2 k2 a v t si, ngives S2 g2 evs2 cid2 k2 a (Ok v) -> creates a v = Some (ISeed t si) ->
  forall cid1 k1 s p data n cipher,
    ngives S1 g1 evs1 cid1 k1 (ABoxSign s (si_ed si) p data) (Ok (VBox n cipher)) ->
  forall cid k p' r,
    nunlocked S2 g2 evs2 cid -> nnot_made S2 g2 evs2 cid k ->
    nwell S2 g2 (evs2 ++ more) cid k (ABoxSignOpen s (si_ed si) p' n cipher) r -> r = Ok (VBytes data).
Proof.
  intros S1 SO1 g1 S2 SO2 g2 HC E evs1 Ht1 Hf1 Hd1 evs2 more Ht Hf Hd Hk cid2 k2 a v t si Hg Hc cid1 k1 s p data n cipher Hb
    cid k p' r Hu Hn Hw.
  assert (CryptoOk (g_crypto g2)) as HC2 by (by rewrite E).
  destruct (sim_run S1 g1 HC evs1 Ht1 Hf1) as (w1 & W1 & R & _).
  destruct (sim_both S2 g2 HC2 evs2 more Ht Hf) as (wevs & wmore & Wt & R1 & R2 & Kr).
  eapply (PropertiesWorld.C59_box_by_sign S1 SO1 g1 S2 SO2 g2 HC E w1 W1 (tr_ids _ _ _ _ R Hd1) wevs wmore Wt (tr_ids _ _ _ _ R2 Hd)
    (tr_keeps _ _ _ SO2 Kr Hk)).
  - exact (tr_gives _ _ _ _ R1 _ _ _ _ Hg).
  - done.
  - exact (tr_gives _ _ _ _ R _ _ _ _ Hb).
  - exact (tr_unlocked _ _ _ _ R1 _ Hu).
  - exact (tr_not_made _ _ _ _ R1 _ _ Hn).
  - exact (tr_well _ _ _ _ R2 _ _ _ _ Hw).
Qed.
Print Assumptions C79_box_by_sign.

Example C79_box_by_sign_ex :
  ngives sql_store env makes 1 7 (ABoxSign (si_ed DemoWorld.infoS) (si_ed DemoWorld.infoS) None (str "hi"))
    (Ok (VBox DemoWorld.nonce DemoWorld.sign_cipher))
  /\ nnot_made sql_store env makes 2 7
  /\ nwell sql_store env (makes ++ uses) 2 7
       (ABoxSignOpen (si_ed DemoWorld.infoS) (si_ed DemoWorld.infoS) None DemoWorld.nonce DemoWorld.sign_cipher) (Ok (VBytes (str "hi"))).
Proof.
  split; [apply (ngave_gives _ 1 7 "a7"); [DemoWorld.txt|]; vm_compute; reflexivity|]. split; [apply uses_not_made; lia|].
  apply (uses_well 7 "b7"); [DemoWorld.txt|]. vm_compute. reflexivity.
Qed.

(** What one client encrypts with a seed every client reads. *)
Theorem C79_secret_box :
  forall S (SO : StoreOk S) g, CryptoOk (g_crypto g) ->
  forall evs more, Forall ntyped (evs ++ more) -> ~ forged S g (evs ++ more) -> nids_differ S g (evs ++ more) ->
    nkeeps S SO (evs ++ more) ->
  forall cid k t p data n cipher cid' k' p' r,
    ngives S g evs cid k (ASecretBox t p data) (Ok (VBox n cipher)) ->
    nunlocked S g evs cid' -> nnot_made S g evs cid' k' ->
    nwell S g (evs ++ more) cid' k' (ASecretBoxOpen t p' n cipher) r -> r = Ok (VBytes data).
Proof.
  intros S SO g HC evs more Ht Hf Hd Hk cid k t p data n cipher cid' k' p' r Hg Hu Hn Hw.
  destruct (sim_both S g HC evs more Ht Hf) as (wevs & wmore & Wt & R1 & R2 & Kr).
  eapply (PropertiesWorld.C59_secret_box S SO g HC wevs wmore Wt (tr_ids _ _ _ _ R2 Hd) (tr_keeps _ _ _ SO Kr Hk)).
  - exact (tr_gives _ _ _ _ R1 _ _ _ _ Hg).
  - exact (tr_unlocked _ _ _ _ R1 _ Hu).
  - exact (tr_not_made _ _ _ _ R1 _ _ Hn).
  - exact (tr_well _ _ _ _ R2 _ _ _ _ Hw).
Qed.
Print Assumptions C79_secret_box.

Example C79_secret_box_ex :
  ngives sql_store env makes 1 4 (ASecretBox (str "s") None (str "hi")) (Ok (VBox DemoWorld.nonce DemoWorld.secret_cipher))
  /\ nnot_made sql_store env makes 2 4
  /\ nwell sql_store env (makes ++ uses) 2 4 (ASecretBoxOpen (str "s") None DemoWorld.nonce DemoWorld.secret_cipher)
       (Ok (VBytes (str "hi"))).
Proof.
  split; [apply (ngave_gives _ 1 4 "a4"); [DemoWorld.txt|]; vm_compute; reflexivity|]. split; [apply uses_not_made; lia|].
  apply (uses_well 4 "b4"); [DemoWorld.txt|]. vm_compute. reflexivity.
Qed.

(** A seed exported over one network and imported over another has the public keys it had. *)
Theorem C79_export_import :
  forall S1 (SO1 : StoreOk S1) g1 S2 (SO2 : StoreOk S2) g2,
  CryptoOk (g_crypto g1) -> g_crypto g2 = g_crypto g1 ->
  forall evs1, Forall ntyped evs1 -> ~ forged S1 g1 evs1 -> nids_differ S1 g1 evs1 -> nkeeps S1 SO1 evs1 ->
  forall evs2, Forall ntyped evs2 -> ~ forged S2 g2 evs2 -> nids_differ S2 g2 evs2 ->
  forall cid1 k1 a v i cid k p n cipher s r cid2 k2 p' t' x si,
    ngives S1 g1 evs1 cid1 k1 a (Ok v) -> creates a v = Some i ->
    ngives S1 g1 evs1 cid k (AExport (info_tag i) s r p) (Ok (VBox n cipher)) ->
    ngives S2 g2 evs2 cid2 k2 (AImport s r p' n cipher t' x) (Ok (VSeed si)) ->
    info_ed i = Some (si_ed si) /\ info_x i = Some (si_x si) /\ si_exportable si = x.
Proof.
  intros S1 SO1 g1 S2 SO2 g2 HC E evs1 Ht1 Hf1 Hd1 Hk1 evs2 Ht2 Hf2 Hd2 cid1 k1 a v i cid k p n cipher s r cid2 k2 p' t' x si
    Hg Hc He Hi.
  assert (CryptoOk (g_crypto g2)) as HC2 by (by rewrite E).
  destruct (sim_run S1 g1 HC evs1 Ht1 Hf1) as (w1 & W1 & R1 & K1).
  destruct (sim_run S2 g2 HC2 evs2 Ht2 Hf2) as (w2 & W2 & R2 & _).
  exact (PropertiesWorld.C59_export_import S1 SO1 g1 S2 SO2 g2 HC E w1 W1 (tr_ids _ _ _ _ R1 Hd1) (tr_keeps _ _ _ SO1 K1 Hk1)
    w2 W2 (tr_ids _ _ _ _ R2 Hd2) cid1 k1 a v i cid k p n cipher s r cid2 k2 p' t' x si (tr_gives _ _ _ _ R1 _ _ _ _ Hg) Hc
    (tr_gives _ _ _ _ R1 _ _ _ _ He) (tr_gives _ _ _ _ R2 _ _ _ _ Hi)).
Qed.
Print Assumptions C79_export_import.

Example C79_export_import_ex :
  ngives sql_store env makes 1 1 (ANewSeed (str "s") None true) (Ok (VSeed DemoWorld.infoS))
  /\ ngives sql_store env makes 1 6 (AExport (str "s") DemoWorld.xS DemoWorld.xO None)
       (Ok (VBox DemoWorld.nonce DemoWorld.export_cipher))
  /\ Forall ntyped takes /\ ~ forged sql_store env takes /\ nids_differ sql_store env takes
  /\ ngives sql_store env takes 1 2 (AImport DemoWorld.xS DemoWorld.xO None DemoWorld.nonce DemoWorld.export_cipher (str "s2") false)
       (Ok (VSeed (SeedInfo (si_ed DemoWorld.infoS) (si_x DemoWorld.infoS) false))).
Proof.
  split; [apply (ngave_gives _ 1 1 "a1"); [DemoWorld.txt|]; vm_compute; reflexivity|].
  split; [apply (ngave_gives _ 1 6 "a6"); [DemoWorld.txt|]; vm_compute; reflexivity|].
  split; [apply typed_all; vm_compute; reflexivity|]. split; [apply not_forged; vm_compute; reflexivity|].
  split; [apply napart_ids; vm_compute; reflexivity|].
  apply (ngave_gives _ 1 2 "a2"); [DemoWorld.txt|]; vm_compute; reflexivity.
Qed.

(** And the seeds derived from it are the same in both. *)
Theorem C79_derive :
  forall S1 (SO1 : StoreOk S1) g1 S2 (SO2 : StoreOk S2) g2,
  CryptoOk (g_crypto g1) -> g_crypto g2 = g_crypto g1 ->
  forall evs1, Forall ntyped evs1 -> ~ forged S1 g1 evs1 -> nids_differ S1 g1 evs1 -> nkeeps S1 SO1 evs1 ->
  forall evs2, Forall ntyped evs2 -> ~ forged S2 g2 evs2 -> nids_differ S2 g2 evs2 -> nkeeps S2 SO2 evs2 ->
  forall cid1 k1 t s r p n cipher cid2 k2 t' x si cid3 k3 sp u up path si3 cid4 k4 sp' u' up' si4,
    ngives S1 g1 evs1 cid1 k1 (AExport t s r p) (Ok (VBox n cipher)) ->
    ngives S2 g2 evs2 cid2 k2 (AImport s r None n cipher t' x) (Ok (VSeed si)) ->
    ngives S1 g1 evs1 cid3 k3 (ADerive t sp u up path) (Ok (VSeed si3)) ->
    ngives S2 g2 evs2 cid4 k4 (ADerive t' sp' u' up' path) (Ok (VSeed si4)) ->
    si_ed si4 = si_ed si3 /\ si_x si4 = si_x si3 /\ si_exportable si4 = x.
Proof.
  intros S1 SO1 g1 S2 SO2 g2 HC E evs1 Ht1 Hf1 Hd1 Hk1 evs2 Ht2 Hf2 Hd2 Hk2 cid1 k1 t s r p n cipher cid2 k2 t' x si
    cid3 k3 sp u up path si3 cid4 k4 sp' u' up' si4 He Hi H3 H4.
  assert (CryptoOk (g_crypto g2)) as HC2 by (by rewrite E).
  destruct (sim_run S1 g1 HC evs1 Ht1 Hf1) as (w1 & W1 & R1 & K1).
  destruct (sim_run S2 g2 HC2 evs2 Ht2 Hf2) as (w2 & W2 & R2 & K2).
  destruct (PropertiesCreated.C59_derive S1 SO1 g1 S2 SO2 g2 HC E w1 W1 (tr_ids _ _ _ _ R1 Hd1) (tr_keeps _ _ _ SO1 K1 Hk1)
    w2 W2 (tr_ids _ _ _ _ R2 Hd2) (tr_keeps _ _ _ SO2 K2 Hk2) cid1 k1 t s r p n cipher cid2 k2 t' x si
    cid3 k3 sp u up path si3 0 0 None [] None [] si 0 0 None [] None si
    (tr_gives _ _ _ _ R1 _ _ _ _ He) (tr_gives _ _ _ _ R2 _ _ _ _ Hi) (tr_gives _ _ _ _ R1 _ _ _ _ H3)) as [H _].
  exact (H cid4 k4 sp' u' up' si4 (tr_gives _ _ _ _ R2 _ _ _ _ H4)).
Qed.
Print Assumptions C79_derive.

Example C79_derive_ex :
  exists si3 si4,
    ngives sql_store env makes 1 8 (ADerive (str "s") None (str "s1") None [1; 2]%N) (Ok (VSeed si3))
    /\ ngives sql_store env takes 1 3 (ADerive (str "s2") None (str "x1") None [1; 2]%N) (Ok (VSeed si4))
    /\ si_exportable si3 = true /\ si_exportable si4 = false.
Proof.
  eexists _, _. split; [apply (ngave_gives _ 1 8 "a8"); [DemoWorld.txt|]; vm_compute; reflexivity|].
  split; [apply (ngave_gives _ 1 3 "a3"); [DemoWorld.txt|]; vm_compute; reflexivity|]. split; reflexivity.
Qed.

(** Every client gets the same private key for a certificate. *)
Theorem C79_cert_key :
  forall S (SO : StoreOk S) g, CryptoOk (g_crypto g) ->
  forall evs more, Forall ntyped (evs ++ more) -> ~ forged S g (evs ++ more) -> nids_differ S g (evs ++ more) ->
    nkeeps S SO (evs ++ more) ->
  forall cid k t ci, ngives S g evs cid k (ANewCert t) (Ok (VCert ci)) ->
    exists gc, g_rcgen g gc = true /\ ci = cert_of g gc
      /\ forall cid' k' r, nunlocked S g evs cid' -> nnot_made S g evs cid' k' ->
           nwell S g (evs ++ more) cid' k' (ACertKey t) r -> r = Ok (VBytes (gc_priv gc)).
Proof.
  intros S SO g HC evs more Ht Hf Hd Hk cid k t ci Hg.
  destruct (sim_both S g HC evs more Ht Hf) as (wevs & wmore & Wt & R1 & R2 & Kr).
  pose proof (tr_ids _ _ _ _ R2 Hd) as Hi. pose proof (tr_keeps _ _ _ SO Kr Hk) as Hk2.
  assert (Hk1 : keeps S SO wevs) by (destruct Hk2 as [?|Hk2]; [by left|right; intros H; apply Hk2, elem_of_app; by left]).
  destruct (PropertiesWorld.C59_cert S SO g HC wevs (proj1 (proj1 (Forall_app _ _ _) Wt)) (ids_app S SO g HC _ _ Wt Hi) Hk1
    cid k t ci (tr_gives _ _ _ _ R1 _ _ _ _ Hg)) as (gc & G1 & G2 & _ & H).
  exists gc. split; [done|]. split; [done|]. intros cid' k' r Hu Hn Hr.
  exact (H wmore cid' k' r Wt Hi Hk2 (tr_unlocked _ _ _ _ R1 _ Hu) (tr_not_made _ _ _ _ R1 _ _ Hn) (tr_well _ _ _ _ R2 _ _ _ _ Hr)).
Qed.
Print Assumptions C79_cert_key.

Example C79_cert_key_ex :
  ngives sql_store env makes 1 3 (ANewCert (str "c")) (Ok (VCert DemoWorld.certificate))
  /\ nnot_made sql_store env makes 2 6
  /\ nwell sql_store env (makes ++ uses) 2 6 (ACertKey (str "c")) (Ok (VBytes (str "sni"))).
Proof.
  split; [apply (ngave_gives _ 1 3 "a3"); [DemoWorld.txt|]; vm_compute; reflexivity|]. split; [apply uses_not_made; lia|].
  apply (uses_well 6 "b6"); [DemoWorld.txt|]. vm_compute. reflexivity.
Qed.

(** Of all calls of all clients at most one creates an item with a given tag or public key. *)
Theorem C79_created_once :
  forall S (SO : StoreOk S) g, CryptoOk (g_crypto g) ->
  forall evs, Forall ntyped evs -> ~ forged S g evs -> nids_differ S g evs -> nkeeps S SO evs ->
  forall cid1 k1 a1 v1 i1 cid2 k2 a2 v2 i2,
    ngives S g evs cid1 k1 a1 (Ok v1) -> creates a1 v1 = Some i1 ->
    ngives S g evs cid2 k2 a2 (Ok v2) -> creates a2 v2 = Some i2 ->
    info_tag i1 = info_tag i2 \/ (exists pk, info_ed i1 = Some pk /\ info_ed i2 = Some pk)
      \/ (exists pk, info_x i1 = Some pk /\ info_x i2 = Some pk) ->
    cid1 = cid2 /\ k1 = k2.
Proof.
  intros S SO g HC evs Ht Hf Hd Hk cid1 k1 a1 v1 i1 cid2 k2 a2 v2 i2 H1 C1 H2 C2 Hs.
  destruct (sim_run S g HC evs Ht Hf) as (wevs & Hw & R & Kr).
  exact (PropertiesWrites.C59_created_once S SO g HC wevs Hw (tr_ids _ _ _ _ R Hd) (tr_keeps _ _ _ SO Kr Hk)
    cid1 k1 a1 v1 i1 cid2 k2 a2 v2 i2 (tr_gives _ _ _ _ R _ _ _ _ H1) C1 (tr_gives _ _ _ _ R _ _ _ _ H2) C2 Hs).
Qed.
Print Assumptions C79_created_once.

Example C79_created_once_ex :
  ngives sql_store env (makes ++ uses) 1 1 (ANewSeed (str "s") None true) (Ok (VSeed DemoWorld.infoS))
  /\ ngives sql_store env (makes ++ uses) 1 3 (ANewCert (str "c")) (Ok (VCert DemoWorld.certificate)).
Proof.
  split; [apply (ngave_gives _ 1 1 "a1")|apply (ngave_gives _ 1 3 "a3")]; [DemoWorld.txt|vm_compute; reflexivity|DemoWorld.txt|vm_compute; reflexivity].
Qed.
