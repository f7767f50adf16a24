(** * DemoWorld: a small keystore and its clients, to try the theorems of [PropertiesWorld] on *)

From Verif Require Import Base Utf8 Crypto Toy Types Codec Secret Store StoreProofs Lru Server System
  ServerVocab SeedBundle Client Asks World WorldVocab.
From Verif Require Demo.

#[local] Existing Instance Demo.api_eq_dec.

Definition pass : bytes := str "pass".
Definition digest : bytes := blake2b toy 64 pass.
Definition pre : bytes := match argon2id toy digest Demo.demo_salt 2 3 with Ok k => k | Err _ => [] end.
Definition env : genv :=
  GEnv toy Demo.demo_salt 2 3
    (sec_encrypt toy (kdf toy 142 (str "IdnSecKy") pre) (Demo.fill 24 x09) Demo.demo_seed)
    (box_pk toy Demo.demo_seed) (str "lair-keystore-ipc") (str "0.0.0") (kdf toy 42 (str "CtxSecKy") (Demo.fill 32 x33)) false
    (fun gc => beq (gc_sni gc) (gc_priv gc)).

Definition drawn (id : string) : draws := Draws (str id) (Demo.fill 24 x08) (Demo.fill 24 x07) Minimum.

(** Call [k] over connection [cid], from beginning to end; the server draws bytes [b]. *)
Definition call (cid k : nat) (id : string) (a : ask) (b : byte) : list wevent :=
  [WAsk cid (drawn id) a; WClient cid (Begin k); WPut cid k; WClient cid (Sent k true); WServe cid]
  ++ repeat (WServer (EvStep cid k (Demo.fine b))) 15 ++ [WTake cid; WClient cid (Poll k)].

(** What call [k] gave back. *)
Definition gave_in (env : genv) (S : store_impl) (evs : list wevent) (cid k : nat) (id : string) (a : ask) : option (res value) :=
  match w_links (wrun S env evs) !! cid with
  | Some l =>
      match k_calls (l_cli l) !! k with
      | Some c =>
          match c_st c with
          | CEnd o =>
              if bool_decide (c_req c = request_of (g_crypto env) (l_enc l) (drawn id) a)
              then match o with Answer _ _ => give_back (g_crypto env) (l_dec l) a (c_req c) o | _ => None end else None
          | _ => None
          end
      | None => None
      end
  | None => None
  end.

Lemma gave_in_gives env S evs cid k id a v : text_ok (str id) -> gave_in env S evs cid k id a = Some v ->
  gives S env evs cid k a v /\ replied S env evs cid k.
Proof.
  intros Hid. unfold gave_in. destruct (w_links _ !! cid) as [l|] eqn:El; [|done].
  destruct (k_calls (l_cli l) !! k) as [c|] eqn:Ec; [|done]. destruct (c_st c) as [| | |o] eqn:Es; try done.
  case_bool_decide as Hq; [|done]. destruct o as [n m| | | |] eqn:Eo; try done. intros Hv. split.
  - exists l, c, (drawn id), (Answer n m). done.
  - by exists l, c, n, m.
Qed.

Definition gave := gave_in env.
Lemma gave_gives S evs cid k id a v : text_ok (str id) -> gave S evs cid k id a = Some v ->
  gives S env evs cid k a v /\ replied S env evs cid k.
Proof. apply gave_in_gives. Qed.

(** No request was disturbed, at any time. *)
Fixpoint calm (S : store_impl) (cid : nat) (st : sys S) (evs : list event) : bool :=
  match s_conns S st !! cid with
  | Some c => forallb (fun rq => negb (rq_fail S rq)) (c_reqs S c)
  | None => true
  end && match evs with [] => true | ev :: evs => calm S cid (step S env st ev) evs end.

Lemma calm_all S cid evs : forall st pre c, calm S cid st evs = true -> pre `prefix_of` evs ->
  s_conns S (fold_left (step S env) pre st) !! cid = Some c -> Forall (fun rq => rq_fail S rq = false) (c_reqs S c).
Proof.
  assert (H0 : forall (c : conn S), forallb (fun rq => negb (rq_fail S rq)) (c_reqs S c) = true ->
    Forall (fun rq => rq_fail S rq = false) (c_reqs S c)).
  { intros c H. rewrite forallb_forall in H. apply Forall_forall. intros rq Hq. apply elem_of_list_In in Hq.
    specialize (H rq Hq). by apply negb_true_iff in H. }
  induction evs as [|ev evs IH]; intros st p c H [x Hx] Hc.
  - destruct p; [|done]. cbn in H, Hc. rewrite Hc in H. apply andb_prop in H as [H _]. by apply H0.
  - cbn [calm] in H. apply andb_prop in H as [H1 H2]. destruct p as [|ev' p].
    + cbn in Hc. rewrite Hc in H1. by apply H0.
    + cbn in Hx. injection Hx as <- Hx. apply (IH (step S env st ev) p); [done|by exists x|done].
Qed.

Lemma calm_smooth S evs cid k : calm S cid (init S) (server_evs S env evs) = true -> smooth S env evs cid k.
Proof.
  intros H l cl c tid rq _ (p & Hp & Hc & Hq) _. pose proof (calm_all S cid _ _ p c H Hp Hc) as HF.
  rewrite Forall_forall in HF. apply HF. by eapply elem_of_list_lookup_2.
Qed.

Definition apart_in (env : genv) (S : store_impl) (evs : list wevent) : bool :=
  forallb (fun x => bool_decide (NoDup (map (fun c => msg_id (c_req c)) (k_calls (l_cli (snd x))))))
    (map_to_list (w_links (wrun S env evs))).
Lemma apart_in_ids env S evs : apart_in env S evs = true -> ids_differ S env evs.
Proof.
  intros H cid l Hl. unfold apart_in in H. rewrite forallb_forall in H.
  assert (Hi : In (cid, l) (map_to_list (w_links (wrun S env evs)))).
  { apply elem_of_list_In. by apply elem_of_map_to_list. }
  by apply (bool_decide_eq_true_1 _ (H _ Hi)).
Qed.

Definition apart := apart_in env.
Lemma apart_ids S evs : apart S evs = true -> ids_differ S env evs.
Proof. apply apart_in_ids. Qed.

Lemma call_typed cid k id a b : ask_ok a -> text_ok (str id) -> Forall typed (call cid k id a b).
Proof.
  intros Ha Hid. unfold call. apply Forall_app_2; [|apply Forall_app_2].
  - repeat apply Forall_cons_2; try done.
  - by repeat apply Forall_cons_2.
  - repeat apply Forall_cons_2; try done.
Qed.

Definition absent (S : store_impl) (evs : list wevent) (cid k : nat) : bool :=
  match w_links (wrun S env evs) !! cid with
  | Some l => Nat.leb (length (k_calls (l_cli l))) k
  | None => true
  end.
Lemma absent_not_made S evs cid k : absent S evs cid k = true -> not_made S env evs cid k.
Proof.
  unfold absent. intros H l c [Hl Hc]. unfold link_at in Hl. rewrite Hl in H. apply Nat.leb_le in H.
  apply lookup_lt_Some in Hc. lia.
Qed.

Ltac txt := split; [vm_compute; reflexivity|vm_compute; reflexivity].

(** ** A session: one client creates things, another uses them *)

Definition kS : bytes := Demo.fill 32 x0a.                (* the seed "s" *)
Definition kD : bytes := Demo.fill 32 x0b.                (* the seed "d", deep locked *)
Definition xS : bytes := box_pk toy kS.
Definition xO : bytes := box_pk toy (Demo.fill 32 x0d).   (* a seed of another keystore *)
Definition infoS : seed_info := SeedInfo (sign_pk toy kS) xS true.
Definition infoD : seed_info := SeedInfo (sign_pk toy kD) (box_pk toy kD) false.
Definition nonce : bytes := Demo.fill 24 x0c.
Definition secret_cipher : bytes := sbox_easy toy nonce (str "hi") kS.
Definition box_cipher : bytes :=
  match box_easy toy nonce (str "hi") xS (box_sk toy kS) with Ok c => c | Err _ => [] end.
Definition sign_cipher : bytes :=
  match ed_sk_to_x toy (sign_sk toy kS), ed_pk_to_x toy (sign_pk toy kS) with
  | Ok k, Ok p => match box_easy toy nonce (str "hi") p k with Ok c => c | Err _ => [] end
  | _, _ => []
  end.
Definition export_cipher : bytes :=
  match box_easy toy nonce kS xO (box_sk toy kS) with Ok c => c | Err _ => [] end.
Definition certificate : cert_info := CertInfo (str "sni") (blake2b toy 32 (str "cert")) (str "cert").

Definition first : list wevent :=
  [WConnect 1 Demo.demo_rx Demo.demo_tx]
  ++ call 1 0 "a0" (AHello (box_pk toy Demo.demo_seed)) x00 ++ call 1 1 "a1" (AUnlock pass) x00
  ++ call 1 2 "a2" (ANewSeed (str "s") None true) x0a
  ++ call 1 3 "a3" (ANewSeed (str "d") (Some (str "deep")) false) x0b
  ++ call 1 4 "a4" (ANewCert (str "c")) x00
  ++ call 1 5 "a5" (ASecretBox (str "s") None (str "hi")) x0c
  ++ call 1 6 "a6" (ABox xS xS None (str "hi")) x0c
  ++ call 1 7 "a7" (ABoxSign (sign_pk toy kS) (sign_pk toy kS) None (str "hi")) x0c
  ++ call 1 8 "a8" (AExport (str "s") xS xO None) x0c
  ++ [WConnect 2 Demo.demo_tx Demo.demo_rx] ++ call 2 0 "b0" (AUnlock pass) x00.

Definition second : list wevent :=
  call 2 1 "b1" (AGet (str "s")) x00 ++ call 2 2 "b2" AList x00
  ++ call 2 3 "b3" (ASign (si_ed infoS) None (str "data")) x00
  ++ call 2 4 "b4" (ASign (si_ed infoD) (Some (str "deep")) (str "data")) x00
  ++ call 2 5 "b5" (ASign (si_ed infoD) None (str "data")) x00
  ++ call 2 6 "b6" (ASecretBoxOpen (str "s") None nonce secret_cipher) x00
  ++ call 2 7 "b7" (ABoxOpen xS xS None nonce box_cipher) x00
  ++ call 2 8 "b8" (ABoxSignOpen (sign_pk toy kS) (sign_pk toy kS) None nonce sign_cipher) x00
  ++ call 2 9 "b9" (ACertKey (str "c")) x00.

(** Another keystore, which imports the seed exported from the first. *)
Definition other : list wevent :=
  [WConnect 1 Demo.demo_rx Demo.demo_tx] ++ call 1 0 "a1" (AUnlock pass) x00
  ++ call 1 1 "a2" (ANewSeed (str "me") None true) x0d
  ++ call 1 2 "a3" (AImport xS xO None nonce export_cipher (str "s2") false) x00.

Lemma first_typed : Forall typed first.
Proof.
  unfold first.
  repeat match goal with
  | |- Forall _ (_ ++ _) => apply Forall_app_2
  | |- Forall _ [WConnect _ _ _] => by apply Forall_cons_2
  | |- Forall _ (call _ _ _ _ _) => apply call_typed; [|txt]
  end; cbn [ask_ok]; repeat match goal with |- _ /\ _ => split end; by vm_compute.
Qed.
Lemma second_typed : Forall typed second.
Proof.
  unfold second.
  repeat match goal with
  | |- Forall _ (_ ++ _) => apply Forall_app_2
  | |- Forall _ (call _ _ _ _ _) => apply call_typed; [|txt]
  end; cbn [ask_ok]; repeat match goal with |- _ /\ _ => split end; by vm_compute.
Qed.

Lemma both_ids : ids_differ sql_store env (first ++ second).
Proof. apply apart_ids. vm_compute. reflexivity. Qed.
Lemma both_keeps evs : keeps sql_store sql_store_ok evs.
Proof. by left. Qed.

Lemma smooth2 k : smooth sql_store env (first ++ second) 2 k.
Proof. apply calm_smooth. vm_compute. reflexivity. Qed.
Lemma first_ids : ids_differ sql_store env first.
Proof. apply apart_ids. vm_compute. reflexivity. Qed.
Lemma other_typed : Forall typed other.
Proof.
  unfold other.
  repeat match goal with
  | |- Forall _ (_ ++ _) => apply Forall_app_2
  | |- Forall _ [WConnect _ _ _] => by apply Forall_cons_2
  | |- Forall _ (call _ _ _ _ _) => apply call_typed; [|txt]
  end; cbn [ask_ok]; repeat match goal with |- _ /\ _ => split end; by vm_compute.
Qed.
Lemma other_ids : ids_differ sql_store env other.
Proof. apply apart_ids. vm_compute. reflexivity. Qed.

Lemma gave_well id k a v : text_ok (str id) -> gave sql_store (first ++ second) 2 k id a = Some v ->
  well sql_store env (first ++ second) 2 k a v.
Proof.
  intros Hid H. destruct (gave_gives _ _ _ _ _ _ _ Hid H). split; [done|]. split; [done|]. apply smooth2.
Qed.

Lemma unlocked2 : unlocked sql_store env first 2.
Proof.
  exists 0, pass. apply (gave_gives sql_store first 2 0 "b0"); [txt|]. vm_compute. reflexivity.
Qed.
Lemma not_made2 k : k <> 0 -> not_made sql_store env first 2 k.
Proof.
  intros Hk l c [Hl Hc].
  assert (H : match w_links (wrun sql_store env first) !! 2 with
              | Some l => Nat.eqb (length (k_calls (l_cli l))) 1 | None => true end = true) by (vm_compute; reflexivity).
  unfold link_at in Hl. rewrite Hl in H. apply Nat.eqb_eq in H. apply lookup_lt_Some in Hc. lia.
Qed.

(** What the first client was given. *)
Lemma gave_s : gives sql_store env first 1 2 (ANewSeed (str "s") None true) (Ok (VSeed infoS)).
Proof. apply (gave_gives sql_store first 1 2 "a2"); [txt|]. vm_compute. reflexivity. Qed.
