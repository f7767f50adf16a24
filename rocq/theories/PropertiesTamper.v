(** * PropertiesTamper: what can be changed in a locked seed bundle (C76) *)

From Verif Require Import Base Utf8 Msgpack MsgpackProofs Crypto Toy Types Codec CodecProofs CodecProofs2
  Secret SeedBundle SeedBundleProofs Demo PropertiesBundle.

(** The passphrase a cipher is made with, and its limits. *)
Definition passphrase_of (a : adding) : res bytes :=
  match a with
  | AddPw pass _ => Ok pass
  | AddQa _ _ _ a1 a2 a3 _ => process_answers a1 a2 a3
  end.
Definition limits_of (a : adding) : limits :=
  match a with AddPw _ l => l | AddQa _ _ _ _ _ _ l => l end.

(** What stands in a bundle for a cipher: salt, limits, header and ciphertext. *)
Definition parts (k : locked) : option (bytes * N * N * secret) :=
  match k with
  | LkPw salt mem ops h d _ => Some (salt, mem, ops, Sec h d)
  | LkQa salt mem ops _ _ _ h d _ => Some (salt, mem, ops, Sec h d)
  | LkUnsupported _ => None
  end.

(** The cipher [k] opens with the secret of [a], and is none of those that were made with it. *)
Definition forged (C : Crypto) (u : unlocked) (l : list (adding * (bytes * bytes))) (a : adding) (k : locked) : Prop :=
  exists salt mem ops sec pass key,
    parts k = Some (salt, mem, ops, sec) /\ passphrase_of a = Ok pass
    /\ argon2id C (blake2b C 64 pass) salt ops mem = Ok key
    /\ is_ok (sec_open C 32 key sec) = true
    /\ forall a' salt' hdr', (a', (salt', hdr')) ∈ l -> passphrase_of a' = Ok pass ->
         (salt, mem, ops, sec)
         <> (salt', mem_limit (limits_of a'), ops_limit (limits_of a'), sec_encrypt C key hdr' (u_seed u)).

Lemma unlock_parts C a k u : unlock_own C a k = Ok u ->
  exists salt mem ops sec pass key, parts k = Some (salt, mem, ops, sec) /\ passphrase_of a = Ok pass
    /\ argon2id C (blake2b C 64 pass) salt ops mem = Ok key /\ sec_open C 32 key sec = Ok (u_seed u).
Proof.
  destruct a as [pass lim|q1 q2 q3 a1 a2 a3 lim]; destruct k as [salt mem ops h d app|salt mem ops p1 p2 p3 h d app|name];
    cbn [unlock_own unlock_pw unlock_qa parts passphrase_of]; try done.
  - unfold pw_dec, pw_key. destruct (argon2id C _ salt ops mem) as [key|] eqn:E; [|done]. cbn [rbind].
    destruct (sec_open C 32 key (Sec h d)) as [seed|] eqn:E'; [|done]. intros [= <-].
    by exists salt, mem, ops, (Sec h d), pass, key.
  - destruct (process_answers a1 a2 a3) as [pass|]; [|done]. cbn [rbind].
    unfold pw_dec, pw_key. destruct (argon2id C _ salt ops mem) as [key|] eqn:E; [|done]. cbn [rbind].
    destruct (sec_open C 32 key (Sec h d)) as [seed|] eqn:E'; [|done]. intros [= <-].
    by exists salt, mem, ops, (Sec h d), pass, key.
Qed.

(** Whatever cipher is read in place of those of a locked bundle and opened with the owner's secret:
    it gives the seed that was locked, or it is forged.
    Missing for the full property: the application data, and the questions. *)
Theorem C76_seed_partial :
  forall C, CryptoOk C ->
  forall u l k a u',
    length (u_seed u) = 32 -> unlock_own C a k = Ok u' ->
    u_seed u' = u_seed u \/ forged C u l a k.
Proof.
  intros C CK u l k a u' Hs Hu.
  destruct (decide (u_seed u' = u_seed u)) as [|Hne]; [by left|right].
  destruct (unlock_parts C a k u' Hu) as (salt & mem & ops & sec & pass & key & H1 & H2 & H3 & H4).
  exists salt, mem, ops, sec, pass, key. repeat (split; [done|]). split; [by rewrite H4|].
  intros a' salt' hdr' _ _ [= _ _ _ ->]. rewrite <- Hs in H4. rewrite (sec_open_encrypt C CK) in H4. congruence.
Qed.
Print Assumptions C76_seed_partial.

(** Opening one of its ciphers with another secret than it was made with shows a ciphertext that
    opens under the keys of both; if these are the same key, the seed is. *)
Theorem C76_wrong_secret :
  forall C, CryptoOk C ->
  forall u l raw ks i a r k b u',
    sizes_ok u l -> lock C u l = Ok raw -> from_locked raw = Ok ks ->
    l !! i = Some (a, r) -> ks !! i = Some k -> unlock_own C b k = Ok u' ->
    exists salt mem ops sec pass pass' key key',
      parts k = Some (salt, mem, ops, sec)
      /\ passphrase_of a = Ok pass /\ passphrase_of b = Ok pass'
      /\ argon2id C (blake2b C 64 pass) salt ops mem = Ok key
      /\ argon2id C (blake2b C 64 pass') salt ops mem = Ok key'
      /\ sec_open C 32 key sec = Ok (u_seed u) /\ sec_open C 32 key' sec = Ok (u_seed u').
Proof.
  intros C CK u l raw ks i a r k b u' Hs Hl Hk Hi Hki Hu.
  destruct (C41_any_secret_opens C CK u l raw [] Hs Hl) as (ks' & Hk' & HF).
  rewrite app_nil_r in Hk'. assert (ks' = ks) as -> by congruence.
  pose proof (Forall2_lookup_lr _ _ _ _ _ _ HF Hi Hki) as (_ & u0 & Hu0 & Es & _). cbn [fst] in Hu0.
  destruct (unlock_parts C a k u0 Hu0) as (salt & mem & ops & sec & pass & key & A1 & A2 & A3 & A4).
  destruct (unlock_parts C b k u' Hu) as (salt' & mem' & ops' & sec' & pass' & key' & B1 & B2 & B3 & B4).
  rewrite A1 in B1. injection B1 as <- <- <- <-. rewrite Es in A4.
  by exists salt, mem, ops, sec, pass, pass', key, key'.
Qed.
Print Assumptions C76_wrong_secret.

(** False of the application data: without any secret, a locked bundle can be made into the one
    its owner would have made with other application data.  So can the questions be changed. *)
Definition repack (k : locked) : option seed_cipher :=
  match k with
  | LkPw salt mem ops h d _ => Some (ScPw salt mem ops h d)
  | LkQa salt mem ops q1 q2 q3 h d _ => Some (ScQa salt mem ops q1 q2 q3 h d)
  | LkUnsupported _ => None
  end.
Definition ask_for (q1 q2 q3 : bytes) (c : seed_cipher) : seed_cipher :=
  match c with ScQa salt mem ops _ _ _ h d => ScQa salt mem ops q1 q2 q3 h d | c => c end.
Definition asking (q1 q2 q3 : bytes) (a : adding) : adding :=
  match a with AddQa _ _ _ a1 a2 a3 l => AddQa q1 q2 q3 a1 a2 a3 l | a => a end.
Definition change (q : option (bytes * bytes * bytes)) (app : option bytes) (raw : bytes) : bytes :=
  match from_locked raw with
  | Ok ks =>
      let cs := omap repack ks in
      encode_bundle (match q with Some (q1, q2, q3) => map (ask_for q1 q2 q3) cs | None => cs end)
        (match app, ks with
         | Some app, _ => app
         | None, (LkPw _ _ _ _ _ app | LkQa _ _ _ _ _ _ _ _ app) :: _ => app
         | None, _ => []
         end)
  | Err _ => raw
  end.

Lemma locked_shape C (CK : CryptoOk C) u l raw : sizes_ok u l -> lock C u l = Ok raw ->
  exists cs, lock_all C (u_seed u) l = Ok cs /\ raw = encode_bundle cs (u_app u)
    /\ from_locked raw = Ok (map (unpack (u_app u)) cs).
Proof.
  intros (Hs & Ha & Hn & HF) H. unfold lock in H.
  destruct (lock_all C (u_seed u) l) as [cs|] eqn:E; [|done]. injection H as <-.
  exists cs. split; [done|]. split; [done|]. apply lock_all_rel in E.
  rewrite <- (app_nil_r (encode_bundle _ _)). apply from_locked_encode; [|apply Forall2_length in E; lia|done].
  clear Hn Ha. induction E as [|[a [salt hdr]] c l cs Hc E IH]; [constructor|].
  inversion HF as [|? ? (H1 & H2 & H3) HF']; subst. cbn [fst snd] in *.
  constructor; [|by apply IH].
  destruct a as [pass lim|q1 q2 q3 a1 a2 a3 lim]; cbn [lock_one] in Hc.
  - destruct (pw_enc C (u_seed u) pass lim salt hdr) as [d|] eqn:Ed; [|done]. injection Hc as <-.
    destruct (pw_enc_dec C CK _ _ _ _ _ _ Hs Ed) as [Hl Hd]. by destruct (limits_small lim) as [Hm Ho].
  - destruct (process_answers a1 a2 a3) as [pass|] eqn:Ep; [|done]. cbn [rbind] in Hc.
    destruct (pw_enc C (u_seed u) pass lim salt hdr) as [d|] eqn:Ed; [|done]. injection Hc as <-.
    destruct (pw_enc_dec C CK _ _ _ _ _ _ Hs Ed) as [Hl Hd]. by destruct (limits_small lim) as [Hm Ho].
Qed.
Lemma repack_unpack app cs : omap repack (map (unpack app) cs) = cs.
Proof. induction cs as [|[|] cs IH]; [done| |]; cbn; by f_equal. Qed.
Lemma lock_asking C seed l cs q1 q2 q3 : lock_all C seed l = Ok cs ->
  lock_all C seed (map (fun x => (asking q1 q2 q3 x.1, x.2)) l) = Ok (map (ask_for q1 q2 q3) cs).
Proof.
  revert cs. induction l as [|[a [salt hdr]] l IH]; intros cs; cbn [lock_all map fst snd].
  - by intros [= <-].
  - destruct (lock_one C seed a (salt, hdr)) as [c|] eqn:E; [|done]. cbn [rbind].
    destruct (lock_all C seed l) as [cs'|]; [|done]. intros [= <-]. rewrite (IH cs' eq_refl).
    assert (lock_one C seed (asking q1 q2 q3 a) (salt, hdr) = Ok (ask_for q1 q2 q3 c)) as ->; [|done].
    destruct a as [pass lim|p1 p2 p3 a1 a2 a3 lim]; cbn [lock_one asking] in *.
    + destruct (pw_enc _ _ _ _ _ _); [|done]. by injection E as <-.
    + destruct (process_answers a1 a2 a3); [|done]. cbn [rbind] in *.
      destruct (pw_enc _ _ _ _ _ _); [|done]. by injection E as <-.
Qed.

Theorem C76_app_data_refuted :
  exists f : bytes -> bytes -> bytes,
  forall C, CryptoOk C ->
  forall u l raw app, sizes_ok u l -> lock C u l = Ok raw ->
    lock C (set_app u app) l = Ok (f app raw).
Proof.
  exists (fun app => change None (Some app)). intros C CK u l raw app Hs Hl.
  destruct (locked_shape C CK u l raw Hs Hl) as (cs & E & -> & Hf).
  unfold change. rewrite Hf, repack_unpack. unfold lock. cbn [u_seed set_app u_app]. by rewrite E.
Qed.
Print Assumptions C76_app_data_refuted.

Theorem C76_questions_refuted :
  exists f : bytes * bytes * bytes -> bytes -> bytes,
  forall C, CryptoOk C ->
  forall u l raw q1 q2 q3, sizes_ok u l -> l <> [] -> lock C u l = Ok raw ->
    lock C u (map (fun x => (asking q1 q2 q3 x.1, x.2)) l) = Ok (f (q1, q2, q3) raw).
Proof.
  exists (fun q => change (Some q) None). intros C CK u l raw q1 q2 q3 Hs Hn Hl.
  destruct (locked_shape C CK u l raw Hs Hl) as (cs & E & -> & Hf).
  unfold change. rewrite Hf, repack_unpack. unfold lock. rewrite (lock_asking C _ _ _ q1 q2 q3 E). cbn [rbind].
  do 2 f_equal. apply lock_all_rel, Forall2_length in E. destruct cs as [|[] cs]; [|done..].
  destruct l; [done|discriminate E].
Qed.
Print Assumptions C76_questions_refuted.

(** The bundle of [C41], its application data and questions replaced; the old passphrase opens it. *)
Example C76_ex :
  sizes_ok ex_bundle ex_adding
  /\ match lock toy ex_bundle ex_adding with
     | Ok raw =>
         match from_locked (change (Some (str "Who?", str "Where?", str "When?")) (Some (str "other")) raw) with
         | Ok [k1; LkQa _ _ _ q1 q2 q3 _ _ app as k2] =>
             (q1, q2, q3) = (str "Who?", str "Where?", str "When?")
             /\ rmap u_seed (unlock_pw toy k1 (str "pass")) = Ok (fill 32 x07)
             /\ rmap u_app (unlock_pw toy k1 (str "pass")) = Ok (str "other")
             /\ rmap u_seed (unlock_qa toy k2 (str "blue") (str "b") (str "c")) = Ok (fill 32 x07)
         | _ => False
         end
     | Err _ => False
     end.
Proof. split; [exact (proj1 C41_ex)|vm_compute; repeat split; reflexivity]. Qed.
