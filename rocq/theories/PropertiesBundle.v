(** * PropertiesBundle: seed bundles (C41 to C44, C50, C51) *)

From Verif Require Import Base Utf8 Msgpack MsgpackProofs Crypto Toy Types Codec CodecProofs CodecProofs2
  Secret SeedBundle SeedBundleProofs Demo.
From Coq Require Import ZifyBool ZifyNat ZifyN.

(** ** C41: a locked seed bundle opens with any one of its secrets *)

(** The cipher that was asked for stands in the list, with its questions and limits. *)
Definition listed_as (a : adding) (k : locked) : Prop :=
  match a, k with
  | AddPw _ l, LkPw _ mem ops _ _ _ => mem = mem_limit l /\ ops = ops_limit l
  | AddQa q1 q2 q3 _ _ _ l, LkQa _ mem ops p1 p2 p3 _ _ _ =>
      (p1, p2, p3) = (q1, q2, q3) /\ mem = mem_limit l /\ ops = ops_limit l
  | _, _ => False
  end.

(** Unlocking a listed cipher with the secret it was made with. *)
Definition unlock_own (C : Crypto) (a : adding) (k : locked) : res unlocked :=
  match a with
  | AddPw pass _ => unlock_pw C k pass
  | AddQa _ _ _ a1 a2 a3 _ => unlock_qa C k a1 a2 a3
  end.

(** Texts are UTF-8, and nothing is larger than the format can say. *)
Definition sizes_ok (u : unlocked) (l : list (adding * (bytes * bytes))) : Prop :=
  length (u_seed u) = 32 /\ fits32 (u_app u) /\ (N.of_nat (length l) < 2 ^ 32)%N
  /\ Forall (fun x : adding * (bytes * bytes) =>
       length x.2.1 = 16 /\ length x.2.2 = 24
       /\ match x.1 with
          | AddPw _ _ => True
          | AddQa q1 q2 q3 _ _ _ _ => text_ok q1 /\ text_ok q2 /\ text_ok q3
          end) l.

Theorem C41_any_secret_opens :
  forall C, CryptoOk C ->
  forall u l raw rest,
    sizes_ok u l -> lock C u l = Ok raw ->
    exists ks, from_locked (raw ++ rest) = Ok ks
      /\ Forall2 (fun x k =>
           listed_as x.1 k
           /\ exists u', unlock_own C x.1 k = Ok u'
                /\ u_seed u' = u_seed u /\ u_app u' = u_app u
                /\ u_pub u' = sign_pk C (u_seed u)
                /\ forall m, sign_verify C (u_pub u') (sign C u' m) m = true) l ks.
Proof.
  intros C CK u l raw rest (Hs & Ha & Hn & HF) H. unfold lock in H.
  destruct (lock_all C (u_seed u) l) as [cs|] eqn:E; [|done]. injection H as <-.
  apply lock_all_rel in E.
  assert (Forall2 (fun x c => cipher_ok c /\ listed_as x.1 (unpack (u_app u) c)
    /\ exists u', unlock_own C x.1 (unpack (u_app u) c) = Ok u'
                /\ u_seed u' = u_seed u /\ u_app u' = u_app u
                /\ u_pub u' = sign_pk C (u_seed u)
                /\ forall m, sign_verify C (u_pub u') (sign C u' m) m = true) l cs) as H.
  { clear Hn. induction E as [|[a [salt hdr]] c l cs Hc E IH]; [constructor|].
    inversion HF as [|? ? (H1 & H2 & H3) HF']; subst. cbn [fst snd] in *.
    constructor; [|by apply IH]. cbn [fst].
    destruct a as [pass lim|q1 q2 q3 a1 a2 a3 lim]; cbn [lock_one] in Hc.
    - destruct (pw_enc C (u_seed u) pass lim salt hdr) as [d|] eqn:Ed; [|done]. injection Hc as <-.
      destruct (pw_enc_dec C CK _ _ _ _ _ _ Hs Ed) as [Hl Hd].
      destruct (limits_small lim) as [Hm Ho].
      split; [done|]. split; [done|].
      exists (set_app (from_seed C (u_seed u)) (u_app u)). cbn [unlock_own unpack unlock_pw].
      rewrite Hd. cbn. repeat (split; [done|]). intros m. by apply (sign_ok C CK).
    - destruct (process_answers a1 a2 a3) as [pass|] eqn:Ep; [|done]. cbn [rbind] in Hc.
      destruct (pw_enc C (u_seed u) pass lim salt hdr) as [d|] eqn:Ed; [|done]. injection Hc as <-.
      destruct (pw_enc_dec C CK _ _ _ _ _ _ Hs Ed) as [Hl Hd].
      destruct (limits_small lim) as [Hm Ho].
      split; [done|]. split; [done|].
      exists (set_app (from_seed C (u_seed u)) (u_app u)). cbn [unlock_own unpack unlock_qa].
      rewrite Ep. cbn [rbind]. rewrite Hd. cbn. repeat (split; [done|]).
      intros m. by apply (sign_ok C CK). }
  exists (map (unpack (u_app u)) cs). split.
  - apply from_locked_encode; [|apply Forall2_length in H; lia|done].
    clear -H. induction H as [|x c l cs [H _] _ IH]; [constructor|by constructor].
  - apply Forall2_fmap_r. eapply Forall2_impl; [exact H|]. by intros x c [_ ?].
Qed.
Print Assumptions C41_any_secret_opens.

(** Locking fails only when an answer is not text or the password hash fails. *)
Theorem C41_lock_succeeds :
  forall C u l,
    Forall (fun x : adding * (bytes * bytes) =>
      match x.1 with
      | AddPw _ _ => True
      | AddQa _ _ _ a1 a2 a3 _ => utf8 a1 = true /\ utf8 a2 = true /\ utf8 a3 = true
      end) l ->
    (forall p salt lim, is_ok (argon2id C p salt (ops_limit lim) (mem_limit lim)) = true) ->
    exists raw, lock C u l = Ok raw.
Proof.
  intros C u l HF Ha. unfold lock.
  destruct (lock_all_total C (u_seed u) l) as [cs ->]; [|by eexists].
  eapply Forall_impl; [exact HF|]. intros [a [salt hdr]] Hx. cbn [fst snd] in *.
  assert (forall pass lim, is_ok (pw_enc C (u_seed u) pass lim salt hdr) = true) as Hp.
  { intros pass lim. unfold pw_enc, pw_key. specialize (Ha (blake2b C 64 pass) salt lim).
    by destruct (argon2id C _ salt _ _). }
  destruct a as [pass lim|q1 q2 q3 a1 a2 a3 lim]; cbn [lock_one].
  - specialize (Hp pass lim). by destruct (pw_enc C _ pass lim salt hdr).
  - destruct Hx as (H1 & H2 & H3). rewrite <- trimmed_ok in H1, H2, H3. unfold process_answers.
    destruct (trimmed a1) as [x1|]; [|done]. destruct (trimmed a2) as [x2|]; [|done].
    destruct (trimmed a3) as [x3|]; [|done]. cbn [rbind].
    specialize (Hp (map lower (x1 ++ x2 ++ x3)) lim). by destruct (pw_enc C _ _ lim salt hdr).
Qed.
Print Assumptions C41_lock_succeeds.

Definition ex_bundle : unlocked := set_app (from_seed toy (fill 32 x07)) (str "data").
Definition ex_adding : list (adding * (bytes * bytes)) :=
  [(AddPw (str "pass") Minimum, (fill 16 x01, fill 24 x02));
   (AddQa (str "q1") (str "q2") (str "q3") (str " Blue") (str "b") (str "c ") Sensitive,
    (fill 16 x03, fill 24 x04))].

(** A bundle with a passphrase and questions; the answers are given in other case and spacing. *)
Example C41_ex :
  sizes_ok ex_bundle ex_adding
  /\ match lock toy ex_bundle ex_adding with
     | Ok raw =>
         match from_locked raw with
         | Ok [k1; k2] =>
             rmap u_seed (unlock_pw toy k1 (str "pass")) = Ok (fill 32 x07)
             /\ rmap u_app (unlock_qa toy k2 (str "blue ") (str " B") (str "C")) = Ok (str "data")
             /\ is_ok (unlock_pw toy k1 (str "other")) = false
         | _ => False
         end
     | Err _ => False
     end.
Proof.
  split; [|vm_compute; repeat split; reflexivity].
  split; [done|]. split; [done|]. split; [done|]. repeat constructor.
Qed.

(** Only what carries the mark of the format is read as a bundle: three values, the first
    of them the text "hcsb0". *)
Theorem C41_only_bundles :
  forall v rest ks, mwf v -> mdepth v <= MAX_DEPTH -> from_locked (enc v ++ rest) = Ok ks ->
    exists mark ciphers app, v = MArr [mark; ciphers; app]
      /\ (mark = MStr (str "hcsb0") \/ mark = MBin (str "hcsb0")).
Proof.
  intros v rest ks Hw Hd. unfold from_locked. rewrite decode_first_enc by done. cbn [obind].
  destruct (rbundle v) as [[l app]|] eqn:E; [intros _|done].
  destruct v as [| | | | |[|id [|ci [|ap [|]]]]| | |]; try done. exists id, ci, ap. split; [done|].
  cbn [rbundle] in E.
  destruct (rtext id) as [m|] eqn:Em; [|done]. cbn [obind] in E.
  destruct (rlist rcipher ci); [|done]. destruct (rbytes ap); [|done]. cbn [obind] in E.
  destruct (beq m (str "hcsb0")) eqn:Eb; [|done]. apply beq_true in Eb as ->.
  destruct id; try done; cbn [rtext] in Em; case_match; try done; injection Em as ->; auto.
Qed.
Print Assumptions C41_only_bundles.

Example C41_only_bundles_ex :
  is_ok (from_locked (enc (MArr [MStr (str "hcsb0"); MArr []; MBin []]))) = true
  /\ is_ok (from_locked (enc (MArr [MStr (str "hcsb1"); MArr []; MBin []]))) = false.
Proof. vm_compute. split; reflexivity. Qed.

(** ** C42: bundles with unknown ciphers remain readable *)

(** False of the code: one cipher of an unknown kind makes the whole bundle unreadable. *)
Theorem C42_unknown_cipher_refuted :
  forall l1 name fields l2 app rest,
    utf8 name = true -> name <> str "pw" -> name <> str "qa" ->
    let v := MArr [MStr (str "hcsb0"); MArr (l1 ++ MArr (MStr name :: fields) :: l2); MBin app] in
    mwf v -> mdepth v <= MAX_DEPTH ->
    from_locked (enc v ++ rest) = Err (str "decode").
Proof.
  intros l1 name fields l2 app rest Hu H1 H2 v Hw Hd. unfold from_locked.
  rewrite decode_first_enc by done. unfold v. cbn [obind rbundle].
  change (rtext (MStr (str "hcsb0"))) with (Some (str "hcsb0")). cbn [obind rlist].
  assert (rcipher (MArr (MStr name :: fields)) = None) as Hc.
  { cbn [rcipher rtext]. rewrite Hu. cbn [obind].
    destruct (beq name (str "pw")) eqn:E1; [by apply beq_true in E1|].
    destruct (beq name (str "qa")) eqn:E2; [by apply beq_true in E2|]. done. }
  assert (rall rcipher (l1 ++ MArr (MStr name :: fields) :: l2) = None) as ->; [|done].
  clear -Hc. induction l1 as [|x l1 IH].
  - cbn [app rall]. by rewrite Hc.
  - cbn [app rall]. rewrite IH. by destruct (rcipher x).
Qed.
Print Assumptions C42_unknown_cipher_refuted.

(** And no bundle is ever reported to have an unsupported cipher. *)
Theorem C42_never_reported_refuted :
  forall raw ks name, from_locked raw = Ok ks -> LkUnsupported name ∉ ks.
Proof.
  intros raw ks name. unfold from_locked.
  generalize (obind (decode_first raw) (fun v => rbundle v)). intros [[l app]|] H; [|done].
  injection H as <-. intros Hin. apply elem_of_list_fmap in Hin as (c & E & _). by destruct c.
Qed.
Print Assumptions C42_never_reported_refuted.

(** A bundle with the given ciphers and application data. *)
Definition a_bundle (ciphers : list mval) (app : bytes) : mval :=
  MArr [MStr (str "hcsb0"); MArr ciphers; MBin app].

Lemma from_locked_rall vs app rest :
  mwf (a_bundle vs app) -> mdepth (a_bundle vs app) <= MAX_DEPTH ->
  from_locked (enc (a_bundle vs app) ++ rest) =
  match rall rcipher vs with
  | None => Err (str "decode")
  | Some l => Ok (map (fun c =>
                 match c with
                 | ScPw salt mem ops h d => LkPw salt mem ops h d app
                 | ScQa salt mem ops q1 q2 q3 h d => LkQa salt mem ops q1 q2 q3 h d app
                 end) l)
  end.
Proof.
  intros Hw Hd. unfold from_locked. rewrite decode_first_enc by done. unfold a_bundle. cbn [obind rbundle].
  change (rtext (MStr (str "hcsb0"))) with (Some (str "hcsb0")). cbn [obind rlist].
  by destruct (rall rcipher vs).
Qed.

Lemma a_bundle_one vs app v :
  v ∈ vs -> mwf (a_bundle vs app) -> mdepth (a_bundle vs app) <= MAX_DEPTH ->
  mwf (a_bundle [v] app) /\ mdepth (a_bundle [v] app) <= MAX_DEPTH.
Proof.
  intros Hin Hw Hd. unfold a_bundle in *. cbn [mwf fold_right mdepth] in *.
  destruct Hw as (H1 & H2 & (H3 & H4) & H5 & _).
  assert (mwf v /\ mdepth v <= fold_right (fun x a => Nat.max (mdepth x) a) 0 vs) as [Hv Hm].
  { clear -Hin H4. induction vs as [|x vs IH]; [by apply elem_of_nil in Hin|]. cbn [fold_right] in *.
    destruct H4 as [Hx H4]. apply elem_of_cons in Hin as [->|Hin]; [split; [done|lia]|].
    destruct (IH Hin H4). split; [done|lia]. }
  split; [|lia]. split; [done|]. split; [done|]. split; [|done]. split; [|done]. cbn; lia.
Qed.

(** Exactly: a bundle opens just when each of its ciphers, put alone into a bundle, does, and it
    offers what they do, in their order. *)
Theorem C42_exactly :
  forall vs app rest,
    mwf (a_bundle vs app) -> mdepth (a_bundle vs app) <= MAX_DEPTH ->
  forall ks,
    from_locked (enc (a_bundle vs app) ++ rest) = Ok ks
    <-> Forall2 (fun v k => from_locked (enc (a_bundle [v] app) ++ rest) = Ok [k]) vs ks.
Proof.
  intros vs app rest Hw Hd ks. rewrite from_locked_rall by done.
  assert (forall v, v ∈ vs -> forall k,
    (from_locked (enc (a_bundle [v] app) ++ rest) = Ok [k]
     <-> exists c, rcipher v = Some c /\ k =
        match c with
        | ScPw salt mem ops h d => LkPw salt mem ops h d app
        | ScQa salt mem ops q1 q2 q3 h d => LkQa salt mem ops q1 q2 q3 h d app
        end)) as H1.
  { intros v Hin k. destruct (a_bundle_one vs app v Hin Hw Hd) as [Hw1 Hd1].
    rewrite from_locked_rall by done. cbn [rall]. destruct (rcipher v) as [c|]; cbn [obind map].
    - split; [intros [= <-]; by exists c|]. intros (c' & [= <-] & ->). done.
    - split; [done|]. by intros (c' & ? & _). }
  clear Hw Hd. revert ks. induction vs as [|v vs IH]; intros ks.
  - cbn. split; [intros [= <-]; constructor|]. intros HF. by inversion HF.
  - cbn [rall].
    assert (forall v, v ∈ vs -> forall k,
      (from_locked (enc (a_bundle [v] app) ++ rest) = Ok [k]
       <-> exists c, rcipher v = Some c /\ k =
          match c with
          | ScPw salt mem ops h d => LkPw salt mem ops h d app
          | ScQa salt mem ops q1 q2 q3 h d => LkQa salt mem ops q1 q2 q3 h d app
          end)) as H1'.
    { intros w Hin. apply H1. by apply elem_of_list_further. }
    specialize (IH H1'). specialize (H1 v ltac:(by apply elem_of_list_here)). split.
    + destruct (rcipher v) as [c|] eqn:Ec; [|done]. cbn [obind].
      destruct (rall rcipher vs) as [l|] eqn:El; [|done]. cbn [obind map].
      intros [= <-]. constructor; [apply H1; by exists c|]. by apply IH.
    + intros HF. inversion HF as [|? k ? ks' Hk HF']; subst. apply H1 in Hk as (c & Ec & ->).
      rewrite Ec. cbn [obind]. apply IH in HF'. destruct (rall rcipher vs) as [l|]; [|done].
      injection HF' as <-. done.
Qed.
Print Assumptions C42_exactly.

(** What is true: ciphers of the known kinds are all read, whatever their number and order
    ([C41_any_secret_opens]). *)

(** A known cipher beside an unknown one. *)
Example C42_ex :
  match lock_all toy (fill 32 x07) ex_adding with
  | Ok [c1; c2] =>
      is_ok (from_locked (enc (MArr [MStr (str "hcsb0"); MArr [wcipher c1; wcipher c2]; MBin []]))) = true
      /\ is_ok (from_locked (enc (MArr [MStr (str "hcsb0");
           MArr [wcipher c1; MArr [MStr (str "fido"); MBin (str "x")]]; MBin []]))) = false
  | _ => False
  end.
Proof. vm_compute. split; reflexivity. Qed.

Example C42_exactly_ex :
  match lock_all toy (fill 32 x07) ex_adding with
  | Ok [c1; c2] =>
      match from_locked (enc (a_bundle [wcipher c1; wcipher c2] (str "a"))),
            from_locked (enc (a_bundle [wcipher c1] (str "a"))),
            from_locked (enc (a_bundle [wcipher c2] (str "a"))) with
      | Ok [k1; k2], Ok [k1'], Ok [k2'] => k1 = k1' /\ k2 = k2'
      | _, _, _ => False
      end
  | _ => False
  end.
Proof. vm_compute. split; reflexivity. Qed.

(** ** C43: hashing limits apply exactly within their scope *)

(** The limits in force, by the nesting of the scopes in the text: what each use of the current
    limits must give, and whether the code panics. *)
Fixpoint scoped (now : limits) (c : lcode) : list limits * bool :=
  let fix seq (now : limits) (l : list lcode) : list limits * bool :=
    match l with
    | [] => ([], false)
    | c :: l =>
        match scoped now c with
        | (o, true) => (o, true)
        | (o, false) => let (o', p) := seq now l in (o ++ o', p)
        end
    end in
  match c with
  | LCurrent => ([now], false)
  | LWith l body => seq l body
  | LPanic => ([], true)
  | LCatch body => let (o, _) := seq now body in (o, false)
  end.

Fixpoint scoped_all (now : limits) (l : list lcode) : list limits * bool :=
  match l with
  | [] => ([], false)
  | c :: l =>
      match scoped now c with
      | (o, true) => (o, true)
      | (o, false) => let (o', p) := scoped_all now l in (o ++ o', p)
      end
  end.

(** No scope is opened in the code. *)
Fixpoint no_scope (c : lcode) : bool :=
  match c with
  | LCurrent | LPanic => true
  | LWith _ _ => false
  | LCatch body => forallb no_scope body
  end.

(** Scopes are not nested, and no panic leaves one. *)
Fixpoint flat (c : lcode) : bool :=
  match c with
  | LCurrent | LPanic => true
  | LWith l body => forallb no_scope body && negb (scoped_all l body).2
  | LCatch body => forallb flat body
  end.

(** The property as stated: a thread's every use of the limits sees those of the innermost
    scope around it, and the default outside all scopes. *)
Definition limits_scoped (l : list lcode) : Prop :=
  (lrun_all Moderate l).1 = scoped_all Moderate l.

Lemma scoped_with now l body : scoped now (LWith l body) = scoped_all l body.
Proof. induction body as [|c body IH]; [done|]. cbn in *. rewrite IH. done. Qed.

Lemma scoped_catch now body :
  scoped now (LCatch body) = ((scoped_all now body).1, false).
Proof.
  assert (forall n, (fix seq (now : limits) (l : list lcode) : list limits * bool :=
    match l with
    | [] => ([], false)
    | c :: l =>
        match scoped now c with
        | (o, true) => (o, true)
        | (o, false) => let (o', p) := seq now l in (o ++ o', p)
        end
    end) n body = scoped_all n body) as H.
  { induction body as [|c body IH]; [done|]. intros n. cbn. by rewrite IH. }
  cbn. rewrite H. by destruct (scoped_all now body).
Qed.

Lemma lrun_seq n body : (fix seq (now : limits) (l : list lcode) : list limits * bool * limits :=
    match l with
    | [] => ([], false, now)
    | c :: l =>
        match lrun now c with
        | (o, true, now) => (o, true, now)
        | (o, false, now) => let '(o', p, now) := seq now l in (o ++ o', p, now)
        end
    end) n body = lrun_all n body.
Proof. revert n. induction body as [|c body IH]; [done|]. intros n. cbn. destruct (lrun n c) as [[o []] n']; [done|]. by rewrite IH. Qed.

Lemma lcode_ind' (P : lcode -> Prop) :
  P LCurrent -> (forall l body, Forall P body -> P (LWith l body)) -> P LPanic ->
  (forall body, Forall P body -> P (LCatch body)) -> forall c, P c.
Proof.
  intros H1 H2 H3 H4. fix IH 1. intros [|l body| |body]; [exact H1| |exact H3|].
  - apply H2. induction body; constructor; [apply IH|done].
  - apply H4. induction body; constructor; [apply IH|done].
Qed.

Lemma no_scope_run_all body :
  Forall (fun c => no_scope c = true -> forall now, lrun now c = (scoped now c, now)) body ->
  forallb no_scope body = true ->
  forall now, lrun_all now body = (scoped_all now body, now).
Proof.
  induction 1 as [|c body H HF IH]; [done|]. cbn [forallb]. intros [H1 H2]%andb_true_iff now.
  cbn [lrun_all scoped_all]. rewrite H by done. destruct (scoped now c) as [o []]; [done|].
  rewrite IH by done. by destruct (scoped_all now body).
Qed.

Lemma no_scope_run c :
  no_scope c = true -> forall now, lrun now c = (scoped now c, now).
Proof.
  induction c as [|l body IH| |body IH] using lcode_ind'; try done.
  intros Hn now. rewrite scoped_catch. cbn [lrun]. rewrite lrun_seq.
  rewrite (no_scope_run_all body IH Hn). by destruct (scoped_all now body).
Qed.

Lemma flat_run_all body :
  Forall (fun c => flat c = true -> lrun Moderate c = (scoped Moderate c, Moderate)) body ->
  forallb flat body = true -> lrun_all Moderate body = (scoped_all Moderate body, Moderate).
Proof.
  induction 1 as [|c body H HF IH]; [done|]. cbn [forallb]. intros [H1 H2]%andb_true_iff.
  cbn [lrun_all scoped_all]. rewrite H by done. destruct (scoped Moderate c) as [o []]; [done|].
  rewrite IH by done. by destruct (scoped_all Moderate body).
Qed.

Lemma flat_run c : flat c = true -> lrun Moderate c = (scoped Moderate c, Moderate).
Proof.
  induction c as [|l body IH| |body IH] using lcode_ind'; try done.
  - cbn [flat]. intros [H1 H2]%andb_true_iff. rewrite scoped_with. cbn [lrun]. rewrite lrun_seq.
    rewrite no_scope_run_all; [|by apply Forall_true; apply no_scope_run|done].
    by destruct (scoped_all l body) as [o []].
  - cbn [flat]. intros H. rewrite scoped_catch. cbn [lrun]. rewrite lrun_seq.
    rewrite (flat_run_all body IH H). by destruct (scoped_all Moderate body).
Qed.

(** True when scopes are not nested and no panic leaves one. *)
Theorem C43_scoped_partial : forall l, forallb flat l = true -> limits_scoped l.
Proof.
  intros l H. unfold limits_scoped. rewrite flat_run_all; [done| |done].
  apply Forall_true, flat_run.
Qed.
Print Assumptions C43_scoped_partial.

(** Within any scope, wherever it is opened, the chosen limits hold up to the first scope
    opened inside it. *)
Theorem C43_inside :
  forall now l body more,
    forallb no_scope body = true -> (scoped_all l body).2 = false ->
    exists later, (lrun now (LWith l (body ++ more))).1.1 = (scoped_all l body).1 ++ later.
Proof.
  intros now l body more Hn Hp. cbn [lrun]. rewrite lrun_seq.
  assert (exists later p n, lrun_all l (body ++ more) = ((scoped_all l body).1 ++ later, p, n))
    as (later & p & n & ->); [|exists later; by destruct p].
  induction body as [|c body IH].
  - cbn. destruct (lrun_all l more) as [[o p] n]. by exists o, p, n.
  - cbn [forallb] in Hn. apply andb_true_iff in Hn as [H1 H2]. cbn [app lrun_all scoped_all] in *.
    rewrite no_scope_run by done. destruct (scoped l c) as [o []]; [done|].
    destruct (scoped_all l body) as [o' p'] eqn:E. cbn [fst snd] in *.
    destruct (IH H2 Hp) as (later & p & n & ->). exists later, p, n. by rewrite app_assoc.
Qed.
Print Assumptions C43_inside.

(** False when scopes are nested: the end of an inner scope restores the default, not the
    limits of the scope around it. *)
Theorem C43_nested_refuted :
  forall outer inner, outer <> Moderate ->
    ~ limits_scoped [LWith outer [LWith inner []; LCurrent]]
    /\ (lrun_all Moderate [LWith outer [LWith inner []; LCurrent]]).1 = ([Moderate], false).
Proof. intros outer inner H. split; [|done]. intros E. injection E as E. done. Qed.
Print Assumptions C43_nested_refuted.

(** Nesting changes nothing about which code is run. *)
Lemma panic_all body :
  Forall (fun c => forall n m, (lrun n c).1.2 = (scoped m c).2) body ->
  forall n m, (lrun_all n body).1.2 = (scoped_all m body).2.
Proof.
  induction 1 as [|c body H HF IH]; [done|]. intros n m. cbn [lrun_all scoped_all].
  specialize (H n m). destruct (lrun n c) as [[o p] n'], (scoped m c) as [o' p']. cbn in H. subst p'.
  destruct p; [done|]. specialize (IH n' m). destruct (lrun_all n' body) as [[? ?] ?], (scoped_all m body) as [? ?]. done.
Qed.
Lemma panic_same c : forall n m, (lrun n c).1.2 = (scoped m c).2.
Proof.
  induction c as [|l body HF| |body HF] using lcode_ind'; intros n m; try done.
  - rewrite scoped_with. cbn [lrun]. rewrite lrun_seq. pose proof (panic_all body HF l l) as H.
    destruct (lrun_all l body) as [[o []] n']; done.
  - rewrite scoped_catch. cbn [lrun]. rewrite lrun_seq. by destruct (lrun_all n body) as [[o p] n'].
Qed.

(** In general: after the end of a scope, whatever it contains and whatever limits were in force
    before it, the default is in force; so what was in force before is only if that was the
    default. *)
Theorem C43_after_exactly :
  forall now l body, (scoped_all l body).2 = false ->
    (exists uses, (lrun_all now [LWith l body; LCurrent]).1 = (uses ++ [Moderate], false))
    /\ ((exists uses, (lrun_all now [LWith l body; LCurrent]).1 = (uses ++ [now], false)) <-> now = Moderate).
Proof.
  intros now l body Hp.
  assert (exists uses, (lrun_all now [LWith l body; LCurrent]).1 = (uses ++ [Moderate], false)) as H.
  { pose proof (panic_same (LWith l body) now l) as H. rewrite scoped_with, Hp in H.
    cbn [lrun_all]. cbn [lrun] in H |- *. rewrite lrun_seq in H |- *. destruct (lrun_all l body) as [[o p] n].
    destruct p; [done|]. exists o. done. }
  split; [done|]. split; [|by intros ->].
  destruct H as [uses H]. intros [uses' H']. rewrite H in H'. injection H' as H'.
  apply app_inj_tail in H' as [_ ->]. done.
Qed.
Print Assumptions C43_after_exactly.

(** False when a panic leaves a scope: its limits stay in force in the thread. *)
Theorem C43_panic_refuted :
  forall l, l <> Moderate ->
    ~ limits_scoped [LCatch [LWith l [LPanic]]; LCurrent]
    /\ (lrun_all Moderate [LCatch [LWith l [LPanic]]; LCurrent]).1 = ([l], false).
Proof. intros l H. split; [|done]. intros E. injection E as E. done. Qed.
Print Assumptions C43_panic_refuted.

(** Stronger limits cost more, in time and in memory. *)
Theorem C43_ordered :
  (ops_limit Minimum < ops_limit Interactive < ops_limit Moderate)%N /\ (ops_limit Moderate < ops_limit Sensitive)%N
  /\ (mem_limit Minimum < mem_limit Interactive < mem_limit Moderate)%N /\ (mem_limit Moderate < mem_limit Sensitive)%N.
Proof. by vm_compute. Qed.
Print Assumptions C43_ordered.

Example C43_ex :
  forallb flat [LCurrent; LWith Sensitive [LCurrent; LCatch [LCurrent; LPanic]; LCurrent]; LCurrent] = true
  /\ scoped_all Moderate [LCurrent; LWith Sensitive [LCurrent; LCatch [LCurrent; LPanic]; LCurrent]; LCurrent]
     = ([Moderate; Sensitive; Sensitive; Sensitive; Moderate], false).
Proof. done. Qed.

Example C43_inside_ex :
  (lrun_all Moderate [LWith Sensitive [LCurrent; LWith Minimum [LCurrent]; LCurrent]; LCurrent]).1
  = ([Sensitive; Minimum; Moderate; Moderate], false).
Proof. done. Qed.

Example C43_after_ex :
  (scoped_all Minimum [LCurrent; LCatch [LWith Interactive [LPanic]]; LCurrent]).2 = false
  /\ (lrun_all Sensitive [LWith Minimum [LCurrent; LCatch [LWith Interactive [LPanic]]; LCurrent]; LCurrent]).1
     = ([Minimum; Interactive; Moderate], false).
Proof. done. Qed.

(** ** C44: security answers *)

(** The white space characters of Unicode, in UTF-8: U+0009 to U+000D, U+0020, U+0085, U+00A0,
    U+1680, U+2000 to U+200A, U+2028, U+2029, U+202F, U+205F, U+3000. *)
Definition white_chars : list bytes :=
  [[x09]; [x0a]; [x0b]; [x0c]; [x0d]; [x20]; [xc2; x85]; [xc2; xa0]; [xe1; x9a; x80];
   [xe2; x80; x80]; [xe2; x80; x81]; [xe2; x80; x82]; [xe2; x80; x83]; [xe2; x80; x84];
   [xe2; x80; x85]; [xe2; x80; x86]; [xe2; x80; x87]; [xe2; x80; x88]; [xe2; x80; x89];
   [xe2; x80; x8a]; [xe2; x80; xa8]; [xe2; x80; xa9]; [xe2; x80; xaf]; [xe2; x81; x9f];
   [xe3; x80; x80]].

Definition blank (w : bytes) : Prop := exists l, w = concat l /\ Forall (fun c => c ∈ white_chars) l.

(** The same byte, or an ASCII letter in upper and lower case. *)
Definition case_eq (a b : byte) : Prop :=
  a = b \/ exists n : N, (n < 26)%N
    /\ ((nb a = 65 + n /\ nb b = 97 + n) \/ (nb a = 97 + n /\ nb b = 65 + n))%N.

(** [x] is the text of the answer [a] without the white space around it. *)
Definition core_of (a x : bytes) : Prop :=
  utf8 x = true
  /\ (exists w v, a = w ++ x ++ v /\ blank w /\ blank v)
  /\ (forall c r, c ∈ white_chars -> utf8 r = true -> x <> c ++ r /\ x <> r ++ c).

(** The answers differ at most in case and in white space around them. *)
Definition same_answer (a b : bytes) : Prop :=
  exists x y w1 w2 v1 v2, a = w1 ++ x ++ w2 /\ b = v1 ++ y ++ v2
    /\ blank w1 /\ blank w2 /\ blank v1 /\ blank v2 /\ utf8 x = true /\ Forall2 case_eq x y.

Lemma white_char_white c : c ∈ white_chars <-> chars c = Some [c] /\ white c = true.
Proof.
  split.
  - intros H. unfold white_chars in H. repeat (apply elem_of_cons in H as [->|H]; [by vm_compute|]).
    by apply elem_of_nil in H.
  - intros [_ H].
    assert (forall lo hi x, in_range lo hi x = true -> exists n, nb x = n /\ (lo <= n <= hi)%N) as Hr.
    { intros lo hi x Hx. unfold in_range in Hx. exists (nb x). split; [done|]. lia. }
    assert (forall x n, nb x = n -> x = bn n) as Hb by (intros x n <-; by rewrite bn_nb).
    destruct c as [|x1 [|x2 [|x3 [|]]]]; try done; cbn [white] in H.
    + apply orb_true_iff in H as [H|H]; apply Hr in H as (n & E & Hn); apply Hb in E as ->.
      * assert (n = 9 \/ n = 10 \/ n = 11 \/ n = 12 \/ n = 13)%N as Hn' by lia.
        destruct Hn' as [->|[->|[->|[->| ->]]]]; apply (bool_decide_unpack _); by vm_compute.
      * assert (n = 32)%N as -> by lia. apply (bool_decide_unpack _); by vm_compute.
    + apply andb_true_iff in H as [H1 H2]. apply Hr in H1 as (n & E & Hn); apply Hb in E as ->.
      assert (n = 194)%N as -> by lia.
      apply orb_true_iff in H2 as [H|H]; apply Hr in H as (m & E & Hm); apply Hb in E as ->;
        [assert (m = 133)%N as -> by lia|assert (m = 160)%N as -> by lia];
        apply (bool_decide_unpack _); by vm_compute.
    + rewrite !orb_true_iff, !andb_true_iff, !orb_true_iff in H.
      destruct H as [[[[[H1 H2] H3]|[[H1 H2] H3]]|[[H1 H2] H3]]|[[H1 H2] H3]];
        apply Hr in H1 as (n1 & E & Hn1); apply Hb in E as ->;
        apply Hr in H2 as (n2 & E & Hn2); apply Hb in E as ->.
      * apply Hr in H3 as (n3 & E & Hn3); apply Hb in E as ->.
        assert (n1 = 225)%N as -> by lia. assert (n2 = 154)%N as -> by lia.
        assert (n3 = 128)%N as -> by lia. apply (bool_decide_unpack _); by vm_compute.
      * assert (n1 = 226)%N as -> by lia. assert (n2 = 128)%N as -> by lia.
        destruct H3 as [[H|H]|H]; apply Hr in H as (n3 & E & Hn3); apply Hb in E as ->.
        -- assert (n3 = 128 \/ n3 = 129 \/ n3 = 130 \/ n3 = 131 \/ n3 = 132 \/ n3 = 133
                   \/ n3 = 134 \/ n3 = 135 \/ n3 = 136 \/ n3 = 137 \/ n3 = 138)%N as H by lia.
           repeat destruct H as [->|H]; [..|rewrite H]; apply (bool_decide_unpack _); by vm_compute.
        -- assert (n3 = 168 \/ n3 = 169)%N as [->| ->] by lia;
             apply (bool_decide_unpack _); by vm_compute.
        -- assert (n3 = 175)%N as -> by lia. apply (bool_decide_unpack _); by vm_compute.
      * apply Hr in H3 as (n3 & E & Hn3); apply Hb in E as ->.
        assert (n1 = 226)%N as -> by lia. assert (n2 = 129)%N as -> by lia.
        assert (n3 = 159)%N as -> by lia. apply (bool_decide_unpack _); by vm_compute.
      * apply Hr in H3 as (n3 & E & Hn3); apply Hb in E as ->.
        assert (n1 = 227)%N as -> by lia. assert (n2 = 128)%N as -> by lia.
        assert (n3 = 128)%N as -> by lia. apply (bool_decide_unpack _); by vm_compute.
Qed.

Lemma case_eq_letter a b : case_eq a b <-> same_letter a b.
Proof.
  unfold case_eq, same_letter, lower, in_range. pose proof (nb_lt a). pose proof (nb_lt b). split.
  - intros [->|(n & Hn & H')]; [done|].
    destruct (N.leb_spec 65 (nb a)), (N.leb_spec (nb a) 90), (N.leb_spec 65 (nb b)), (N.leb_spec (nb b) 90);
      cbn [andb]; try lia.
    + apply nb_inj. rewrite nb_bn by lia. lia.
    + apply nb_inj. rewrite nb_bn by lia. lia.
  - intros E.
    destruct (N.leb_spec 65 (nb a)), (N.leb_spec (nb a) 90), (N.leb_spec 65 (nb b)), (N.leb_spec (nb b) 90);
      cbn [andb] in E; try (by left).
    all: apply (f_equal nb) in E; rewrite ?nb_bn in E by lia.
    all: try (left; apply nb_inj; lia).
    all: right.
    all: first [exists (nb a - 65)%N; lia | exists (nb b - 65)%N; lia].
Qed.

Lemma blank_chars w : blank w -> exists l, chars w = Some l /\ forallb white l = true.
Proof.
  intros (l & -> & HF). exists l. split.
  - apply chars_of. eapply Forall_impl; [exact HF|]. by intros c [? _]%white_char_white.
  - apply forallb_forall. intros c Hc%elem_of_list_In. rewrite Forall_forall in HF.
    by apply HF, white_char_white in Hc as [_ ?].
Qed.

Lemma same_answer_trimmed a b : same_answer a b ->
  rmap (map lower) (trimmed a) = rmap (map lower) (trimmed b).
Proof.
  intros (x & y & w1 & w2 & v1 & v2 & -> & -> & W1 & W2 & V1 & V2 & Hu & HF).
  assert (Forall2 same_letter x y) as HF'.
  { eapply Forall2_impl; [exact HF|]. by intros ? ? ?%case_eq_letter. }
  assert (utf8 y = true) as Hy.
  { apply utf8_chars in Hu as [l El]. apply chars_same in HF'. rewrite El in HF'.
    apply utf8_chars. destruct (chars y) as [l'|]; [by exists l'|done]. }
  apply blank_chars in W1 as (? & ? & ?). apply blank_chars in W2 as (? & ? & ?).
  apply blank_chars in V1 as (? & ? & ?). apply blank_chars in V2 as (? & ? & ?).
  rewrite !(trimmed_white _ _ _ _ _) by eassumption. by apply trimmed_same.
Qed.

(** Answers that differ only in case and surrounding white space unlock the same bundles,
    to the same contents. *)
Theorem C44_same_answers_unlock_alike :
  forall C k a1 a2 a3 b1 b2 b3,
    same_answer a1 b1 -> same_answer a2 b2 -> same_answer a3 b3 ->
    unlock_qa C k a1 a2 a3 = unlock_qa C k b1 b2 b3.
Proof.
  intros C k a1 a2 a3 b1 b2 b3 H1%same_answer_trimmed H2%same_answer_trimmed H3%same_answer_trimmed.
  unfold unlock_qa. destruct k; try done. by rewrite (process_same _ _ _ _ _ _ H1 H2 H3).
Qed.
Print Assumptions C44_same_answers_unlock_alike.

(** So a bundle locked with answers opens with any variant of them. *)
Theorem C44_variants_unlock :
  forall C, CryptoOk C ->
  forall u l raw rest i q1 q2 q3 a1 a2 a3 lim r b1 b2 b3,
    sizes_ok u l -> lock C u l = Ok raw ->
    l !! i = Some (AddQa q1 q2 q3 a1 a2 a3 lim, r) ->
    same_answer a1 b1 -> same_answer a2 b2 -> same_answer a3 b3 ->
    exists ks k u', from_locked (raw ++ rest) = Ok ks /\ ks !! i = Some k
      /\ unlock_qa C k b1 b2 b3 = Ok u' /\ u_seed u' = u_seed u /\ u_app u' = u_app u.
Proof.
  intros C CK u l raw rest i q1 q2 q3 a1 a2 a3 lim r b1 b2 b3 Hs Hl Hi H1 H2 H3.
  destruct (C41_any_secret_opens C CK u l raw rest Hs Hl) as (ks & Ek & HF).
  destruct (Forall2_lookup_l _ _ _ _ _ HF Hi) as (k & Hk & _ & u' & Hu & Es & Ea & _).
  exists ks, k, u'. repeat (split; [done|]). split; [|done].
  rewrite <- Hu. symmetry. by apply C44_same_answers_unlock_alike.
Qed.
Print Assumptions C44_variants_unlock.

Lemma trimmed_core a x : trimmed a = Ok x -> core_of a x.
Proof.
  intros H. pose proof (trimmed_split a x H) as (l1 & l2 & Ea & F1 & F2 & Hu).
  split; [done|]. split.
  - exists (concat l1), (concat l2). split; [done|].
    split; [exists l1|exists l2]; (split; [done|]); (eapply Forall_impl; [eassumption|]);
      intros c Hc; by apply white_char_white.
  - assert (exists l, chars x = Some (trim l)) as (l & El).
    { unfold trimmed in H. destruct (chars a) as [l|] eqn:E; [|done]. injection H as <-.
      exists l. apply chars_of. destruct (trim_split l) as (w1 & w2 & E1 & _).
      apply chars_single in E. rewrite E1 in E. apply Forall_app in E as [_ E].
      apply Forall_app in E as [E _]. eapply Forall_impl; [exact E|]. by intros c [? _]. }
    assert (trim (trim l) = trim l) as Hi.
    { unfold trim at 2 3. destruct (trim_split l) as (w1 & w2 & E1 & W1 & W2).
      pose proof (trim_white w1 (trim l) w2 W1 W2) as E. rewrite <- E1 in E. symmetry. exact E. }
    intros c r [Hc Hw]%white_char_white [lr Er]%utf8_chars. split; intros ->.
    + rewrite (chars_app _ _ _ Hc), Er in El. injection El as El. rewrite <- El in Hi.
      assert (forallb white [c] = true) as W by (cbn; by rewrite Hw).
      pose proof (trim_white [c] lr [] W eq_refl) as E. rewrite app_nil_r in E.
      cbn [app] in *. rewrite E in Hi. destruct (trim_split lr) as (w1 & w2 & E1 & _).
      apply (f_equal length) in Hi, E1. rewrite !app_length in E1. cbn in Hi. lia.
    + rewrite (chars_app _ _ _ Er), Hc in El. injection El as El. rewrite <- El in Hi.
      assert (forallb white [c] = true) as W by (cbn; by rewrite Hw).
      pose proof (trim_white [] lr [c] eq_refl W) as E. cbn [app] in E. rewrite E in Hi.
      destruct (trim_split lr) as (w1 & w2 & E1 & _).
      apply (f_equal length) in Hi, E1. rewrite !app_length in E1. rewrite app_length in Hi.
      cbn in Hi. lia.
Qed.

(** Conversely two triples of answers that give the same passphrase agree, up to case, in what
    remains of them without white space and boundaries; so if the answers have the same lengths
    they are the same answers.  Missing for the full property: the boundaries between the
    answers, which the passphrase does not keep ([C44_boundaries_refuted]). *)
Theorem C44_same_passphrase_partial :
  forall a1 a2 a3 b1 b2 b3 p,
    process_answers a1 a2 a3 = Ok p -> process_answers b1 b2 b3 = Ok p ->
    exists x1 x2 x3 y1 y2 y3,
      core_of a1 x1 /\ core_of a2 x2 /\ core_of a3 x3
      /\ core_of b1 y1 /\ core_of b2 y2 /\ core_of b3 y3
      /\ Forall2 case_eq (x1 ++ x2 ++ x3) (y1 ++ y2 ++ y3)
      /\ (length x1 = length y1 -> length x2 = length y2 ->
          same_answer a1 b1 /\ same_answer a2 b2 /\ same_answer a3 b3).
Proof.
  intros a1 a2 a3 b1 b2 b3 p Ha Hb.
  apply process_ok in Ha as (x1 & x2 & x3 & X1 & X2 & X3 & ->).
  apply process_ok in Hb as (y1 & y2 & y3 & Y1 & Y2 & Y3 & E).
  apply trimmed_core in X1, X2, X3, Y1, Y2, Y3. exists x1, x2, x3, y1, y2, y3.
  do 6 (split; [done|]).
  assert (Forall2 case_eq (x1 ++ x2 ++ x3) (y1 ++ y2 ++ y3)) as HF.
  { eapply Forall2_impl; [|intros ? ?; apply case_eq_letter]. apply lower_same.
    rewrite !map_app. exact E. }
  split; [done|]. intros L1 L2.
  apply Forall2_app_inv in HF as [F1 HF]; [|done]. apply Forall2_app_inv in HF as [F2 F3]; [|done].
  assert (forall a x b y, core_of a x -> core_of b y -> Forall2 case_eq x y -> same_answer a b) as H.
  { intros a x b y (U & (w & v & -> & ? & ?) & _) (_ & (w' & v' & -> & ? & ?) & _) F.
    by exists x, y, w, v, w', v'. }
  split; [by eapply H|]. split; by eapply H.
Qed.
Print Assumptions C44_same_passphrase_partial.

Lemma utf8_two a b : utf8 a = true -> utf8 b = true -> utf8 (a ++ b) = true.
Proof.
  intros [l E]%utf8_chars [m F]%utf8_chars. apply utf8_chars. exists (l ++ m). by rewrite (chars_app _ _ _ E), F.
Qed.

Lemma utf8_white l : Forall (fun x => chars x = Some [x] /\ white x = true) l -> utf8 (concat l) = true.
Proof.
  intros H. apply utf8_chars. exists l. apply chars_of. eapply Forall_impl; [exact H|]. by intros c [? _].
Qed.

Lemma core_trimmed a x : core_of a x -> trimmed a = Ok x.
Proof.
  intros (Hu & (w & v & -> & W & V) & Hc).
  apply blank_chars in W as (lw & E1 & W). apply blank_chars in V as (lv & E2 & V).
  rewrite (trimmed_white _ _ _ _ _ E1 E2 W V Hu).
  destruct (trimmed x) as [z|] eqn:E.
  2:{ unfold trimmed in E. apply utf8_chars in Hu as [l El]. by rewrite El in E. }
  apply trimmed_split in E as (l1 & l2 & E & F1 & F2 & Uz). f_equal.
  assert (l1 = []) as ->.
  { destruct l1 as [|c l1]; [done|]. exfalso. cbn [concat] in E. rewrite <- app_assoc in E.
    inversion F1 as [|? ? Hw F1']; subst. apply white_char_white in Hw.
    refine (proj1 (Hc c _ Hw _) eq_refl). apply utf8_two; [by apply utf8_white|]. apply utf8_two; [done|by apply utf8_white]. }
  assert (l2 = []) as ->.
  { destruct l2 as [|c l2 _] using rev_ind; [done|]. exfalso. rewrite concat_app in E. cbn [concat] in E. rewrite app_nil_r in E.
    apply Forall_app in F2 as [F2 Fc]. inversion Fc as [|? ? Hw _]; subst. apply white_char_white in Hw. cbn [app] in Hc.
    refine (proj2 (Hc c (z ++ concat l2) Hw _) _); [|by rewrite <- app_assoc]. apply utf8_two; [done|by apply utf8_white]. }
  cbn in E. by rewrite app_nil_r in E.
Qed.

(** Exactly: two triples of answers give the same passphrase just when what remains of them without the
    white space around each, all three put together, is the same up to case. *)
Theorem C44_exactly :
  forall a1 a2 a3 b1 b2 b3 x1 x2 x3 y1 y2 y3,
    core_of a1 x1 -> core_of a2 x2 -> core_of a3 x3 -> core_of b1 y1 -> core_of b2 y2 -> core_of b3 y3 ->
    is_ok (process_answers a1 a2 a3) = true
    /\ (process_answers a1 a2 a3 = process_answers b1 b2 b3
        <-> Forall2 case_eq (x1 ++ x2 ++ x3) (y1 ++ y2 ++ y3)).
Proof.
  intros a1 a2 a3 b1 b2 b3 x1 x2 x3 y1 y2 y3 X1%core_trimmed X2%core_trimmed X3%core_trimmed
    Y1%core_trimmed Y2%core_trimmed Y3%core_trimmed.
  unfold process_answers. rewrite X1, X2, X3, Y1, Y2, Y3. cbn [rbind is_ok]. split; [done|].
  transitivity (map lower (x1 ++ x2 ++ x3) = map lower (y1 ++ y2 ++ y3)).
  - rewrite !map_app. split; [by intros [= ?]|by intros ->].
  - rewrite <- lower_same. split; intros H; (eapply Forall2_impl; [exact H|]); intros ? ?; apply case_eq_letter.
Qed.
Print Assumptions C44_exactly.

(** Moving the boundary between two answers gives the same passphrase. *)
Theorem C44_boundaries_refuted :
  exists a1 a2 a3 b1 b2 b3,
    ~ same_answer a1 b1 /\ ~ same_answer a2 b2
    /\ forall C k, unlock_qa C k a1 a2 a3 = unlock_qa C k b1 b2 b3.
Proof.
  exists (str "ab"), (str "c"), (str "d"), (str "a"), (str "bc"), (str "d").
  split; [|split].
  - intros H%same_answer_trimmed. by vm_compute in H.
  - intros H%same_answer_trimmed. by vm_compute in H.
  - intros C k. unfold unlock_qa. destruct k; [done| |done].
    assert (process_answers (str "ab") (str "c") (str "d")
            = process_answers (str "a") (str "bc") (str "d")) as -> by (vm_compute; reflexivity).
    done.
Qed.
Print Assumptions C44_boundaries_refuted.

Example C44_ex : same_answer (str " Blue  ") (str "bLUE").
Proof.
  exists (str "Blue"), (str "bLUE"), (str " "), (str "  "), [], [].
  split; [done|]. split; [done|].
  split; [by exists [[x20]]; split; [done|]; repeat constructor; apply (bool_decide_unpack _)|].
  split; [by exists [[x20]; [x20]]; split; [done|]; repeat constructor; apply (bool_decide_unpack _)|].
  split; [by exists []|]. split; [by exists []|]. split; [done|].
  constructor; [right; by exists 1%N; split; [|left]|].
  constructor; [right; by exists 11%N; split; [|right]|].
  constructor; [right; by exists 20%N; split; [|right]|].
  constructor; [right; by exists 4%N; split; [|right]|]. constructor.
Qed.

(** A non-breaking space and an ideographic space are trimmed too. *)
Example C44_unicode_ex :
  process_answers ([xc2; xa0] ++ str "A") (str "B" ++ [xe3; x80; x80]) (str " c ") = Ok (str "abc").
Proof. vm_compute. reflexivity. Qed.

(** ** C50: "ext" values in place of bytes *)

(** [v'] is [v] with some of its byte strings written as extension values of any type. *)
Inductive as_ext : mval -> mval -> Prop :=
| ae_same v : as_ext v v
| ae_ext t s : as_ext (MBin s) (MExt t s)
| ae_arr l l' : Forall2 as_ext l l' -> as_ext (MArr l) (MArr l').

Lemma as_ext_wf : forall v v', as_ext v v' -> mwf v -> mwf v' /\ mdepth v' = mdepth v.
Proof.
  fix IH 3. intros v v' [|t s|l l' HF]; [done|done|]. cbn [mwf mdepth]. intros [Hl Hw].
  assert (length l' = length l) as El by (symmetry; by eapply Forall2_length).
  unfold nlen in *. rewrite El.
  assert (fold_right (fun x a => mwf x /\ a) True l' /\
          fold_right (fun x a => Nat.max (mdepth x) a) 0 l'
          = fold_right (fun x a => Nat.max (mdepth x) a) 0 l) as [H1 H2].
  { clear Hl El. revert HF Hw. revert l l'. fix IHl 3. intros l l' [|x y l1 l2 Hxy HF]; [done|].
    cbn. intros [Hx Hw]. destruct (IH _ _ Hxy Hx) as [? ->]. destruct (IHl _ _ HF Hw) as [? ->]. done. }
  split; [done|]. by rewrite H2.
Qed.

Lemma rcipher_ext c v : cipher_ok c -> as_ext (wcipher c) v -> rcipher v = Some c.
Proof.
  intros Hc H. pose proof (rcipher_wcipher c Hc) as E.
  inversion H as [v0 E0|t s E0|l l' HF E0 E1]; subst; [done|by destruct c|].
  destruct c as [salt mem ops h d|salt mem ops q1 q2 q3 h d]; injection E0 as ->;
    repeat match goal with
    | H : Forall2 as_ext (_ :: _) _ |- _ => inversion H; subst; clear H
    | H : Forall2 as_ext [] _ |- _ => inversion H; subst; clear H
    | H : as_ext (MStr _) _ |- _ => inversion H; subst; clear H
    | H : as_ext (MUInt _) _ |- _ => inversion H; subst; clear H
    end;
    repeat match goal with
    | H : as_ext (MBin _) _ |- _ => inversion H; subst; clear H
    end; exact E.
Qed.

Definition bundle_with (ciphers : list mval) (app : mval) : bytes :=
  enc (MArr [MStr (str "hcsb0"); MArr ciphers; app]).

(** Whichever of the salts, headers and ciphertexts are written as extension values, of
    whatever types, the bundle reads the same. *)
Theorem C50_ext_ciphers :
  forall l vs app rest,
    Forall cipher_ok l -> (N.of_nat (length l) < 2 ^ 32)%N -> fits32 app ->
    Forall2 as_ext (map wcipher l) vs ->
    is_ok (from_locked (encode_bundle l app)) = true
    /\ from_locked (bundle_with vs (MBin app) ++ rest) = from_locked (encode_bundle l app).
Proof.
  intros l vs app rest Hl Hn Ha HF.
  pose proof (from_locked_encode l app [] Hl Hn Ha) as E0. rewrite app_nil_r in E0. rewrite E0.
  split; [done|].
  assert (rall rcipher vs = Some l) as Er.
  { clear -Hl HF. revert vs HF. induction Hl as [|c l Hc _ IH]; cbn [map]; intros vs HF.
    - by inversion HF.
    - inversion HF as [|? v ? vs' Hv HF']; subst. cbn [rall].
      rewrite (rcipher_ext c v Hc Hv). by rewrite (IH _ HF'). }
  assert (mwf (MArr (map wcipher l)) /\ mdepth (MArr (map wcipher l)) <= 3) as [W D].
  { clear -Hl Hn. cbn [mwf mdepth]. split.
    - split; [unfold nlen; by rewrite map_length|]. clear Hn. induction Hl as [|c l Hc _ IH]; [done|].
      cbn. split; [by apply mwf_wcipher|done].
    - clear Hn. apply le_n_S. induction Hl as [|c l Hc _ IH]; [cbn; lia|]. cbn [map fold_right].
      pose proof (proj2 (mwf_wcipher c Hc)). lia. }
  destruct (as_ext_wf _ _ (ae_arr _ _ HF) W) as [W' D'].
  unfold from_locked, bundle_with. rewrite decode_first_enc.
  - cbn [obind rbundle]. change (rtext (MStr (str "hcsb0"))) with (Some (str "hcsb0")).
    cbn [obind rlist]. rewrite Er. done.
  - split; [done|]. cbn [fold_right]. split; [done|]. split; [exact W'|]. done.
  - cbn [mdepth fold_right]. cbn [mdepth] in D', D. rewrite D'. unfold MAX_DEPTH. lia.
Qed.
Print Assumptions C50_ext_ciphers.

(** False of the application data: written as an extension value, it makes the bundle
    unreadable. *)
Theorem C50_ext_app_data_refuted :
  forall l t app rest,
    Forall cipher_ok l -> (N.of_nat (length l) < 2 ^ 32)%N -> fits32 app ->
    from_locked (bundle_with (map wcipher l) (MExt t app) ++ rest) = Err (str "decode")
    /\ is_ok (from_locked (bundle_with (map wcipher l) (MBin app) ++ rest)) = true.
Proof.
  intros l t app rest Hl Hn Ha. split.
  - assert (mwf (MArr (map wcipher l)) /\ mdepth (MArr (map wcipher l)) <= 3) as [W D].
    { clear -Hl Hn. cbn [mwf mdepth]. split.
      - split; [unfold nlen; by rewrite map_length|]. clear Hn. induction Hl as [|c l Hc _ IH]; [done|].
        cbn. split; [by apply mwf_wcipher|done].
      - clear Hn. apply le_n_S. induction Hl as [|c l Hc _ IH]; [cbn; lia|]. cbn [map fold_right].
        pose proof (proj2 (mwf_wcipher c Hc)). lia. }
    unfold from_locked, bundle_with. rewrite decode_first_enc.
    + cbn [obind rbundle]. change (rtext (MStr (str "hcsb0"))) with (Some (str "hcsb0")).
      cbn [obind rlist]. rewrite rall_wcipher by done. done.
    + split; [done|]. cbn [fold_right]. split; [done|]. split; [exact W|]. done.
    + cbn [mdepth fold_right]. cbn [mdepth] in D. unfold MAX_DEPTH. lia.
  - pose proof (from_locked_encode l app rest Hl Hn Ha) as E. unfold encode_bundle in E.
    unfold bundle_with. by rewrite E.
Qed.
Print Assumptions C50_ext_app_data_refuted.

(** Exactly: a bundle with some of its byte strings written as extension values reads like the one
    without just when the application data is not one of them; otherwise it does not read. *)
Theorem C50_exactly :
  forall l vs app app' rest,
    Forall cipher_ok l -> (N.of_nat (length l) < 2 ^ 32)%N -> fits32 app ->
    Forall2 as_ext (map wcipher l) vs -> as_ext (MBin app) app' ->
    (from_locked (bundle_with vs app' ++ rest) = from_locked (encode_bundle l app) <-> app' = MBin app)
    /\ (is_ok (from_locked (bundle_with vs app' ++ rest)) = false <-> exists t, app' = MExt t app).
Proof.
  intros l vs app app' rest Hl Hn Ha HF Hx.
  destruct (C50_ext_ciphers l vs app rest Hl Hn Ha HF) as [H1 H2].
  inversion Hx as [v Ev|t s Es|]; subst.
  - split; [done|]. rewrite H2, H1. split; [done|]. by intros [t Ht].
  - assert (is_ok (from_locked (bundle_with vs (MExt t app) ++ rest)) = false) as E.
    { assert (mwf (MArr (map wcipher l)) /\ mdepth (MArr (map wcipher l)) <= 3) as [W D].
      { clear -Hl Hn. cbn [mwf mdepth]. split.
        - split; [unfold nlen; by rewrite map_length|]. clear Hn. induction Hl as [|c l Hc _ IH]; [done|].
          cbn. split; [by apply mwf_wcipher|done].
        - clear Hn. apply le_n_S. induction Hl as [|c l Hc _ IH]; [cbn; lia|]. cbn [map fold_right].
          pose proof (proj2 (mwf_wcipher c Hc)). lia. }
      destruct (as_ext_wf _ _ (ae_arr _ _ HF) W) as [W' D'].
      unfold from_locked, bundle_with. rewrite decode_first_enc.
      - cbn [obind rbundle]. change (rtext (MStr (str "hcsb0"))) with (Some (str "hcsb0")).
        cbn [obind rlist]. destruct (rall rcipher vs); done.
      - split; [done|]. cbn [fold_right]. split; [done|]. split; [exact W'|]. done.
      - cbn [mdepth fold_right]. cbn [mdepth] in D', D. rewrite D'. unfold MAX_DEPTH. lia. }
    split.
    + split; [|intros Heq; discriminate Heq]. intros E'. rewrite E', H1 in E. discriminate E.
    + split; [intros _; by exists t|]. intros _. exact E.
Qed.
Print Assumptions C50_exactly.

Example C50_ex :
  Forall2 as_ext
    (map wcipher [ScPw (fill 16 x01) 8192 1 (fill 24 x02) (fill 49 x03)])
    [MArr [MStr (str "pw"); MExt x05 (fill 16 x01); MUInt 8192; MUInt 1;
           MBin (fill 24 x02); MExt x09 (fill 49 x03)]]
  /\ from_locked (bundle_with
       [MArr [MStr (str "pw"); MExt x05 (fill 16 x01); MUInt 8192; MUInt 1;
              MBin (fill 24 x02); MExt x09 (fill 49 x03)]] (MBin (str "data")))
     = Ok [LkPw (fill 16 x01) 8192 1 (fill 24 x02) (fill 49 x03) (str "data")].
Proof. split; [|vm_compute; reflexivity]. repeat constructor. Qed.

(** ** C51: derivation *)

(** The bundle derived along a path. *)
Definition derive_path (C : Crypto) (u : unlocked) (path : list N) : unlocked :=
  fold_left (derive C) path u.

(** Derived bundles depend on the seed and the path alone: not on the application data, nor
    on how the bundle was obtained. *)
Theorem C51_seed_and_path :
  forall C u u' path, u_seed u = u_seed u' -> path <> [] ->
    derive_path C u path = derive_path C u' path.
Proof.
  intros C u u' [|i path] E Hn; [done|]. unfold derive_path. cbn [fold_left].
  unfold derive. by rewrite E.
Qed.
Print Assumptions C51_seed_and_path.

(** Each step is libsodium's key derivation under the fixed context. *)
Theorem C51_steps :
  forall C u path i,
    u_seed (derive_path C u (path ++ [i])) = kdf C i (str "SeedBndl") (u_seed (derive_path C u path)).
Proof. intros C u path i. unfold derive_path. by rewrite fold_left_app. Qed.
Print Assumptions C51_steps.

(** So deriving after locking and unlocking gives what deriving before gives. *)
Theorem C51_survives_locking :
  forall C, CryptoOk C ->
  forall u l raw rest path,
    sizes_ok u l -> lock C u l = Ok raw -> path <> [] ->
    exists ks, from_locked (raw ++ rest) = Ok ks
      /\ Forall2 (fun x k => exists u', unlock_own C x.1 k = Ok u'
                    /\ derive_path C u' path = derive_path C u path) l ks.
Proof.
  intros C CK u l raw rest path Hs Hl Hp.
  destruct (C41_any_secret_opens C CK u l raw rest Hs Hl) as (ks & Ek & HF). exists ks.
  split; [done|]. eapply Forall2_impl; [exact HF|]. intros x k (_ & u' & Hu & Es & _).
  exists u'. split; [done|]. by apply C51_seed_and_path.
Qed.
Print Assumptions C51_survives_locking.

(** A derived bundle has no application data, and signs under its own public key. *)
Theorem C51_derived_signs :
  forall C, CryptoOk C -> forall u path, path <> [] ->
    let d := derive_path C u path in
    u_app d = [] /\ u_pub d = sign_pk C (u_seed d) /\ length (u_seed d) = 32
    /\ forall m, sign_verify C (u_pub d) (sign C d m) m = true.
Proof.
  intros C CK u path Hp d. destruct (exists_last Hp) as (path' & i & ->).
  unfold d, derive_path. rewrite fold_left_app. cbn. split; [done|]. split; [done|].
  split; [apply (kdf_len C CK)|]. intros m. apply (sign_ok C CK), (kdf_len C CK).
Qed.
Print Assumptions C51_derived_signs.

Example C51_ex :
  u_seed (derive_path toy ex_bundle [1%N; 2%N]) <> u_seed (derive_path toy ex_bundle [1%N])
  /\ u_app ex_bundle <> [].
Proof. split; [|done]. intros H. vm_compute in H. discriminate H. Qed.
