(** * SecretProofs: where the texts of errors come from *)

From Verif Require Import Base Utf8 Crypto Types Codec Secret Store StoreProofs
  Lru Server System ServerSpec ServerVocab ServerProofs ServerProofs2 SystemProofs AnswerProofs
  ServerTheorems WriteProofs FreshVocab SecretVocab.

(** The errors a program may end with: those in [P], and those it is given on the way.
    [A] holds of what it asks the fallback signer. *)
Fixpoint errs (A : bytes -> bytes -> bytes -> Prop) (P : bytes -> Prop) (p : prog (res unit)) {struct p} : Prop :=
  match p with
  | Ret r => forall e, r = Err e -> P e
  | LoadUnlocked k => forall x, errs A P (k x)
  | SetUnlocked k => errs A P k
  | Rand _ k => forall x, errs A P (k x)
  | StWrite _ k => forall r, errs A (fun e => P e \/ r = Err e) (k r)
  | StList k => forall r, errs A (fun e => P e \/ r = Err e) (k r)
  | StGet _ k => forall r, errs A (fun e => P e \/ r = Err e) (k r)
  | CacheGet _ k => forall x, errs A P (k x)
  | CachePut _ k => errs A P k
  | CertGen k => forall r, errs A (fun e => P e \/ r = Err e) (k r)
  | AskFallback i pk d k => A i pk d /\ forall r, errs A (fun e => P e \/ r = Err e) (k r)
  | Send m k => is_error m = false /\ forall r, errs A (fun e => P e \/ r = Err e) (k r)
  | Crash => True
  end.

Lemma errs_mono A p : forall (P P' : bytes -> Prop), (forall e, P e -> P' e) -> errs A P p -> errs A P' p.
Proof.
  induction p as [a|k IH|k IH|n k IH|e k IH|k IH|q k IH|q k IH|f k IH|k IH|i pk d k IH|m k IH|];
    intros P P' HP; cbn [errs].
  - intros H e E. by apply HP, H.
  - intros H x. by eapply IH.
  - by apply IH.
  - intros H x. by eapply IH.
  - intros H r. eapply IH; [|apply H]. intros e' [?|?]; [left; by apply HP|by right].
  - intros H r. eapply IH; [|apply H]. intros e' [?|?]; [left; by apply HP|by right].
  - intros H r. eapply IH; [|apply H]. intros e' [?|?]; [left; by apply HP|by right].
  - intros H x. by eapply IH.
  - by apply IH.
  - intros H r. eapply IH; [|apply H]. intros e' [?|?]; [left; by apply HP|by right].
  - intros [H0 H]. split; [done|]. intros r. eapply IH; [|apply H]. intros e' [?|?]; [left; by apply HP|by right].
  - intros [H0 H]. split; [done|]. intros r. eapply IH; [|apply H]. intros e' [?|?]; [left; by apply HP|by right].
  - done.
Qed.

Definition base_text (C : Crypto) (e : bytes) : Prop := e ∈ server_texts \/ library_text C e.

Lemma base_fixed C e : bool_decide (e ∈ server_texts) = true -> base_text C e.
Proof. intros H. left. by apply bool_decide_eq_true in H. Qed.

Section Prog.
  Variable g : genv.
  Notation C := (g_crypto g).
  Notation base := (base_text C).

  Ltac fix_text := apply base_fixed; vm_compute; reflexivity.

  Lemma sec_open_text n k s e : sec_open C n k s = Err e -> base e.
  Proof.
    unfold sec_open. destruct (ss_pull _ _ _) as [[[t m] st]|].
    - destruct (Nat.eqb _ _); [done|]. intros [= <-]. fix_text.
    - intros [= <-]. fix_text.
  Qed.
  Lemma open_pass_text dec s e : open_pass g dec s = Err e -> base e.
  Proof. apply sec_open_text. Qed.
  Lemma argon_text p s o m e : argon2id C p s o m = Err e -> base e.
  Proof. intros H. right. left. by exists p, s, o, m. Qed.

  Lemma unlock_pk_text dec s e : unlock_pk g dec s = Err e -> base e.
  Proof.
    unfold unlock_pk. destruct (open_pass g dec s) as [p|e1] eqn:E1; cbn [rbind].
    2:{ intros [= <-]. by eapply open_pass_text. }
    destruct (argon2id C p _ _ _) as [pre|e2] eqn:E2; cbn [rbind].
    2:{ intros [= <-]. by eapply argon_text. }
    destruct (sec_open C 32 _ _) as [x|e3] eqn:E3; cbn [rmap]; [done|].
    intros [= <-]. by eapply sec_open_text.
  Qed.
  Lemma deep_key_text dec s o m salt e : deep_key g dec s o m salt = Err e -> base e.
  Proof.
    unfold deep_key. destruct (open_pass g dec s) as [p|e1] eqn:E1; cbn [rbind].
    - apply argon_text.
    - intros [= <-]. by eapply open_pass_text.
  Qed.
  Lemma derive_source_text dec x d e : derive_source g dec x d = Err e -> base e.
  Proof.
    unfold derive_source. destruct x as [t si s|t si salt o m s|t ci s], d as [d|];
      try (intros [= <-]; fix_text).
    - destruct (sec_open C 32 _ _) as [y|e3] eqn:E3; cbn [rmap]; [done|].
      intros [= <-]. by eapply sec_open_text.
    - destruct (deep_key _ _ _ _ _ _) as [k|e1] eqn:E1; cbn [rbind].
      + destruct (sec_open C 32 _ _) as [y|e3] eqn:E3; cbn [rmap]; [done|].
        intros [= <-]. by eapply sec_open_text.
      + intros [= <-]. by eapply deep_key_text.
  Qed.
  Lemma sign_key_text dec f d e : sign_key g dec f d = Err e -> base e.
  Proof.
    unfold sign_key. destruct (f_entry f) as [t si s|t si salt o m s|t ci s], (f_ed_sk f), d as [d|];
      try discriminate 1; try (intros [= <-]; fix_text).
    all: destruct (deep_key _ _ _ _ _ _) as [k|e1] eqn:E1; cbn [rbind];
      [destruct (sec_open C 32 _ _) as [y|e3] eqn:E3; cbn [rmap]; [done|];
        intros [= <-]; by eapply sec_open_text|intros [= <-]; by eapply deep_key_text].
  Qed.
  Lemma gen_full_text x e : gen_full g x = Err e -> base e.
  Proof.
    unfold gen_full. destruct x as [t si s| |]; [|done..].
    destruct (sec_open C 32 _ _) as [y|e3] eqn:E3; cbn [rbind].
    - destruct (negb _); [intros [= <-]; fix_text|]. destruct (negb _); [intros [= <-]; fix_text|done].
    - intros [= <-]. by eapply sec_open_text.
  Qed.
  Lemma sec_any_text k s e : sec_open_any C k s = Some (Err e) -> base e.
  Proof.
    unfold sec_open_any. destruct (Nat.ltb _ _); [done|]. destruct (ss_pull _ _ _) as [[[t m] st]|]; [done|].
    intros [= <-]. fix_text.
  Qed.
  Lemma box_text n m p k e : box_easy C n m p k = Err e -> base e.
  Proof. intros H. right. right. left. by exists n, m, p, k. Qed.
  Lemma box_open_text n m p k e : box_open C n m p k = Err e -> base e.
  Proof. intros H. right. do 2 right. left. by exists n, m, p, k. Qed.
  Lemma sbox_open_text n m k e : sbox_open C n m k = Err e -> base e.
  Proof. intros H. right. do 3 right. left. by exists n, m, k. Qed.
  Lemma ed_pk_text k e : ed_pk_to_x C k = Err e -> base e.
  Proof. intros H. right. do 4 right. left. by exists k. Qed.
  Lemma ed_sk_text k e : ed_sk_to_x C k = Err e -> base e.
  Proof. intros H. right. do 5 right. by exists k. Qed.

  (** What a request may ask the fallback signer. *)
  Definition asks (rq : api) (i pk d : bytes) : Prop :=
    g_fallback g = true /\ exists dl, rq = ReqSign i pk dl d.

  Ltac known :=
    first [ eapply unlock_pk_text; eassumption | eapply derive_source_text; eassumption
          | eapply sign_key_text; eassumption | eapply gen_full_text; eassumption
          | eapply open_pass_text; eassumption | eapply argon_text; eassumption
          | eapply sec_any_text; eassumption | eapply box_text; eassumption
          | eapply box_open_text; eassumption | eapply sbox_open_text; eassumption
          | eapply ed_pk_text; eassumption | eapply ed_sk_text; eassumption
          | apply base_fixed; vm_compute; reflexivity ].
  Ltac done_text :=
    let e := fresh in let E := fresh in
    intros e E; injection E as <-;
    repeat lazymatch goal with |- _ \/ _ => first [right; reflexivity | left] end; try known.

  Ltac walk :=
    repeat (cbn [errs bind orelse rbind rmap];
      lazymatch goal with
      | |- forall e, Err _ = Err e -> _ => done_text
      | |- forall e, Ok _ = Err e -> _ => discriminate 1
      | |- forall e, ?r = Err e -> _ => intros ? ->; repeat lazymatch goal with |- _ \/ _ => first [right; reflexivity | left] end; try known
      | |- forall _, _ => intros ?
      | |- is_error _ = false /\ _ => split; [reflexivity|]
      | |- asks _ _ _ _ /\ _ => split; [split; [assumption|eexists; reflexivity]|]
      | |- True => exact I
      | |- errs _ _ (bind (match ?x with _ => _ end) _) => destruct x eqn:?
      | |- errs _ _ (bind (orelse _ (if ?x then _ else _)) _) => destruct x eqn:?
      | |- errs _ _ (bind (orelse _ (match ?x with _ => _ end)) _) => destruct x eqn:?
      | |- errs _ _ (bind (orelse _ (rbind ?x _)) _) => destruct x eqn:?
      | |- errs _ _ (bind (orelse _ ?x) _) => destruct x eqn:?
      | |- errs _ _ (orelse _ (if ?x then _ else _)) => destruct x eqn:?
      | |- errs _ _ (orelse _ (match ?x with _ => _ end)) => destruct x eqn:?
      | |- errs _ _ (orelse _ (rbind ?x _)) => destruct x eqn:?
      | |- errs _ _ (orelse _ ?x) => destruct x eqn:?
      | |- errs _ _ (match ?x with _ => _ end) => destruct x eqn:?
      | |- errs _ _ (bind (bind (match ?x with _ => _ end) _) _) => destruct x eqn:?
      | |- errs _ _ (bind (bind (orelse _ ?x) _) _) => destruct x eqn:?
      end).

  Lemma errs_dispatch enc dec a : errs (asks a) base (dispatch g enc dec a).
  Proof.
    destruct a; cbn [dispatch];
    unfold h_hello, h_unlock, h_get_entry, h_list, h_new_seed, h_derive, h_export, h_import,
      h_sign, h_box, h_box_open, h_box_sign, h_box_sign_open, h_new_cert, h_cert_key, h_sbox,
      h_sbox_open, check_unlocked, store_seed, new_seed, insert_seed, new_deep_locked_seed,
      insert_deep_locked_seed, new_wka_tls_cert, get_full, rand, send, fail, bindr.
    all: walk.
  Qed.
End Prog.

Section Texts.
  Variable S : store_impl.
  Variable SO : StoreOk S.
  Variable g : genv.
  Hypothesis HC : CryptoOk (g_crypto g).

  Notation run := (run S g).
  Notation conn_at := (conn_at S g).
  Notation received := (received S).
  Notation sent := (sent S).

  (** The texts that may be in an error for request [tid] of connection [cid]. *)
  Definition texts (evs : list event) (cid tid : nat) (rq : api) (e : bytes) : Prop :=
    base_text (g_crypto g) e
    \/ heard_store S g evs cid tid e
    \/ (heard_signer evs cid tid e /\ exists i pk d, asks g rq i pk d)
    \/ broken_off evs cid tid e.

  Lemma no_restart_snoc evs ev : no_restart evs -> is_restart ev = false -> no_restart (evs ++ [ev]).
  Proof. unfold no_restart. rewrite existsb_app. intros -> E. cbn. by rewrite E. Qed.

  Lemma texts_snoc evs ev cid tid rq e : is_restart ev = false ->
    texts evs cid tid rq e -> texts (evs ++ [ev]) cid tid rq e.
  Proof.
    intros Er [H|[H|[[H Ha]|H]]].
    - by left.
    - right. left. destruct H as (pre & o & post & -> & Hn & H). exists pre, o, (post ++ [ev]).
      rewrite <- app_assoc. split; [done|]. split; [by apply no_restart_snoc|done].
    - right. right. left. split; [|done]. destruct H as (pre & o & post & -> & Hn & H). exists pre, o, (post ++ [ev]).
      rewrite <- app_assoc. split; [done|]. split; [by apply no_restart_snoc|done].
    - right. right. right. destruct H as (pre & post & -> & Hn). exists pre, (post ++ [ev]).
      rewrite <- app_assoc. split; [done|]. by apply no_restart_snoc.
  Qed.

  Definition tthread (P : bytes -> Prop) (rq : api) (t : option thread) : Prop :=
    match t with
    | Some (Running p) => errs (asks g rq) P p
    | Some (Failed e) => P e
    | None => True
    end.

  Lemma settle_texts P rq p : errs (asks g rq) P p -> tthread P rq (settle p).
  Proof. destruct p as [[u|e]| | | | | | | | | | | |]; cbn; [done| |done..]. intros H. by apply H. Qed.

  Lemma tthread_mono (P P' : bytes -> Prop) rq t : (forall e, P e -> P' e) -> tthread P rq t -> tthread P' rq t.
  Proof. intros H. destruct t as [[p|e]|]; cbn; [by apply errs_mono|by apply H|done]. Qed.

  Definition tconn (P : nat -> api -> bytes -> Prop) (c : conn S) : Prop :=
    forall tid rq, c_reqs S c !! tid = Some rq ->
      tthread (P tid (rq_msg S rq)) (rq_msg S rq) (c_thr S c !! tid)
      /\ forall i e b, (tid, ResError i e, b) ∈ c_log S c -> P tid (rq_msg S rq) e.

  Lemma tconn_mono (P P' : nat -> api -> bytes -> Prop) c :
    (forall t rq e, P t rq e -> P' t rq e) -> tconn P c -> tconn P' c.
  Proof.
    intros H Hc tid rq Hq. destruct (Hc tid rq Hq) as [H1 H2]. split.
    - eapply tthread_mono; [|exact H1]. apply H.
    - intros i e b Hi. eapply H, H2, Hi.
  Qed.

  (** One effect: what it gives is heard at this step. *)
  Lemma step1_errs evs cid tid rq unl p p' o :
    errs (asks g rq) (texts evs cid tid rq) p ->
    r_prog S (step1 S g (s_sh S (run evs)) unl p o) = Some p' ->
    errs (asks g rq) (texts (evs ++ [EvStep cid tid o]) cid tid rq) p'.
  Proof.
    assert (Hup : forall e, texts evs cid tid rq e -> texts (evs ++ [EvStep cid tid o]) cid tid rq e).
    { intros e. by apply texts_snoc. }
    assert (Hio : texts (evs ++ [EvStep cid tid o]) cid tid rq io_error).
    { left. apply base_fixed. vm_compute. reflexivity. }
    assert (Hst : forall e, (exists q, st_get S (store_at S g evs) q = Err e)
          \/ (exists x, fst (st_write S (store_at S g evs) x) = Err e)
          \/ st_list S (store_at S g evs) = Err e -> texts (evs ++ [EvStep cid tid o]) cid tid rq e).
    { intros e He. right. left. by exists evs, o, []. }
    assert (Hext : forall {X} (r : res X) q, (forall e, r = Err e -> texts (evs ++ [EvStep cid tid o]) cid tid rq e) ->
      errs (asks g rq) (fun e => texts evs cid tid rq e \/ r = Err e) q ->
      errs (asks g rq) (texts (evs ++ [EvStep cid tid o]) cid tid rq) q).
    { intros X r q Hr. apply errs_mono. intros e [He|He]; [by apply Hup|by apply Hr]. }
    destruct p as [a|k|k|n k|e k|k|q k|q k|f k|k|i pk d k|m k|]; cbn [errs step1]; intros H E.
    - injection E as <-. cbn [errs]. intros e He. by apply Hup, H.
    - injection E as <-. eapply errs_mono; [exact Hup|apply H].
    - injection E as <-. eapply errs_mono; [exact Hup|apply H].
    - injection E as <-. eapply errs_mono; [exact Hup|apply H].
    - destruct (o_fail o).
      + injection E as <-. eapply Hext; [|apply H]. by intros e' [= <-].
      + destruct (st_write S (sh_store S (s_sh S (run evs))) e) as [r s'] eqn:Ew.
        injection E as <-. eapply Hext; [|apply H]. intros e' ->. apply Hst. right. left. exists e.
        unfold store_at. by rewrite Ew.
    - destruct (o_fail o); injection E as <-; (eapply Hext; [|apply H]).
      + by intros e' [= <-].
      + intros e' He. apply Hst. by right; right.
    - destruct (o_fail o); injection E as <-; (eapply Hext; [|apply H]).
      + by intros e' [= <-].
      + intros e' He. apply Hst. left. by exists q.
    - destruct (cache_get S _ q). injection E as <-. eapply errs_mono; [exact Hup|apply H].
    - injection E as <-. eapply errs_mono; [exact Hup|apply H].
    - destruct (o_cert o) as [gc|]; [destruct (_ && _)|]; injection E as <-; (eapply Hext; [|apply H]);
        [done|by intros e' [= <-]..].
    - destruct H as [Ha H]. cbn in E. injection E as <-. eapply Hext; [|apply H]. intros e' He.
      destruct (o_sign o) as [sg|es] eqn:Es.
      + destruct (Nat.eqb _ _); [done|]. by injection He as <-.
      + injection He as <-. right. right. left. split; [by exists evs, o, []|eauto].
    - destruct H as [_ H]. cbn in E. apply (f_equal (fun x => match x with Some y => y | None => Crash end)) in E. cbn in E. rewrite <- E.
      eapply Hext; [|apply H]. intros e'. destruct (fits m && o_send o); [done|]. intros [= <-].
      left. apply base_fixed. vm_compute. reflexivity.
    - discriminate E.
  Qed.

  Lemma step1_out sh unl A P (p : prog (res unit)) o m b : errs A P p ->
    r_out S (step1 S g sh unl p o) = Some (m, b) -> is_error m = false.
  Proof.
    intros H E. destruct p; cbn [step1] in E;
      repeat (match type of E with context [match ?x with _ => _ end] => destruct x end; cbn [r_out] in E);
      cbn [r_out] in E; try discriminate E.
    all: cbn [errs] in H; apply (f_equal (fun x => match x with Some (y, _) => y | None => ReqListEntries [] end)) in E;
      cbn in E; rewrite <- E; apply H.
  Qed.

  Lemma tconn_run evs : forall cid c, conn_at evs cid c -> tconn (texts evs cid) c.
  Proof.
    induction evs as [|ev evs IH] using rev_ind.
    { intros cid c H. unfold ServerVocab.conn_at in H. cbn in H. by rewrite lookup_empty in H. }
    destruct (run_both S SO g HC evs) as (L & HL & HA). destruct HL as (_ & HCs & _).
    unfold ServerVocab.conn_at in *. rewrite (run_snoc S g evs ev).
    assert (Hup : is_restart ev = false -> forall cid c, s_conns S (run evs) !! cid = Some c ->
      tconn (texts (evs ++ [ev]) cid) c).
    { intros Er cid c Hc. eapply tconn_mono; [|by apply IH]. intros t rq e. by apply texts_snoc. }
    intros cid c. destruct ev as [i rx tx|i raw|i t o|i t er|i|d os|]; cbn [step].
    - destruct (s_conns S (run evs) !! i) as [ci|] eqn:Ei; [by apply Hup|].
      destruct (_ && _); [|by apply Hup]. cbn [s_conns].
      destruct (decide (i = cid)) as [->|Hne]; [|rewrite lookup_insert_ne by done; by apply Hup].
      rewrite lookup_insert. intros [= <-] tid rq Hq. cbn in Hq. discriminate Hq.
    - destruct (s_conns S (run evs) !! i) as [ci|] eqn:Ei; [|by apply Hup]. cbn [s_conns].
      destruct (decide (i = cid)) as [->|Hne]; [|rewrite lookup_insert_ne by done; by apply Hup].
      rewrite lookup_insert. intros [= <-]. pose proof (Hup eq_refl _ _ Ei) as Ho. unfold receive.
      destruct (c_open S ci && _); [|done]. destruct (decode_api raw) as [a|]; [|done].
      intros tid rq. cbn [c_reqs c_thr c_log]. destruct (decide (tid = length (c_reqs S ci))) as [->|Hne].
      + rewrite lookup_app_r, Nat.sub_diag by lia. cbn. intros [= <-]. cbn [rq_msg]. split.
        * rewrite lookup_set_thr. destruct (decide _); [|done]. apply settle_texts.
          eapply errs_mono; [|apply errs_dispatch]. intros x Hx. by left.
        * intros j e b Hin. destruct (HCs _ _ Ei) as (_ & _ & H3 & _). apply H3 in Hin. lia.
      + destruct (c_reqs S ci !! tid) as [rq0|] eqn:Eq.
        * rewrite lookup_app_l by (by eapply lookup_lt_Some). rewrite Eq. intros [= <-].
          destruct (Ho tid rq0 Eq) as [H1 H2]. split; [|done]. rewrite lookup_set_thr. by destruct (decide _).
        * rewrite lookup_app_r by (by apply lookup_ge_None). apply lookup_ge_None in Eq.
          destruct (tid - length (c_reqs S ci)) eqn:E; [lia|done].
    - destruct (s_conns S (run evs) !! i) as [ci|] eqn:Ei; [|by apply Hup].
      destruct (step_thread S g (s_sh S (run evs)) ci t o) as [sh' c'] eqn:Est. cbn [s_conns].
      destruct (decide (i = cid)) as [->|Hne]; [|rewrite lookup_insert_ne by done; by apply Hup].
      rewrite lookup_insert. intros [= <-]. pose proof (Hup eq_refl _ _ Ei) as Ho.
      unfold step_thread in Est. destruct (c_thr S ci !! t) as [[p|er]|] eqn:Et; [| |by injection Est as <- <-].
      + pose proof (fun rq Hq => proj1 (IH _ _ Ei t rq Hq)) as Hold. rewrite Et in Hold. cbn [tthread] in Hold.
        destruct (r_prog S (step1 S g (s_sh S (run evs)) (c_unl S ci) p o)) as [p'|] eqn:Ep;
          injection Est as <- <-; intros tid rq; cbn [c_reqs c_thr c_log].
        * rewrite mark_fail_lookup. destruct (decide (tid = t)) as [->|Hnt].
          { destruct (c_reqs S ci !! t) as [rq0|] eqn:Eq; [|done]. cbn. intros [= <-]. cbn [rq_msg].
            destruct (Ho t rq0 Eq) as [_ H2]. specialize (Hold rq0 eq_refl). split.
            - rewrite lookup_set_thr. destruct (decide _); [|done]. apply settle_texts.
              by eapply step1_errs.
            - intros j e b. unfold log_add. destruct (r_out S _) as [[m' b']|] eqn:Eo; [|by apply H2].
              rewrite elem_of_app, elem_of_list_singleton. intros [Hi|Hi]; [by eapply H2|].
              exfalso. apply (f_equal (fun x => x.1.2)) in Hi. cbn in Hi.
              pose proof (step1_out _ _ _ _ _ _ _ _ Hold Eo) as Hm. rewrite <- Hi in Hm. discriminate Hm. }
          { intros Hq. destruct (Ho tid rq Hq) as [H1 H2]. split.
            - rewrite lookup_set_thr. by destruct (decide _).
            - intros j e b. unfold log_add. destruct (r_out S _) as [[m' b']|]; [|by apply H2].
              rewrite elem_of_app, elem_of_list_singleton. intros [Hi|Hi]; [by eapply H2|].
              by apply (f_equal (fun x => x.1.1)) in Hi. }
        * intros Hq. destruct (Ho tid rq Hq) as [H1 H2]. split; [by rewrite lookup_empty|done].
      + destruct (c_reqs S ci !! t) as [rq0|] eqn:Eq; apply (f_equal snd) in Est; cbn [snd] in Est; rewrite <- Est; clear Est; [|done].
        generalize (fits (ResError (msg_id (rq_msg S rq0)) er) && o_send o). intros ok tid rq. cbn [c_reqs c_thr c_log]. rewrite mark_fail_lookup. destruct (decide (tid = t)) as [->|Hnt].
        * rewrite Eq. cbn. intros [= <-]. cbn [rq_msg]. destruct (Ho t rq0 Eq) as [H1 H2]. rewrite Et in H1. split.
          { by rewrite lookup_delete. }
          intros j e b. rewrite elem_of_app, elem_of_list_singleton. intros [Hi|Hi]; [by eapply H2|].
          apply (f_equal (fun x => match x.1.2 with ResError _ y => y | _ => [] end)) in Hi. cbn in Hi. rewrite Hi. exact H1.
        * intros Hq. destruct (Ho tid rq Hq) as [H1 H2]. split; [by rewrite lookup_delete_ne by done|].
          intros j e b. rewrite elem_of_app, elem_of_list_singleton. intros [Hi|Hi]; [by eapply H2|].
          by apply (f_equal (fun x => x.1.1)) in Hi.
    - destruct (s_conns S (run evs) !! i) as [ci|] eqn:Ei; [|by apply Hup]. cbn [s_conns].
      destruct (decide (i = cid)) as [->|Hne]; [|rewrite lookup_insert_ne by done; by apply Hup].
      rewrite lookup_insert. intros [= <-]. pose proof (Hup eq_refl _ _ Ei) as Ho. unfold abort_thread.
      destruct (c_thr S ci !! t) as [[p|?]|] eqn:Et; [|done..].
      intros tid rq. cbn [c_reqs c_thr c_log]. rewrite mark_fail_lookup. destruct (decide (tid = t)) as [->|Hnt].
      + destruct (c_reqs S ci !! t) as [rq0|] eqn:Eq; [|done]. cbn. intros [= <-]. cbn [rq_msg].
        destruct (Ho t rq0 Eq) as [H1 H2]. split; [|done]. rewrite lookup_insert. cbn.
        right. right. right. by exists evs, [].
      + intros Hq. destruct (Ho tid rq Hq) as [H1 H2]. split; [by rewrite lookup_insert_ne by done|done].
    - destruct (s_conns S (run evs) !! i) as [ci|] eqn:Ei; [|by apply Hup]. cbn [s_conns].
      destruct (decide (i = cid)) as [->|Hne]; [|rewrite lookup_insert_ne by done; by apply Hup].
      rewrite lookup_insert. intros [= <-]. exact (Hup eq_refl _ _ Ei).
    - destruct (direct_okb d); [|by apply Hup]. cbn [s_conns]. by apply Hup.
    - cbn [s_conns]. by rewrite lookup_empty.
  Qed.

  Lemma error_text evs cid c tid rq i e :
    conn_at evs cid c -> received c tid rq -> sent c tid (ResError i e) ->
    texts evs cid tid (rq_msg S rq) e.
  Proof. intros Hc Hq [b Hm]. by eapply (tconn_run evs cid c Hc tid rq Hq). Qed.
End Texts.
