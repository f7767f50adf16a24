(** * AtOnceProofs: every request takes effect in one instant *)

From Verif Require Import Base Utf8 Crypto Types Codec Secret Store StoreProofs
  Lru Server System ServerSpec ServerVocab ServerProofs ServerProofs2 SystemProofs AnswerProofs
  ServerTheorems WriteProofs AtOnce.

(** A program that no longer touches the store, the caches or the unlock flag. *)
Fixpoint quiet (p : prog (res unit)) {struct p} : Prop :=
  match p with
  | Ret _ | Send _ _ | Crash => True
  | Rand _ k => forall x, quiet (k x)
  | CertGen k => forall x, quiet (k x)
  | AskFallback _ _ _ k => forall x, quiet (k x)
  | _ => False
  end.

(** A program whose last look at what is shared, or only change of it, decides: what it
    looked at before was there, and stays. *)
Fixpoint lin (g : genv) (p : prog (res unit)) {struct p} : Prop :=
  match p with
  | Ret _ | Send _ _ | Crash => True
  | LoadUnlocked k => quiet (k false) /\ lin g (k true)
  | SetUnlocked k => quiet k
  | Rand _ k => forall x, lin g (k x)
  | StWrite _ k => forall x, quiet (k x)
  | StList k => forall x, quiet (k x)
  | StGet _ k => (forall e, lin g (k (Ok e))) /\ forall er, quiet (k (Err er))
  | CacheGet q k =>
      lin g (k None) /\ (forall f, lin g (k (Some f)))
      /\ exists k1, k None = StGet q k1
         /\ forall e f, gen_full g e = Ok f -> k1 (Ok e) = CachePut f (k (Some f))
  | CachePut _ k => lin g k
  | CertGen k => forall x, lin g (k x)
  | AskFallback _ _ _ k => forall x, lin g (k x)
  end.

Lemma lin_dispatch g enc dec a : lin g (dispatch g enc dec a).
Proof.
  destruct a; cbn [dispatch]; try exact I;
    unfold h_hello, h_unlock, h_get_entry, h_list, h_new_seed, h_derive, h_export, h_import,
      h_sign, h_box, h_box_open, h_box_sign, h_box_sign_open, h_new_cert, h_cert_key, h_sbox,
      h_sbox_open, check_unlocked, store_seed, new_seed, insert_seed, new_deep_locked_seed,
      insert_deep_locked_seed, new_wka_tls_cert, get_full, rand, send, fail, bindr;
    repeat (cbn [lin quiet bind orelse];
      lazymatch goal with
      | |- forall _, _ => intros ?
      | |- True => exact I
      | |- _ /\ _ => split
      | |- exists k1, _ => eexists; split; [reflexivity|]; let H := fresh in intros ? ? H; cbn [bind orelse]; rewrite H; reflexivity
      | |- context [match ?x with _ => _ end] => destruct x
      | |- context [orelse _ ?x] => destruct x
      end).
Qed.

Section Proofs.
  Variable S : store_impl.
  Variable SO : StoreOk S.
  Variable g : genv.
  Hypothesis HC : CryptoOk (g_crypto g).

  Notation run := (run S g).
  Notation stored := (stored S g).
  Notation store_at := (store_at S g).
  Notation conn_at := (conn_at S g).
  Notation received := (received S).
  Notation sent := (sent S).
  Notation at_once := (at_once S g).
  Notation no_effect := (no_effect S g).
  Notation no_other_effect := (no_other_effect S g).
  Notation instant := (instant S g).

  (** What was found in [s] is found in [s2]. *)
  Definition later (s : st S) (u : bool) (s2 : st S) (u2 : bool) : Prop :=
    (forall q e, st_get S s q = Ok e -> st_get S s2 q = Ok e) /\ (u = true -> u2 = true).

  Lemma later_refl s u : later s u s u.
  Proof. done. Qed.
  Lemma later_trans s u s1 u1 s2 u2 : later s u s1 u1 -> later s1 u1 s2 u2 -> later s u s2 u2.
  Proof. intros [A B] [A' B']. split; auto. Qed.

  (** From the rest of a handling to a longer one, whatever the others add in the meantime. *)
  Definition goes (id : bytes) (s : st S) (u : bool) (p p' : prog (res unit)) (fb0 : list fbcall) : Prop :=
    forall s2 u2, later s u s2 u2 -> forall fb s' u' m,
      at_once id s2 u2 p' fb s' u' m -> at_once id s2 u2 p (fb0 ++ fb) s' u' m.

  Lemma goes_trans id s u s1 u1 p p1 p2 fb1 fb2 : later s u s1 u1 ->
    goes id s u p p1 fb1 -> goes id s1 u1 p1 p2 fb2 -> goes id s1 u1 p p2 (fb1 ++ fb2).
  Proof.
    intros Hl H1 H2 s2 u2 Hl2 fb s' u' m H. rewrite <- app_assoc. apply H1; [by eapply later_trans|]. by apply H2.
  Qed.

  (** One effect of a program that has not had its instant yet. *)
  Lemma step1_lin id L sh u p o : shared_ok S SO g L sh -> lin g p ->
    let r := step1 S g sh u p o in
    r_fail S r = false ->
    (forall p', r_prog S r = Some p' -> r_out S r = None ->
      (sh_store S (r_sh S r) = sh_store S sh /\ r_unl S r = u /\ lin g p'
       /\ exists fb, sh_fb S (r_sh S r) = sh_fb S sh ++ fb /\ goes id (sh_store S sh) u p p' fb)
      \/ (quiet p' /\ forall fb s' u' m, at_once id (sh_store S (r_sh S r)) (r_unl S r) p' fb s' u' m ->
            at_once id (sh_store S sh) u p fb s' u' m)).
  Proof.
    intros (Hrel & Hdis & Hst & Hca) Hl.
    assert (Hk : forall q f, f_entry f ∈ L -> q ∈ keys_of (f_entry f) -> st_get S (sh_store S sh) q = Ok (f_entry f)).
    { intros q f He Hq. pose proof (st_get_ok S SO _ _ q Hrel) as H. by rewrite (distinct_get _ _ _ Hdis He Hq) in H. }
    assert (Hsame : forall p', lin g p' -> goes id (sh_store S sh) u p p' [] ->
      sh_store S sh = sh_store S sh /\ u = u /\ lin g p'
       /\ exists fb, sh_fb S sh = sh_fb S sh ++ fb /\ goes id (sh_store S sh) u p p' fb).
    { intros p' H1 H2. split; [done|]. split; [done|]. split; [done|]. exists []. by rewrite app_nil_r. }
    destruct p as [a|k|k|n k|e k|k|q k|q k|f k|k|i pk d k|m k|]; cbn [step1]; cbn [lin] in Hl; cbn zeta.
    - intros _ p' [= <-] _. left. apply Hsame; [done|]. intros s2 u2 _ fb s' u' m H. exact H.
    - intros _ p' [= <-] _. destruct u; cbn [r_sh r_unl].
      + left. apply Hsame; [apply Hl|]. intros s2 u2 [_ Hu] fb s' u' m H. constructor. by rewrite (Hu eq_refl) in *.
      + right. split; [apply Hl|]. intros fb s' u' m H. by constructor.
    - intros _ p' [= <-] _. right. split; [done|]. intros fb s' u' m H. by constructor.
    - intros _ p' [= <-] _. left. apply Hsame; [apply Hl|]. intros s2 u2 _ fb s' u' m H.
      eapply at_rand; [apply fit_length|exact H].
    - destruct (o_fail o); [done|]. destruct (st_write S (sh_store S sh) e) as [r s'] eqn:Ew. cbn.
      intros _ p' [= <-] _. right. split; [apply Hl|]. intros fb s2 u' m H. constructor. by rewrite Ew.
    - destruct (o_fail o); [done|]. cbn.
      intros _ p' [= <-] _. right. split; [apply Hl|]. intros fb s2 u' m H. by constructor.
    - destruct (o_fail o); [done|]. cbn.
      intros _ p' [= <-] _. destruct (st_get S (sh_store S sh) q) as [e|er] eqn:E.
      + left. apply Hsame; [apply Hl|]. intros s2 u2 [Hg _] fb s' u' m H. constructor. by rewrite (Hg _ _ E).
      + right. split; [apply Hl|]. intros fb s' u' m H. constructor. by rewrite E.
    - destruct Hl as (Hl1 & Hl2 & k1 & Hk1 & Hk2).
      assert (Hsh : forall f sh', cache_get S sh q = (Some f, sh') ->
        f_entry f ∈ L /\ q ∈ keys_of (f_entry f) /\ gen_full g (f_entry f) = Ok f).
      { intros f sh'. destruct Hca as (A1 & A2 & A3). unfold cache_get. destruct q as [t|pk|pk].
        - destruct (lru_get t (sh_tag S sh)) as [o1 l1] eqn:El. intros [= -> _].
          by apply (cache_ok_get g _ _ _ _ _ _ A1 El).
        - destruct (lru_get pk (sh_ed S sh)) as [o1 l1] eqn:El. intros [= -> _].
          by apply (cache_ok_get g _ _ _ _ _ _ A2 El).
        - destruct (lru_get pk (sh_x S sh)) as [o1 l1] eqn:El. intros [= -> _].
          by apply (cache_ok_get g _ _ _ _ _ _ A3 El). }
      assert (Hst' : sh_store S (snd (cache_get S sh q)) = sh_store S sh /\ sh_fb S (snd (cache_get S sh q)) = sh_fb S sh).
      { unfold cache_get. destruct q; by destruct (lru_get _ _). }
      destruct (cache_get S sh q) as [r sh'] eqn:Ec. cbn [snd] in Hst'. destruct Hst' as [E1 E2]. cbn. rewrite E1, E2.
      intros _ p' [= <-] _. left. apply Hsame.
      + destruct r; [apply Hl2|apply Hl1].
      + intros s2 u2 [Hg _] fb s' u' m H. cbn [app]. constructor. destruct r as [f|]; [|done].
        destruct (Hsh f sh' eq_refl) as (He & Hq & Hf). rewrite Hk1. constructor.
        rewrite (Hg _ _ (Hk q f He Hq)), (Hk2 _ _ Hf). by constructor.
    - cbn. intros _ p' [= <-] _. left.
      assert (sh_store S (cache_put S sh f) = sh_store S sh /\ sh_fb S (cache_put S sh f) = sh_fb S sh) as [-> ->].
      { unfold cache_put. by destruct (f_entry f). }
      apply Hsame; [done|]. intros s2 u2 _ fb s' u' m H. by constructor.
    - destruct (o_cert o) as [gc|]; [destruct (g_rcgen g gc && gencert_okb gc) eqn:E|]; cbn; [|done..].
      intros _ p' [= <-] _. left. apply andb_prop in E as [E1 E2]. apply Hsame; [apply Hl|].
      intros s2 u2 _ fb s' u' m H. by eapply at_cert.
    - cbn. intros _ p' [= <-] _. left. split; [done|]. split; [done|]. split; [apply Hl|]. eexists. split; [reflexivity|].
      intros s2 u2 _ fb s' u' m H. apply at_ask; [|exact H]. intros sig. destruct (o_sign o) as [s|]; [|done].
      destruct (Nat.eqb_spec (length s) 64); [|done]. by intros [= <-].
    - done.
    - done.
  Qed.

  (** One effect of a program that has had its instant. *)
  Lemma step1_quiet id sh u p o : quiet p ->
    let r := step1 S g sh u p o in
    r_fail S r = false ->
    sh_store S (r_sh S r) = sh_store S sh /\ r_unl S r = u
    /\ (forall p', r_prog S r = Some p' -> r_out S r = None ->
      quiet p' /\ exists fb0, sh_fb S (r_sh S r) = sh_fb S sh ++ fb0
      /\ forall s1 u1 fb s' u' m, at_once id s1 u1 p' fb s' u' m -> at_once id s1 u1 p (fb0 ++ fb) s' u' m).
  Proof.
    intros Hl.
    destruct p as [a|k|k|n k|e k|k|q k|q k|f k|k|i pk d k|m k|]; cbn [step1]; cbn [quiet] in Hl; cbn zeta; try done.
    - intros _. split; [done|]. split; [done|]. intros p' [= <-] _. split; [done|]. exists []. cbn. by rewrite app_nil_r.
    - intros _. split; [done|]. split; [done|]. intros p' [= <-] _. split; [apply Hl|]. exists []. cbn. rewrite app_nil_r.
      split; [done|]. intros s1 u1 fb s' u' m H. eapply at_rand; [apply fit_length|exact H].
    - destruct (o_cert o) as [gc|]; [destruct (g_rcgen g gc && gencert_okb gc) eqn:E|]; cbn; [|done..].
      intros _. split; [done|]. split; [done|]. intros p' [= <-] _. split; [apply Hl|]. exists []. cbn. rewrite app_nil_r.
      apply andb_prop in E as [E1 E2]. split; [done|].
      intros s1 u1 fb s' u' m H. by eapply at_cert.
    - cbn. intros _. split; [done|]. split; [done|]. intros p' [= <-] _. split; [apply Hl|]. eexists. split; [reflexivity|].
      intros s1 u1 fb s' u' m H. apply at_ask; [|exact H]. intros sig. destruct (o_sign o) as [s|]; [|done].
      destruct (Nat.eqb_spec (length s) 64); [|done]. by intros [= <-].
  Qed.

  (** ** The invariant *)

  Definition first (c : conn S) (rq : request S) : prog (res unit) :=
    dispatch g (c_enc S c) (c_dec S c) (rq_msg S rq).
  Definition asked_fb (evs : list event) (fb : list fbcall) : Prop :=
    forall fc, fc ∈ fb -> fc ∈ sh_fb S (s_sh S (run evs)).

  Definition before (evs : list event) (cid tid : nat) (c : conn S) (rq : request S) (p : prog (res unit)) : Prop :=
    lin g p /\ no_other_effect evs cid tid None
    /\ exists fb0, asked_fb evs fb0
       /\ goes (msg_id (rq_msg S rq)) (store_at evs) (c_unl S c) (first c rq) p fb0.

  Definition after (evs : list event) (cid tid : nat) (c : conn S) (rq : request S) (p : prog (res unit)) : Prop :=
    quiet p /\ exists pre o post c0 c1 r fb0,
      evs = pre ++ EvStep cid tid o :: post /\ no_restart post
      /\ conn_at pre cid c0 /\ received c0 tid r /\ rq_msg S r = rq_msg S rq
      /\ (forall m, ~ sent c0 tid m)
      /\ conn_at (pre ++ [EvStep cid tid o]) cid c1
      /\ c_enc S c0 = c_enc S c /\ c_dec S c0 = c_dec S c
      /\ asked_fb evs fb0 /\ no_other_effect evs cid tid (Some (length pre))
      /\ forall fb m,
           at_once (msg_id (rq_msg S rq)) (store_at (pre ++ [EvStep cid tid o])) (c_unl S c1) p fb
             (store_at (pre ++ [EvStep cid tid o])) (c_unl S c1) m ->
           at_once (msg_id (rq_msg S rq)) (store_at pre) (c_unl S c0) (first c rq) (fb0 ++ fb)
             (store_at (pre ++ [EvStep cid tid o])) (c_unl S c1) m.

  Definition status (evs : list event) (cid tid : nat) (c : conn S) (rq : request S) : Prop :=
    match c_thr S c !! tid with
    | Some (Running p) => before evs cid tid c rq p \/ after evs cid tid c rq p
    | Some (Failed e) => before evs cid tid c rq (Ret (Err e)) \/ after evs cid tid c rq (Ret (Err e))
    | None => forall m b, (tid, m, b) ∈ c_log S c -> instant evs cid tid (rq_msg S rq) m
    end.

  Definition lat (evs : list event) (cid tid : nat) : Prop :=
    match s_conns S (run evs) !! cid with
    | Some c => match c_reqs S c !! tid with
                | Some rq => rq_fail S rq = false -> status evs cid tid c rq
                | None => no_other_effect evs cid tid None
                end
    | None => no_other_effect evs cid tid None
    end.

  (** ** When others move on *)

  Lemma no_restart_snoc post ev : no_restart post -> is_restart ev = false -> no_restart (post ++ [ev]).
  Proof. unfold no_restart. intros H1 H2. rewrite existsb_app, H1. cbn. by rewrite H2. Qed.

  Lemma noe_snoc evs ev cid tid a :
    (forall o, ev = EvStep cid tid o -> a <> Some (length evs) -> no_effect evs ev cid) ->
    no_other_effect evs cid tid a -> no_other_effect (evs ++ [ev]) cid tid a.
  Proof.
    intros Hev Hn pre o post E Hp Ha.
    destruct post as [|x post _] using rev_ind.
    - apply app_inj_tail in E as [-> ->]. by eapply Hev.
    - rewrite app_comm_cons, app_assoc in E. apply app_inj_tail in E as [-> ->].
      apply (Hn pre o post); [done| |done]. unfold no_restart in Hp. rewrite existsb_app in Hp.
      by apply orb_false_elim in Hp as [? _].
  Qed.

  Lemma noe_restart evs cid tid a : no_other_effect (evs ++ [EvRestart]) cid tid a.
  Proof.
    intros pre o post E Hp. exfalso. destruct post as [|x post _] using rev_ind.
    - by apply app_inj_tail in E as [_ E].
    - rewrite app_comm_cons, app_assoc in E. apply app_inj_tail in E as [_ <-].
      unfold no_restart in Hp. rewrite existsb_app in Hp. by apply orb_false_elim in Hp as [_ Hp].
  Qed.

  Lemma noe_some evs cid tid a : no_other_effect evs cid tid None -> no_other_effect evs cid tid a.
  Proof. intros H pre o post E Hp _. by apply (H pre o post). Qed.

  Lemma step1_fb {A} sh u (p : prog A) o : sh_fb S sh `prefix_of` sh_fb S (r_sh S (step1 S g sh u p o)).
  Proof.
    destruct p as [a|k|k|m k|e k|k|q k|q k|f k|k|i pk d k|m k|]; cbn [step1]; try done.
    - destruct (o_fail o); [done|]. by destruct (st_write S (sh_store S sh) e).
    - by destruct (o_fail o).
    - by destruct (o_fail o).
    - unfold cache_get. destruct q; by destruct (lru_get _ _).
    - cbn. unfold cache_put. by destruct (f_entry f).
    - destruct (o_cert o) as [gc|]; [destruct (_ && _)|]; done.
    - cbn. by eexists.
  Qed.

  Lemma direct_fb os : forall sh p, sh_fb S sh `prefix_of` sh_fb S (run_direct S g sh p os).
  Proof.
    induction os as [|o os IH]; intros sh p; cbn [run_direct]; [done|].
    pose proof (step1_fb sh true p o). destruct (r_prog S _); [|done]. etransitivity; [done|]. apply IH.
  Qed.

  Lemma asked_snoc evs ev fb : is_restart ev = false -> asked_fb evs fb -> asked_fb (evs ++ [ev]) fb.
  Proof.
    intros Hr H fc Hfc. apply H in Hfc. rewrite run_snoc.
    enough (sh_fb S (s_sh S (run evs)) `prefix_of` sh_fb S (s_sh S (step S g (run evs) ev))) by (by eapply prefix_in).
    destruct ev as [i rx tx|i raw|i t o|i t er|i|d os|]; cbn [step]; try done.
    - destruct (s_conns S (run evs) !! i); [done|]. by destruct (_ && _).
    - by destruct (s_conns S (run evs) !! i).
    - destruct (s_conns S (run evs) !! i) as [c|]; [|done]. unfold step_thread.
      destruct (c_thr S c !! t) as [[p|e]|]; [| |done].
      + pose proof (step1_fb (s_sh S (run evs)) (c_unl S c) p o). by destruct (r_prog S _).
      + by destruct (c_reqs S c !! t).
    - by destruct (s_conns S (run evs) !! i).
    - by destruct (s_conns S (run evs) !! i).
    - destruct (direct_okb d); [|done]. apply direct_fb.
  Qed.

  Lemma later_snoc evs ev u u' : is_restart ev = false -> (u = true -> u' = true) ->
    later (store_at evs) u (store_at (evs ++ [ev])) u'.
  Proof.
    intros Hr Hu. split; [|done]. intros q e H. apply (lookup_stored S SO g HC) in H as [H1 H2].
    apply (lookup_stored S SO g HC). split; [|done]. apply (stored_lasts S SO g HC); [done|]. right.
    unfold no_restart. cbn. by rewrite Hr.
  Qed.

  Section Mono.
    Variable evs : list event.
    Variable ev : event.
    Variable cid tid : nat.
    Variable c c' : conn S.
    Variable rq rq' : request S.
    Hypothesis Hr : is_restart ev = false.
    Hypothesis Hev : forall o, ev = EvStep cid tid o -> no_effect evs ev cid.
    Hypothesis Hen : c_enc S c' = c_enc S c.
    Hypothesis Hde : c_dec S c' = c_dec S c.
    Hypothesis Hu : c_unl S c = true -> c_unl S c' = true.
    Hypothesis Hm : rq_msg S rq' = rq_msg S rq.

    Lemma before_mono p : before evs cid tid c rq p -> before (evs ++ [ev]) cid tid c' rq' p.
    Proof.
      intros (H1 & H2 & fb0 & H3 & H4). split; [done|]. split; [apply noe_snoc; [|done]; intros o E _; by eapply Hev|].
      exists fb0. split; [by apply asked_snoc|]. unfold first. rewrite Hen, Hde, Hm.
      intros s2 u2 Hl. apply H4. eapply later_trans; [|exact Hl]. by apply later_snoc.
    Qed.

    Lemma after_mono p : after evs cid tid c rq p -> after (evs ++ [ev]) cid tid c' rq' p.
    Proof.
      intros (H1 & pre & o & post & c0 & c1 & r & fb0 & -> & K1 & K2 & K3 & K4 & K5 & K6 & K7 & K8 & K9 & K10 & K11).
      split; [done|]. exists pre, o, (post ++ [ev]), c0, c1, r, fb0. unfold first. rewrite Hen, Hde, Hm.
      split; [by rewrite <- app_assoc|]. split; [by apply no_restart_snoc|].
      repeat (split; [done|]). split; [by apply asked_snoc|]. split; [|done].
      apply noe_snoc; [|done]. intros o' E _. by eapply Hev.
    Qed.

    Lemma instant_mono a m : instant evs cid tid a m -> instant (evs ++ [ev]) cid tid a m.
    Proof.
      intros (pre & o & post & c0 & c1 & r & fb0 & -> & K1 & K2 & K3 & K4 & K5 & K6 & K7 & K8 & K9).
      exists pre, o, (post ++ [ev]), c0, c1, r, fb0.
      split; [by rewrite <- app_assoc|]. split; [by apply no_restart_snoc|].
      repeat (split; [done|]). split; [by apply asked_snoc|].
      apply noe_snoc; [|done]. intros o' E _. by eapply Hev.
    Qed.
  End Mono.

  (** While a request is being handled and nothing has failed, nothing has been sent. *)
  Lemma silent s cid c tid rq th : ans_inv S s -> s_conns S s !! cid = Some c ->
    c_reqs S c !! tid = Some rq -> rq_fail S rq = false -> c_thr S c !! tid = Some th ->
    forall m b, (tid, m, b) ∉ c_log S c.
  Proof.
    intros HA Hc Hq Hf Ht m b Hin. pose proof (HA cid c Hc tid rq Hq) as H. unfold ans_req in H. rewrite Ht in H.
    assert (Hx : (m, b) ∈ answers S c tid).
    { unfold answers. apply elem_of_list_omap. exists (tid, m, b). split; [done|]. cbn. by rewrite Nat.eqb_refl. }
    assert (Ha : answers S c tid = []).
    { destruct th as [p|e]; [apply H|]. destruct H as [H|(m' & _ & H)]; [done|congruence]. }
    rewrite Ha in Hx. by apply elem_of_nil in Hx.
  Qed.

  Lemma status_mono evs ev cid tid c c' rq rq' :
    ans_inv S (run evs) -> conn_at evs cid c -> received c tid rq -> rq_fail S rq = false ->
    is_restart ev = false -> (forall o, ev = EvStep cid tid o -> no_effect evs ev cid) ->
    c_enc S c' = c_enc S c -> c_dec S c' = c_dec S c -> (c_unl S c = true -> c_unl S c' = true) ->
    rq_msg S rq' = rq_msg S rq ->
    c_thr S c' !! tid = c_thr S c !! tid \/ c_thr S c' !! tid = None ->
    (forall m b, (tid, m, b) ∈ c_log S c' -> (tid, m, b) ∈ c_log S c) ->
    status evs cid tid c rq -> status (evs ++ [ev]) cid tid c' rq'.
  Proof.
    intros HA Hc Hq Hf Hr Hev Hen Hde Hu Hm Ht Hl. unfold status. destruct Ht as [->|Ht].
    - destruct (c_thr S c !! tid) as [[p|e]|].
      + intros [H|H]; [left; by eapply before_mono|right; by eapply after_mono].
      + intros [H|H]; [left; by eapply before_mono|right; by eapply after_mono].
      + intros H m b Hin. rewrite Hm. apply instant_mono; [done|done|]. by eapply H, Hl.
    - rewrite Ht. destruct (c_thr S c !! tid) as [th|] eqn:Et.
      + intros _ m b Hin. apply Hl in Hin. by apply (silent _ _ _ _ _ _ HA Hc Hq Hf Et) in Hin.
      + intros H m b Hin. rewrite Hm. apply instant_mono; [done|done|]. by eapply H, Hl.
  Qed.

  (** ** The step of the request itself *)

  Section Own.
    Variable evs : list event.
    Variable cid tid : nat.
    Variable o : oracle.
    Variable c : conn S.
    Variable rq : request S.
    Notation ev := (EvStep cid tid o).
    Hypothesis Hc : conn_at evs cid c.
    Hypothesis Hq : received c tid rq.
    Variable c' : conn S.
    Variable rq' : request S.
    Hypothesis Hc' : conn_at (evs ++ [ev]) cid c'.
    Hypothesis Hen : c_enc S c' = c_enc S c.
    Hypothesis Hde : c_dec S c' = c_dec S c.
    Hypothesis Hm : rq_msg S rq' = rq_msg S rq.
    Hypothesis Hsil : forall m b, (tid, m, b) ∉ c_log S c.

    Lemma unsent m : ~ sent c tid m.
    Proof. intros [b Hb]. by apply (Hsil m b). Qed.

    Lemma own_no_effect : store_at (evs ++ [ev]) = store_at evs -> c_unl S c' = c_unl S c -> no_effect evs ev cid.
    Proof.
      intros H1 H2. split; [done|]. intros d d' Hd Hd'. unfold ServerVocab.conn_at in *. congruence.
    Qed.

    Lemma own_before p p' fb : before evs cid tid c rq p -> lin g p' ->
      store_at (evs ++ [ev]) = store_at evs -> c_unl S c' = c_unl S c -> asked_fb (evs ++ [ev]) fb ->
      goes (msg_id (rq_msg S rq)) (store_at evs) (c_unl S c) p p' fb ->
      before (evs ++ [ev]) cid tid c' rq' p'.
    Proof.
      intros (H1 & H2 & fb0 & H3 & H4) Hl Hs Hu Hfb Hg. split; [done|]. split.
      { apply noe_snoc; [|done]. intros o' _ _. by apply own_no_effect. }
      exists (fb0 ++ fb). split.
      { intros fc [H|H]%elem_of_app; [|by apply Hfb]. by apply (asked_snoc evs ev fb0). }
      unfold first. rewrite Hen, Hde, Hm, Hs, Hu. eapply goes_trans; [apply later_refl|exact H4|exact Hg].
    Qed.

    Lemma own_instant p p' fb1 : before evs cid tid c rq p -> quiet p' -> asked_fb (evs ++ [ev]) fb1 ->
      (forall fb s' u' m, at_once (msg_id (rq_msg S rq)) (store_at (evs ++ [ev])) (c_unl S c') p' fb s' u' m ->
         at_once (msg_id (rq_msg S rq)) (store_at evs) (c_unl S c) p (fb1 ++ fb) s' u' m) ->
      after (evs ++ [ev]) cid tid c' rq' p'.
    Proof.
      intros (H1 & H2 & fb0 & H3 & H4) Hl Hfb Hg. split; [done|].
      exists evs, o, [], c, c', rq, (fb0 ++ fb1). split; [done|]. split; [done|]. split; [done|]. split; [done|].
      split; [done|]. split; [apply unsent|]. split; [done|]. split; [done|]. split; [done|].
      split.
      { intros fc [H|H]%elem_of_app; [|by apply Hfb]. by apply (asked_snoc evs ev fb0). }
      split.
      { apply noe_snoc; [|by apply noe_some]. intros o' _ Hx. by destruct Hx. }
      unfold first. rewrite Hen, Hde, Hm. intros fb m H. rewrite <- app_assoc. apply H4; [apply later_refl|]. by apply Hg.
    Qed.

    Lemma own_after p p' fb1 : after evs cid tid c rq p -> quiet p' ->
      store_at (evs ++ [ev]) = store_at evs -> c_unl S c' = c_unl S c -> asked_fb (evs ++ [ev]) fb1 ->
      (forall s1 u1 fb s' u' m, at_once (msg_id (rq_msg S rq)) s1 u1 p' fb s' u' m ->
         at_once (msg_id (rq_msg S rq)) s1 u1 p (fb1 ++ fb) s' u' m) ->
      after (evs ++ [ev]) cid tid c' rq' p'.
    Proof.
      intros (H1 & pre & o1 & post & c0 & c1 & r & fb0 & E & K1 & K2 & K3 & K4 & K5 & K6 & K7 & K8 & K9 & K10 & K11) Hl Hs Hu Hfb Hg.
      split; [done|]. exists pre, o1, (post ++ [ev]), c0, c1, r, (fb0 ++ fb1). unfold first. rewrite Hen, Hde, Hm.
      split; [rewrite E; by rewrite <- app_assoc|]. split; [by apply no_restart_snoc|].
      repeat (split; [done|]). split.
      { intros fc [H|H]%elem_of_app; [|by apply Hfb]. by apply (asked_snoc evs ev fb0). }
      split.
      { apply noe_snoc; [|done]. intros o' _ _. by apply own_no_effect. }
      intros fb m H. rewrite <- app_assoc. apply K11. by apply Hg.
    Qed.

    (** The answer is sent. *)
    Lemma own_sent p m : before evs cid tid c rq p \/ after evs cid tid c rq p ->
      store_at (evs ++ [ev]) = store_at evs -> c_unl S c' = c_unl S c ->
      (forall s u, at_once (msg_id (rq_msg S rq)) s u p [] s u m) ->
      instant (evs ++ [ev]) cid tid (rq_msg S rq') m.
    Proof.
      intros [(H1 & H2 & fb0 & H3 & H4)|
        (H1 & pre & o1 & post & c0 & c1 & r & fb0 & E & K1 & K2 & K3 & K4 & K5 & K6 & K7 & K8 & K9 & K10 & K11)] Hs Hu Hg; rewrite Hm.
      - exists evs, o, [], c, c', rq, (fb0 ++ []). split; [done|]. split; [done|]. split; [done|]. split; [done|].
        split; [done|]. split; [apply unsent|]. split; [done|]. rewrite Hs, Hu. split.
        { apply H4; [apply later_refl|]. apply Hg. }
        split; [rewrite app_nil_r; by apply (asked_snoc evs ev fb0)|].
        apply noe_snoc; [|by apply noe_some]. intros o' _ Hx. by destruct Hx.
      - exists pre, o1, (post ++ [ev]), c0, c1, r, (fb0 ++ []).
        split; [rewrite E; by rewrite <- app_assoc|]. split; [by apply no_restart_snoc|].
        repeat (split; [done|]). rewrite K7, K8. split; [apply K11, Hg|].
        split; [rewrite app_nil_r; by apply (asked_snoc evs ev fb0)|].
        apply noe_snoc; [|done]. intros o' _ _. by apply own_no_effect.
    Qed.
  End Own.

  Lemma only_send sh u (p : prog (res unit)) o x : r_out S (step1 S g sh u p o) = Some x -> exists k, p = Send (fst x) k.
  Proof.
    destruct p as [a|k|k|m k|e k|k|q k|q k|f k|k|i pk d k|m k|]; cbn [step1]; try done.
    - destruct (o_fail o); [done|]. by destruct (st_write S (sh_store S sh) e).
    - by destruct (o_fail o).
    - by destruct (o_fail o).
    - by destruct (cache_get S sh q).
    - destruct (o_cert o) as [gc|]; [destruct (_ && _)|]; done.
    - cbn. generalize (fits m && o_send o). intros b [= <-]. by exists k.
  Qed.

  Lemma own_step evs cid tid o c rq :
    conn_at evs cid c -> received c tid rq ->
    (rq_fail S rq = false -> status evs cid tid c rq) ->
    lat (evs ++ [EvStep cid tid o]) cid tid.
  Proof.
    intros Hc Hq Hst. destruct (run_both S SO g HC evs) as (L & HL & HA).
    pose proof HL as (HS & HCs & _).
    unfold lat. rewrite (run_snoc S g). 
    assert (Hrs := run_snoc S g evs (EvStep cid tid o)).
    cbn [step] in *. rewrite Hc in *. unfold step_thread in *.
    destruct (c_thr S c !! tid) as [[p|e]|] eqn:Et.
    - pose proof (step1_lin (msg_id (rq_msg S rq)) L (s_sh S (run evs)) (c_unl S c) p o HS) as Hlin.
      pose proof (step1_quiet (msg_id (rq_msg S rq)) (s_sh S (run evs)) (c_unl S c) p o) as Hqu.
      destruct (running_silent S (run evs) cid c tid rq p HA Hc Hq Et) as [[n Hn] Hsil].
      pose proof (step1_shape S g (s_sh S (run evs)) (c_unl S c) p o n Hn) as Hsh.
      pose proof (only_send (s_sh S (run evs)) (c_unl S c) p o) as Honly.
      cbv zeta in Hlin, Hqu, Hsh.
      assert (Hsend : forall m k, p = Send m k -> sh_store S (r_sh S (step1 S g (s_sh S (run evs)) (c_unl S c) p o)) = store_at evs
        /\ r_unl S (step1 S g (s_sh S (run evs)) (c_unl S c) p o) = c_unl S c).
      { intros m k ->. done. }
      set (r := step1 S g (s_sh S (run evs)) (c_unl S c) p o) in *. clearbody r.
      destruct (r_prog S r) as [p'|] eqn:Ep; cbn [s_conns]; rewrite lookup_insert; cbn [c_reqs].
      2:{ unfold ServerVocab.received in Hq. rewrite Hq. intros _. unfold status. cbn [c_thr c_log]. rewrite lookup_empty.
          intros m b Hin. by destruct (Hsil m b). }
      rewrite mark_fail_lookup. destruct (decide (tid = tid)); [|done].
      unfold ServerVocab.received in Hq. rewrite Hq. cbn [fmap option_fmap option_map].
      set (c' := Conn S _ _ _ _ _ _ _) in *. cbn [rq_fail]. intros [Hf1 Hf2]%orb_false_elim.
      specialize (Hst Hf1). unfold status in Hst. rewrite Et in Hst.
      set (rq' := Rq S _ _ _ _).
      assert (Hc' : conn_at (evs ++ [EvStep cid tid o]) cid c').
      { unfold ServerVocab.conn_at. rewrite Hrs. cbn. apply lookup_insert. }
      assert (Hs' : store_at (evs ++ [EvStep cid tid o]) = sh_store S (r_sh S r)).
      { unfold ServerVocab.store_at. by rewrite Hrs. }
      assert (Hfb' : forall fb, sh_fb S (r_sh S r) = sh_fb S (s_sh S (run evs)) ++ fb -> asked_fb (evs ++ [EvStep cid tid o]) fb).
      { intros fb E fc Hfc. rewrite Hrs. cbn. rewrite E. apply elem_of_app. by right. }
      unfold status. assert (Ht' : c_thr S c' !! tid = settle p').
      { cbn. rewrite lookup_set_thr. by destruct (decide (tid = tid)). }
      rewrite Ht'.
      destruct (r_out S r) as [[m b]|] eqn:Eo.
      + destruct (Honly (m, b) eq_refl) as [k Hp]. cbn [fst] in Hp. destruct Hsh as (Hf & x & -> & Hx).
        rewrite Hf2 in Hf. destruct b; [|done]. destruct x as [x|]; [|done]. cbn [settle].
        intros m1 b1 Hin. unfold c' in Hin. cbn [c_log] in Hin. apply logs_add in Hin as [Hin|[_ [= <- <-]]]; [by destruct (Hsil m1 b1)|].
        destruct (Hsend _ _ Hp) as [Es Eu].
        eapply (own_sent evs cid tid o c rq Hc Hq c' rq' Hc'); [done..| | |].
        * rewrite Hs', Es. done.
        * cbn. done.
        * intros s u. rewrite Hp. constructor.
      + assert (Hnew : before (evs ++ [EvStep cid tid o]) cid tid c' rq' p' \/ after (evs ++ [EvStep cid tid o]) cid tid c' rq' p').
        { destruct Hst as [Hb|Ha].
          - destruct (Hlin (proj1 Hb) Hf2 p' eq_refl eq_refl) as [(Es & Eu & Hl & fb & Efb & Hg)|(Hqp & Hg)].
            + left. eapply (own_before evs cid tid o c rq Hc c' rq' Hc'); [done..|exact Hb|exact Hl| | |by apply Hfb'|exact Hg].
              * rewrite Hs', Es. done.
              * cbn. done.
            + right. eapply (own_instant evs cid tid o c rq Hc Hq c' rq' Hc') with (fb1 := []);
                [done..|exact Hb|exact Hqp|by intros fc ?%elem_of_nil|].
              rewrite Hs'. exact Hg.
          - destruct (Hqu (proj1 Ha) Hf2) as (Es & Eu & Hp). destruct (Hp p' eq_refl eq_refl) as (Hqp & fb & Efb & Hg).
            right. eapply (own_after evs cid tid o c rq Hc c' rq' Hc'); [done..|exact Ha|exact Hqp| | |by apply Hfb'|exact Hg].
            + rewrite Hs', Es. done.
            + cbn. done. }
        assert (Hlog : forall m b, (tid, m, b) ∉ c_log S c').
        { intros m b Hin. by apply (Hsil m b). }
        destruct p' as [[x|x]| | | | | | | | | | | |]; cbn [settle]; try exact Hnew.
        intros m b Hin. by destruct (Hlog m b).
    - unfold ServerVocab.received in Hq. rewrite Hq in *. cbn [s_conns]. rewrite lookup_insert. cbn [c_reqs].
      set (m := ResError _ e) in *. 
      assert (Hm : forall s u, at_once (msg_id (rq_msg S rq)) s u (Ret (Err e)) [] s u m) by (intros; constructor).
      revert Hrs. generalize (fits m && o_send o). intros b Hrs.
      rewrite mark_fail_lookup. destruct (decide (tid = tid)); [|done].
      rewrite Hq. cbn [fmap option_fmap option_map].
      set (c' := Conn S _ _ _ _ _ _ _) in *. cbn [rq_fail]. intros [Hf1 Hf2]%orb_false_elim.
      specialize (Hst Hf1). unfold status in Hst. rewrite Et in Hst.
      pose proof (silent _ _ _ _ _ _ HA Hc Hq Hf1 Et) as Hsil.
      assert (Hc' : conn_at (evs ++ [EvStep cid tid o]) cid c').
      { unfold ServerVocab.conn_at. rewrite Hrs. cbn [s_conns]. apply lookup_insert. }
      unfold status. assert (Ht' : c_thr S c' !! tid = None) by apply lookup_delete. rewrite Ht'.
      intros m1 b1 Hin. unfold c' in Hin. cbn [c_log] in Hin.
      apply elem_of_app in Hin as [Hin|Hin%elem_of_list_singleton]; [by destruct (Hsil m1 b1)|].
      injection Hin as -> ->.
      eapply (own_sent evs cid tid o c rq Hc Hq c' _ Hc'); [done..|exact Hst| |done|exact Hm].
      unfold ServerVocab.store_at. by rewrite Hrs.
    - cbn [s_conns]. rewrite lookup_insert. unfold ServerVocab.received in Hq. rewrite Hq. intros Hf.
      eapply (status_mono evs _ cid tid c c rq rq HA Hc Hq Hf); [done| |done..|by left|done|by apply Hst].
      intros o' _. split.
      + unfold ServerVocab.store_at. by rewrite Hrs.
      + intros d d' Hd Hd'. unfold ServerVocab.conn_at in *. rewrite Hrs in Hd'. cbn [s_conns] in Hd'.
        rewrite lookup_insert in Hd'. congruence.
  Qed.

  (** ** Every event *)

  Lemma lat_run evs : forall cid tid, lat evs cid tid.
  Proof.
    induction evs as [|ev evs IH] using rev_ind.
    { intros cid tid. unfold lat. change (s_conns S (run [])) with (∅ : gmap nat (conn S)). rewrite lookup_empty.
      intros pre o post E. by destruct pre. }
    intros cid tid. destruct (run_both S SO g HC evs) as (L & HL & HA).
    assert (Hrs := run_snoc S g evs ev).
    (* an event that is not a step of this request *)
    assert (Hoth : forall a, (forall o, ev <> EvStep cid tid o) -> no_other_effect evs cid tid a ->
      no_other_effect (evs ++ [ev]) cid tid a).
    { intros a Hn. apply noe_snoc. intros o E. by destruct (Hn o). }
    (* it leaves the connection as it is *)
    assert (Hsame : is_restart ev = false -> (forall o, ev <> EvStep cid tid o) ->
      s_conns S (run (evs ++ [ev])) !! cid = s_conns S (run evs) !! cid -> lat (evs ++ [ev]) cid tid).
    { intros Hr Hn E. specialize (IH cid tid). unfold lat in *. rewrite E.
      destruct (s_conns S (run evs) !! cid) as [c|] eqn:Ec; [|by apply Hoth].
      destruct (c_reqs S c !! tid) as [rq|] eqn:Eq; [|by apply Hoth]. intros Hf.
      eapply (status_mono evs ev cid tid c c rq rq HA Ec Eq Hf Hr); [|done..|by left|done|by apply IH].
      intros o Eo. by destruct (Hn o). }
    (* it leaves the request as it is *)
    assert (Hkeep : forall c c', is_restart ev = false -> (forall o, ev <> EvStep cid tid o) ->
      s_conns S (run evs) !! cid = Some c -> s_conns S (run (evs ++ [ev])) !! cid = Some c' ->
      c_enc S c' = c_enc S c -> c_dec S c' = c_dec S c -> (c_unl S c = true -> c_unl S c' = true) ->
      c_reqs S c' !! tid = c_reqs S c !! tid ->
      c_thr S c' !! tid = c_thr S c !! tid \/ c_thr S c' !! tid = None ->
      (forall m b, (tid, m, b) ∈ c_log S c' -> (tid, m, b) ∈ c_log S c) ->
      lat (evs ++ [ev]) cid tid).
    { intros c c' Hr Hn Ec Ec' H1 H2 H3 H4 H5 H6. specialize (IH cid tid). unfold lat in *. rewrite Ec', H4. rewrite Ec in IH.
      destruct (c_reqs S c !! tid) as [rq|] eqn:Eq; [|by apply Hoth]. intros Hf.
      eapply (status_mono evs ev cid tid c c' rq rq HA Ec Eq Hf Hr); [|done..|by apply IH].
      intros o Eo. by destruct (Hn o). }
    destruct ev as [i rx tx|i raw|i t o|i t er|i|d os|]; cbn [step] in Hrs.
    - destruct (s_conns S (run evs) !! i) as [c|] eqn:Ei; [apply Hsame; [done|done|by rewrite Hrs]|].
      destruct (_ && _); [|apply Hsame; [done|done|by rewrite Hrs]].
      destruct (decide (i = cid)) as [->|Hne].
      + specialize (IH cid tid). unfold lat in *. rewrite Ei in IH. rewrite Hrs. cbn [s_conns]. rewrite lookup_insert. cbn. by apply Hoth.
      + apply Hsame; [done|done|]. rewrite Hrs. cbn. by rewrite lookup_insert_ne.
    - destruct (s_conns S (run evs) !! i) as [c|] eqn:Ei; [|apply Hsame; [done|done|by rewrite Hrs]].
      destruct (decide (i = cid)) as [->|Hne]; [|apply Hsame; [done|done|]; rewrite Hrs; cbn; by rewrite lookup_insert_ne].
      assert (Hc' : s_conns S (run (evs ++ [EvReceive cid raw])) !! cid = Some (receive S g (s_sh S (run evs)) c raw)).
      { rewrite Hrs. cbn [s_conns]. apply lookup_insert. }
      destruct (c_open S c && N.ltb (N.of_nat (size (c_thr S c))) MAX_TASKS) eqn:Eo.
      2:{ assert (Er : receive S g (s_sh S (run evs)) c raw = c) by (unfold receive; by rewrite Eo). rewrite Er in Hc'.
          eapply (Hkeep c c); try done. by left. }
      destruct (decode_api raw) as [a|] eqn:Ed.
      2:{ eapply (Hkeep c _); [done|done|done|exact Hc'|unfold receive; rewrite Eo, Ed; try done..]. by left. }
      destruct (decide (tid = length (c_reqs S c))) as [->|Hne].
      + specialize (IH cid (length (c_reqs S c))). unfold lat in *. rewrite Ei in IH. rewrite Hc'.
        rewrite (lookup_ge_None_2 (c_reqs S c)) in IH by lia.
        unfold receive in *. rewrite Eo, Ed in *. cbn [c_reqs]. rewrite lookup_app_r, Nat.sub_diag by lia. cbn [lookup list_lookup].
        set (c' := Conn S _ _ _ _ _ _ _) in *. set (rq := Rq S _ _ _ _). intros _.
        assert (Hnew : before (evs ++ [EvReceive cid raw]) cid (length (c_reqs S c)) c' rq (dispatch g (c_enc S c) (c_dec S c) a)).
        { split; [apply lin_dispatch|]. split; [by apply Hoth|]. exists []. split; [by intros fc ?%elem_of_nil|].
          intros s2 u2 _ fb s' u' m H. exact H. }
        assert (Hlog : forall m b, (length (c_reqs S c), m, b) ∉ c_log S c').
        { intros m b Hin. cbn in Hin. destruct HL as (_ & HCs & _). destruct (HCs _ _ Ei) as (_ & _ & H3 & _). apply H3 in Hin. lia. }
        assert (Ht : c_thr S c' !! length (c_reqs S c) = settle (dispatch g (c_enc S c) (c_dec S c) a)).
        { unfold c'. cbn [c_thr]. rewrite lookup_set_thr. by destruct (decide _). }
        clearbody c' rq. unfold status. rewrite Ht. revert Hnew. generalize (dispatch g (c_enc S c) (c_dec S c) a). intros p Hnew.
        destruct p as [[x|x]| | | | | | | | | | | |]; cbn [settle]; try (left; exact Hnew).
        intros m b Hin. by destruct (Hlog m b).
      + eapply (Hkeep c _); [done|done|done|exact Hc'|unfold receive; rewrite Eo, Ed; try done..]; cbn [c_reqs c_thr].
        * destruct (c_reqs S c !! tid) as [rq|] eqn:Eq; [by rewrite lookup_app_l by (by eapply lookup_lt_Some)|].
          rewrite lookup_app_r by (by apply lookup_ge_None). apply lookup_ge_None in Eq.
          destruct (tid - length (c_reqs S c)) eqn:E; [lia|done].
        * left. rewrite lookup_set_thr. by destruct (decide _).
    - destruct (s_conns S (run evs) !! i) as [c|] eqn:Ei.
      2:{ destruct (decide (i = cid /\ t = tid)) as [[-> ->]|Hne].
          - specialize (IH cid tid). unfold lat in *. rewrite Ei in IH. rewrite Hrs, Ei.
            apply noe_snoc; [|done]. intros o' _ _. split; [unfold ServerVocab.store_at; by rewrite Hrs|].
            intros d d' Hd. unfold ServerVocab.conn_at in Hd. congruence.
          - apply Hsame; [done|intros o' E; apply Hne; by injection E|by rewrite Hrs]. }
      destruct (decide (i = cid)) as [->|Hnc].
      2:{ apply Hsame; [done|intros o' E; by injection E|]. rewrite Hrs.
          destruct (step_thread S g (s_sh S (run evs)) c t o). cbn. by rewrite lookup_insert_ne. }
      destruct (decide (t = tid)) as [->|Hnt].
      + destruct (c_reqs S c !! tid) as [rq|] eqn:Eq.
        * apply (own_step evs cid tid o c rq Ei Eq). specialize (IH cid tid). unfold lat in IH. by rewrite Ei, Eq in IH.
        * assert (Et : c_thr S c !! tid = None).
          { destruct (c_thr S c !! tid) as [th|] eqn:E; [|done]. destruct HL as (_ & HCs & _).
            destruct (HCs _ _ Ei) as (_ & H2 & _). destruct (lookup_lt_is_Some_2 (c_reqs S c) tid) as [? ?]; [|congruence].
            apply H2. by eexists. }
          unfold step_thread in Hrs. rewrite Et in Hrs.
          specialize (IH cid tid). unfold lat in *. rewrite Ei, Eq in IH. rewrite Hrs. cbn [s_conns]. rewrite lookup_insert, Eq.
          apply noe_snoc; [|done]. intros o' _ _. split; [unfold ServerVocab.store_at; by rewrite Hrs|].
          intros d d' Hd Hd'. unfold ServerVocab.conn_at in *. rewrite Hrs in Hd'. cbn [s_conns] in Hd'.
          rewrite lookup_insert in Hd'. congruence.
      + destruct (step_conn S SO g HC evs (EvStep cid t o) cid c Ei eq_refl) as (c' & Hc' & Hde & Hen & _ & Hu).
        assert (E : c' = snd (step_thread S g (s_sh S (run evs)) c t o)).
        { unfold ServerVocab.conn_at in Hc'. rewrite Hrs in Hc'. destruct (step_thread S g (s_sh S (run evs)) c t o).
          cbn [s_conns] in Hc'. rewrite lookup_insert in Hc'. by injection Hc' as ->. }
        eapply (Hkeep c c'); [done|intros o' Eo; by injection Eo|done|done|done|done| | | |].
        * destruct Hu as [->|[-> _]]; done.
        * rewrite E. unfold step_thread. destruct (c_thr S c !! t) as [[p|e]|]; [| |done].
          -- destruct (r_prog S _); cbn [snd c_reqs]; [|done]. rewrite mark_fail_lookup. by destruct (decide (tid = t)).
          -- destruct (c_reqs S c !! t); [|done]. cbn [snd c_reqs]. rewrite mark_fail_lookup. by destruct (decide (tid = t)).
        * rewrite E. unfold step_thread. destruct (c_thr S c !! t) as [[p|e]|]; [| |by left].
          -- destruct (r_prog S _); cbn [snd c_thr]; [|right; apply lookup_empty]. left.
             rewrite lookup_set_thr. by destruct (decide (tid = t)).
          -- left. destruct (c_reqs S c !! t); [|done]. cbn [snd c_thr]. by rewrite lookup_delete_ne.
        * intros m b. rewrite E. unfold step_thread. destruct (c_thr S c !! t) as [[p|e]|]; [| |done].
          -- destruct (r_prog S _); cbn [snd c_log]; [|done]. intros [?|[? _]]%logs_add; [done|]. by destruct Hnt.
          -- destruct (c_reqs S c !! t); [|done]. cbn [snd c_log]. intros [?|H%elem_of_list_singleton]%elem_of_app; [done|].
             apply (f_equal (fun x => x.1.1)) in H. cbn in H. by destruct Hnt.
    - destruct (s_conns S (run evs) !! i) as [c|] eqn:Ei; [|apply Hsame; [done|done|by rewrite Hrs]].
      destruct (decide (i = cid)) as [->|Hne]; [|apply Hsame; [done|done|]; rewrite Hrs; cbn; by rewrite lookup_insert_ne].
      assert (Hc' : s_conns S (run (evs ++ [EvAbort cid t er])) !! cid = Some (abort_thread S c t er)).
      { rewrite Hrs. cbn [s_conns]. apply lookup_insert. }
      destruct (c_thr S c !! t) as [[p|e']|] eqn:Et.
      2,3: (assert (Ea : abort_thread S c t er = c) by (unfold abort_thread; by rewrite Et));
           rewrite Ea in Hc'; eapply (Hkeep c c); try done; by left.
      destruct (decide (tid = t)) as [->|Hnt].
      + specialize (IH cid t). unfold lat in *. rewrite Ei in IH. rewrite Hc'. unfold abort_thread. rewrite Et. cbn [c_reqs].
        rewrite mark_fail_lookup. destruct (decide (t = t)); [|done].
        destruct (c_reqs S c !! t) as [rq|]; cbn; [by rewrite orb_true_r|]. by apply Hoth.
      + eapply (Hkeep c _); [done|done|done|exact Hc'|unfold abort_thread; rewrite Et; try done..]; cbn [c_reqs c_thr].
        * rewrite mark_fail_lookup. by destruct (decide (tid = t)).
        * left. by rewrite lookup_insert_ne.
    - destruct (s_conns S (run evs) !! i) as [c|] eqn:Ei; [|apply Hsame; [done|done|by rewrite Hrs]].
      destruct (decide (i = cid)) as [->|Hne]; [|apply Hsame; [done|done|]; rewrite Hrs; cbn; by rewrite lookup_insert_ne].
      eapply (Hkeep c _); [done|done|done|rewrite Hrs; cbn [s_conns]; apply lookup_insert|done..|by left|done].
    - apply Hsame; [done|done|]. rewrite Hrs. by destruct (direct_okb d).
    - unfold lat. rewrite Hrs. cbn [s_conns]. rewrite lookup_empty. apply noe_restart.
  Qed.

  Lemma answered_at_once evs cid c tid rq m :
    conn_at evs cid c -> received c tid rq -> undisturbed S rq -> sent c tid m ->
    instant evs cid tid (rq_msg S rq) m.
  Proof.
    intros Hc Hq Hf [b Hm]. destruct (run_both S SO g HC evs) as (L & HL & HA).
    pose proof (lat_run evs cid tid) as H. unfold lat in H.
    unfold ServerVocab.conn_at, ServerVocab.received, undisturbed in *. rewrite Hc, Hq in H. specialize (H Hf).
    unfold status in H. destruct (c_thr S c !! tid) as [th|] eqn:Et; [|by eapply H].
    exfalso. by apply (silent _ _ _ _ _ _ HA Hc Hq Hf Et m b).
  Qed.
End Proofs.
