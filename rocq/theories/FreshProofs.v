(** * FreshProofs: where the random values of answers and entries come from *)

From Verif Require Import Base Utf8 Crypto Types Codec Secret Store StoreProofs
  Lru Server System ServerSpec ServerVocab ServerProofs ServerProofs2 SystemProofs AnswerProofs
  ServerTheorems WriteProofs FreshVocab.
From Coq Require Import Sorted.

(** ** What a program did so far *)

Inductive act := ARand (b : bytes) | AWrote (e : entry).

Definition rands (tr : list act) : list bytes :=
  omap (fun a => match a with ARand b => Some b | _ => None end) tr.

Lemma rands_map vs : rands (map ARand vs) = vs.
Proof. induction vs as [|v vs IH]; [done|]. cbn. f_equal. exact IH. Qed.
Lemma rands_app a b : rands (a ++ b) = rands a ++ rands b.
Proof. apply omap_app. Qed.
Lemma wrote_not_rand e vs : AWrote e ∉ map ARand vs.
Proof. intros H. apply elem_of_list_fmap in H as (x & E & _). discriminate E. Qed.

Section Acts.
  Variable S : store_impl.
  Variable g : genv.

  (** What a single step does. *)
  Definition acts1 (sh : shared S) {A} (p : prog A) (o : oracle) : list act :=
    match p with
    | Rand n _ => [ARand (fit n (o_rand o))]
    | StWrite e _ =>
        if o_fail o then []
        else if is_ok (fst (st_write S (sh_store S sh) e)) then [AWrote e] else []
    | _ => []
    end.

  Variable cid tid : nat.

  Definition act_now (s : sys S) (ev : event) : list act :=
    match ev with
    | EvStep c t o =>
        if Nat.eqb c cid && Nat.eqb t tid then
          match s_conns S s !! cid with
          | Some cn =>
              match c_thr S cn !! tid with
              | Some (Running p) => acts1 (s_sh S s) p o
              | _ => []
              end
          | None => []
          end
        else []
    | _ => []
    end.

  Fixpoint acts_from (s : sys S) (l : list act) (evs : list event) : list act :=
    match evs with
    | [] => l
    | ev :: evs => acts_from (step S g s ev) (if is_restart ev then [] else l ++ act_now s ev) evs
    end.

  (** All that the handling of this request did since the last restart. *)
  Definition acts (evs : list event) : list act := acts_from (init S) [] evs.

  Lemma acts_from_app evs evs' : forall s l,
    acts_from s l (evs ++ evs') = acts_from (fold_left (step S g) evs s) (acts_from s l evs) evs'.
  Proof. induction evs as [|ev evs IH]; intros s l; cbn [app acts_from fold_left]; [done|apply IH]. Qed.

  Lemma acts_snoc evs ev :
    acts (evs ++ [ev]) = if is_restart ev then [] else acts evs ++ act_now (run S g evs) ev.
  Proof. unfold acts. by rewrite acts_from_app. Qed.
End Acts.

Lemma restarts_app a b : restarts (a ++ b) = restarts a + restarts b.
Proof. unfold restarts. by rewrite List.filter_app, app_length. Qed.

Lemma restarts_one ev : restarts [ev] = if is_restart ev then 1 else 0.
Proof. unfold restarts. cbn. by destruct (is_restart ev). Qed.

Lemma given_app evs evs' w k r : given evs w k = Some r -> given (evs ++ evs') w k = Some r.
Proof.
  destruct w as [l cid tid|i]; cbn [given].
  - destruct (evs !! k) as [ev|] eqn:E; [|done]. pose proof (lookup_lt_Some _ _ _ E).
    rewrite (lookup_app_l_Some _ _ _ _ E). by rewrite take_app_le by lia.
  - destruct (evs !! i) as [ev|] eqn:E; [|done]. by rewrite (lookup_app_l_Some _ _ _ _ E).
Qed.

Lemma drew_app evs evs' w vs : drew evs w vs -> drew (evs ++ evs') w vs.
Proof.
  intros (ks & H1 & H2). exists ks. split; [done|]. eapply Forall2_impl; [exact H2|].
  intros k b (r & Hr & Hb). exists r. split; [by apply given_app|done].
Qed.

Lemma sorted_snoc ks k : StronglySorted lt ks -> Forall (fun j => j < k) ks -> StronglySorted lt (ks ++ [k]).
Proof.
  induction ks as [|j ks IH]; intros Hs Hf; cbn; [by repeat constructor|].
  apply StronglySorted_inv in Hs as [Hs Hj]. apply Forall_cons in Hf as [Hjk Hf].
  constructor; [by apply IH|]. apply Forall_app. by repeat constructor.
Qed.

(** The values drawn by a request are what it was given. *)
Lemma acts_drew S g cid tid evs :
  exists ks, StronglySorted lt ks /\ Forall (fun j => j < length evs) ks
    /\ Forall2 (fun k b => exists r, given evs (ByRequest (restarts evs) cid tid) k = Some r /\ b = fit (length b) r)
         ks (rands (acts S g cid tid evs)).
Proof.
  induction evs as [|ev evs (ks & H1 & H2 & H3)] using rev_ind; [exists []; by repeat constructor|].
  rewrite acts_snoc. destruct (is_restart ev) eqn:Er; [exists []; by repeat constructor|].
  assert (Hr : restarts (evs ++ [ev]) = restarts evs).
  { rewrite restarts_app, restarts_one, Er. lia. }
  rewrite Hr, rands_app.
  assert (Hold : exists ks, StronglySorted lt ks /\ Forall (fun j => j < length evs) ks
    /\ Forall2 (fun k b => exists r, given (evs ++ [ev]) (ByRequest (restarts evs) cid tid) k = Some r /\ b = fit (length b) r)
         ks (rands (acts S g cid tid evs))).
  { exists ks. split; [done|]. split; [done|]. eapply Forall2_impl; [exact H3|].
    intros k b (r & ? & ?). exists r. split; [by apply given_app|done]. }
  clear H1 H2 H3 ks. destruct Hold as (ks & H1 & H2 & H3).
  assert (Hl : Forall (fun j => j < length (evs ++ [ev])) ks).
  { eapply Forall_impl; [exact H2|]. intros j Hj. cbv beta in *. rewrite app_length. cbn [length]. lia. }
  assert (Hcase : rands (act_now S cid tid (run S g evs) ev) = []
    \/ exists n o, ev = EvStep cid tid o /\ rands (act_now S cid tid (run S g evs) ev) = [fit n (o_rand o)]).
  { destruct ev as [| |c t o| | | |]; try by left. unfold act_now.
    destruct (Nat.eqb_spec c cid) as [->|]; [|by left]. destruct (Nat.eqb_spec t tid) as [->|]; [|by left]. cbn [andb].
    destruct (s_conns S _ !! cid) as [cn|]; [|by left].
    destruct (c_thr S cn !! tid) as [[p|]|]; [|by left..].
    destruct p as [| | |n k|e k| | | | | | | |]; try by left.
    - right. by exists n, o.
    - left. cbn [acts1]. destruct (o_fail o); [done|]. by destruct (is_ok _). }
  destruct Hcase as [->|(n & o & -> & ->)].
  - exists ks. rewrite app_nil_r. done.
  - exists (ks ++ [length evs]). split; [by apply sorted_snoc|]. split.
    + apply Forall_app. split; [eapply Forall_impl; [exact Hl|done]|]. constructor; [|done]. rewrite app_length. cbn [length]. lia.
    + apply Forall2_app; [done|]. constructor; [|done]. exists (o_rand o). cbn [given].
      rewrite lookup_app_r, Nat.sub_diag by lia. cbn [lookup list_lookup].
      rewrite !Nat.eqb_refl, take_app. cbn [andb]. rewrite Nat.eqb_refl. split; [done|]. by rewrite fit_length.
Qed.

Lemma drew_acts S g cid tid evs :
  drew evs (ByRequest (restarts evs) cid tid) (rands (acts S g cid tid evs)).
Proof. destruct (acts_drew S g cid tid evs) as (ks & H1 & _ & H3). by exists ks. Qed.

(** ** What a program will do *)

Fixpoint fr (W : list act -> entry -> Prop) (T : list act -> api -> Prop) (tr : list act)
    (p : prog (res unit)) {struct p} : Prop :=
  match p with
  | Ret _ => True
  | Send m k => T tr m /\ forall r, fr W T tr (k r)
  | Crash => True
  | StWrite e k => (W tr e /\ fr W T (tr ++ [AWrote e]) (k (Ok tt))) /\ forall er, fr W T tr (k (Err er))
  | LoadUnlocked k => forall x, fr W T tr (k x)
  | SetUnlocked k => fr W T tr k
  | Rand n k => forall x, length x = n -> fr W T (tr ++ [ARand x]) (k x)
  | StList k => forall x, fr W T tr (k x)
  | StGet _ k => forall x, fr W T tr (k x)
  | CacheGet _ k => forall x, fr W T tr (k x)
  | CachePut _ k => fr W T tr k
  | CertGen k => forall x, fr W T tr (k x)
  | AskFallback _ _ _ k => forall x, fr W T tr (k x)
  end.

Definition wmake (g : genv) (rq : api) (tr : list act) (e : entry) : Prop :=
  exists vs, tr = map ARand vs /\ new_tag rq = Some (tag_of e) /\ made_of g (for_new_seed rq) e vs.

Definition dmake (g : genv) (d : direct) (tr : list act) (e : entry) : Prop :=
  exists vs, tr = map ARand vs /\ made_of g (call_new_seed d) e vs.

Definition uses (g : genv) (rq : api) (tr : list act) (m : api) : Prop :=
  is_error m = false /\
  match m with
  | ResExportSeed _ n _ | ResBox _ n _ | ResBoxSign _ n _ | ResSecretBox _ n _ =>
      length n = 24 /\ tr = [ARand n]
  | ResCertKey _ sec => length (s_header sec) = 24 /\ tr = [ARand (s_header sec)]
  | ResNewSeed _ _ _ | ResImportSeed _ _ _ | ResDeriveSeed _ _ | ResNewCert _ _ _ =>
      exists e vs, new_tag rq = Some (tag_of e) /\ made_of g (for_new_seed rq) e vs
        /\ tr = map ARand vs ++ [AWrote e]
  | _ => tr = []
  end.

Section Prog.
  Variable g : genv.
  Hypothesis HC : CryptoOk (g_crypto g).

  Lemma plain_in t x seed hdr : length seed = 32 -> 
    seed_in g (ESeed t (SeedInfo (sign_pk (g_crypto g) seed) (box_pk (g_crypto g) seed) x)
      (sec_encrypt (g_crypto g) (g_bidi g) hdr seed)) seed.
  Proof.
    intros H1. left. cbn. rewrite <- H1 at 1. rewrite (sec_open_encrypt _ HC). done.
  Qed.

  Lemma locked_in t x seed salt ops mem pass key hdr :
    argon2id (g_crypto g) pass salt ops mem = Ok key -> length seed = 32 ->
    seed_in g (EDeep t (SeedInfo (sign_pk (g_crypto g) seed) (box_pk (g_crypto g) seed) x) salt ops mem
      (sec_encrypt (g_crypto g) key hdr seed)) seed.
  Proof.
    intros H0 H1. right. exists pass. cbn. exists key. split; [done|].
    rewrite <- H1 at 1. rewrite (sec_open_encrypt _ HC). done.
  Qed.

  Lemma sizes_plain t si k hdr sd : length hdr = HEADERBYTES ->
    sizes (ESeed t si (sec_encrypt (g_crypto g) k hdr sd)).
  Proof. intros H. split; [exact (Forall_nil_2 _)|exact H]. Qed.
  Lemma sizes_cert t si k hdr sd : length hdr = HEADERBYTES ->
    sizes (ECert t si (sec_encrypt (g_crypto g) k hdr sd)).
  Proof. intros H. split; [exact (Forall_nil_2 _)|exact H]. Qed.
  Lemma sizes_deep t si salt ops mem k hdr sd : length salt = 16 -> length hdr = HEADERBYTES ->
    sizes (EDeep t si salt ops mem (sec_encrypt (g_crypto g) k hdr sd)).
  Proof. intros H0 H. split; [apply Forall_cons_2; [exact H0|exact (Forall_nil_2 _)]|exact H]. Qed.

  Ltac size :=
    lazymatch goal with
    | |- sizes (ESeed _ _ _) => apply sizes_plain; assumption
    | |- sizes (ECert _ _ _) => apply sizes_cert; assumption
    | |- sizes (EDeep _ _ _ _ _ _) => apply sizes_deep; assumption
    end.
  (** Its secret is encrypted. *)
  Ltac seal_up :=
    lazymatch goal with
    | |- sealed _ (ESeed _ _ _) => eexists; split; [reflexivity|]; split; reflexivity
    | |- sealed _ (ECert _ _ _) => eexists; split; reflexivity
    | |- sealed _ (EDeep _ _ _ _ _ _) =>
        eexists _, _, _; split; [reflexivity|]; split; [reflexivity|]; split; [eassumption|reflexivity]
    end.
  (** The entry just written is made of the values drawn. *)
  Ltac make :=
    lazymatch goal with
    | |- made_of _ true ?e ?vs =>
        split; [size|]; split; [seal_up|]; eexists; split; [|split; [|reflexivity]];
          [eassumption|first [eapply locked_in; eassumption|eapply plain_in; eassumption]]
    | |- made_of _ false ?e ?vs => split; [size|]; split; [seal_up|reflexivity]
    end.

  Ltac walk :=
    repeat (cbn [fr bind orelse app];
      lazymatch goal with
      | |- forall x, length x = _ -> _ => intros ? ?
      | |- forall _, _ => intros ?
      | |- (_ /\ _) /\ _ => split
      | |- wmake _ _ _ _ /\ _ => split
      | |- dmake _ _ _ _ /\ _ => split
      | |- uses _ _ _ _ /\ _ => split
      | |- uses _ _ _ _ => split; [reflexivity|]
      | |- True => exact I
      | |- fr _ _ _ (bind (match ?x with _ => _ end) _) => destruct x eqn:?
      | |- fr _ _ _ (bind (orelse _ ?x) _) => destruct x eqn:?
      | |- fr _ _ _ (orelse _ ?x) => destruct x eqn:?
      | |- fr _ _ _ (match ?x with _ => _ end) => destruct x eqn:?
      | |- fr _ _ _ (bind (bind (match ?x with _ => _ end) _) _) => destruct x eqn:?
      | |- fr _ _ _ (bind (bind (orelse _ ?x) _) _) => destruct x eqn:?
      end).

  Lemma fr_dispatch enc dec a : fr (wmake g a) (uses g a) [] (dispatch g enc dec a).
  Proof.
    destruct a; cbn [dispatch]; try exact I;
    unfold h_hello, h_unlock, h_get_entry, h_list, h_new_seed, h_derive, h_export, h_import,
      h_sign, h_box, h_box_open, h_box_sign, h_box_sign_open, h_new_cert, h_cert_key, h_sbox,
      h_sbox_open, check_unlocked, store_seed, new_seed, insert_seed, new_deep_locked_seed,
      insert_deep_locked_seed, new_wka_tls_cert, get_full, rand, send, fail, bindr; walk.
    all: lazymatch goal with
      | |- wmake _ _ [ARand ?a; ARand ?b; ARand ?c] _ => exists [a; b; c]
      | |- wmake _ _ [ARand ?a; ARand ?b] _ => exists [a; b]
      | |- wmake _ _ [ARand ?a] _ => exists [a]
      | |- exists _ _, _ /\ _ /\ [ARand ?a; ARand ?b; ARand ?c; AWrote ?e] = _ => exists e, [a; b; c]
      | |- exists _ _, _ /\ _ /\ [ARand ?a; ARand ?b; AWrote ?e] = _ => exists e, [a; b]
      | |- exists _ _, _ /\ _ /\ [ARand ?a; AWrote ?e] = _ => exists e, [a]
      | |- _ => idtac
      end.
    all: lazymatch goal with
      | |- map ARand _ = _ /\ _ /\ _ => split; [reflexivity|]; split; [reflexivity|]; cbn [for_new_seed]; make
      | |- [_; _; _] = map ARand _ /\ _ /\ _ => split; [reflexivity|]; split; [reflexivity|]; cbn [for_new_seed]; make
      | |- [_; _] = map ARand _ /\ _ /\ _ => split; [reflexivity|]; split; [reflexivity|]; cbn [for_new_seed]; make
      | |- [_] = map ARand _ /\ _ /\ _ => split; [reflexivity|]; split; [reflexivity|]; cbn [for_new_seed]; make
      | |- new_tag _ = _ /\ _ /\ _ => split; [reflexivity|]; split; [|reflexivity]; cbn [for_new_seed]; make
      | |- _ = _ /\ _ = _ => split; [assumption|reflexivity]
      | |- _ => reflexivity
      end.
  Qed.

  Lemma fr_direct d : fr (dmake g d) (fun _ _ => False) [] (direct_prog g d).
  Proof.
    destruct d; cbn [direct_prog]; unfold ignore, new_seed, insert_seed, new_deep_locked_seed,
      insert_deep_locked_seed, new_wka_tls_cert, rand, send, fail, bindr; walk.
    all: lazymatch goal with
      | |- dmake _ _ [ARand ?a; ARand ?b; ARand ?c] _ => exists [a; b; c]
      | |- dmake _ _ [ARand ?a; ARand ?b] _ => exists [a; b]
      | |- dmake _ _ [ARand ?a] _ => exists [a]
      end.
    all: split; [reflexivity|]; cbn [call_new_seed]; make.
  Qed.
End Prog.

Section Fresh.
  Variable S : store_impl.
  Variable SO : StoreOk S.
  Variable g : genv.
  Hypothesis HC : CryptoOk (g_crypto g).

  Notation run := (run S g).
  Notation stored := (stored S g).
  Notation conn_at := (conn_at S g).
  Notation received := (received S).
  Notation sent := (sent S).
  Notation acts := (acts S g).

  (** ** One step *)

  Lemma step1_fr W T tr sh unl p p' o : fr W T tr p ->
    r_prog S (step1 S g sh unl p o) = Some p' -> fr W T (tr ++ acts1 S sh p o) p'.
  Proof.
    destruct p as [a|k|k|n k|e k|k|q k|q k|f k|k|i pk d k|m k|]; cbn [fr step1 acts1]; intros H E;
      try (rewrite app_nil_r).
    - by injection E as <-.
    - injection E as <-. apply H.
    - by injection E as <-.
    - injection E as <-. apply H, fit_length.
    - destruct (o_fail o); [rewrite app_nil_r; injection E as <-; apply H|].
      destruct (st_write S (sh_store S sh) e) as [[[]|er] s']; injection E as <-; cbn [fst is_ok]; [apply H|].
      rewrite app_nil_r. apply H.
    - destruct (o_fail o); injection E as <-; apply H.
    - destruct (o_fail o); injection E as <-; apply H.
    - destruct (cache_get S sh q). injection E as <-. apply H.
    - by injection E as <-.
    - destruct (o_cert o) as [gc|]; [destruct (_ && _)|]; injection E as <-; apply H.
    - injection E as <-. apply H.
    - apply (f_equal (fun x => match x with Some y => y | None => Crash end)) in E. cbn in E. rewrite <- E. apply H.
    - discriminate E.
  Qed.

  Definition fthread (rq : request S) (tr : list act) (t : option thread) : Prop :=
    match t with
    | Some (Running p) => fr (wmake g (rq_msg S rq)) (uses g (rq_msg S rq)) tr p
    | _ => True
    end.

  Definition freq (c : conn S) (tid : nat) (rq : request S) (tr : list act) : Prop :=
    fthread rq tr (c_thr S c !! tid)
    /\ forall m b, (tid, m, b) ∈ c_log S c -> is_error m = true \/ uses g (rq_msg S rq) tr m.

  Definition fat (s : sys S) (cid tid : nat) (tr : list act) : Prop :=
    match s_conns S s !! cid with
    | Some c => match c_reqs S c !! tid with Some rq => freq c tid rq tr | None => tr = [] end
    | None => tr = []
    end.

  Lemma settle_fr rq tr p : fr (wmake g (rq_msg S rq)) (uses g (rq_msg S rq)) tr p -> fthread rq tr (settle p).
  Proof. destruct p as [[u|e]| | | | | | | | | | | |]; by cbn. Qed.

  Lemma freq_log c c' tid rq rq' tr : rq_msg S rq' = rq_msg S rq ->
    c_thr S c' !! tid = c_thr S c !! tid \/ (forall p, c_thr S c' !! tid <> Some (Running p)) ->
    (forall m b, (tid, m, b) ∈ c_log S c' -> (tid, m, b) ∈ c_log S c \/ is_error m = true) ->
    freq c tid rq tr -> freq c' tid rq' tr.
  Proof.
    intros Hm Ht Hl (H1 & H2). split.
    - unfold fthread in *. destruct Ht as [->|Ht]; [by rewrite Hm|].
      destruct (c_thr S c' !! tid) as [[p|]|]; [by destruct (Ht p)|done..].
    - intros m b Hi. rewrite Hm. destruct (Hl m b Hi); [by eapply H2|by left].
  Qed.

  (** The step of a request itself. *)
  Lemma step_fr L s cid c tid o rq tr :
    inv_at S SO g L s -> ans_inv S s -> s_conns S s !! cid = Some c -> c_reqs S c !! tid = Some rq ->
    freq c tid rq tr ->
    let s' := step S g s (EvStep cid tid o) in
    let now := act_now S cid tid s (EvStep cid tid o) in
    fat s' cid tid (tr ++ now)
    /\ (((forall e, AWrote e ∉ now) /\ st_rel S SO (sh_store S (s_sh S s')) L)
        \/ exists e, now = [AWrote e] /\ wmake g (rq_msg S rq) tr e
            /\ st_rel S SO (sh_store S (s_sh S s')) (L ++ [e]) /\ distinct (L ++ [e])).
  Proof.
    intros HL HA Hc Hq Hw. cbn [step act_now]. rewrite !Nat.eqb_refl, Hc. cbn [andb]. unfold step_thread.
    pose proof HL as (HS & HCs & HF). pose proof HS as (Hrel & Hdis & _).
    destruct (c_thr S c !! tid) as [[p|e]|] eqn:Et.
    - pose proof (HCs _ _ Hc) as (H1 & H2 & H3 & H4).
      destruct (H1 tid rq Hq) as (L0 & A1 & A2 & A3 & A4 & A5 & A6 & A7). rewrite Et in A6. cbn [thread_ok] in A6.
      destruct (running_silent S s cid c tid rq p HA Hc Hq Et) as [[n Hn] Hsil].
      destruct Hw as (Hw & Hlog). rewrite Et in Hw. cbn [fthread] in Hw.
      assert (Hs1 : forall p', r_prog S (step1 S g (s_sh S s) (c_unl S c) p o) = Some p' ->
        fr (wmake g (rq_msg S rq)) (uses g (rq_msg S rq)) (tr ++ acts1 S (s_sh S s) p o) p').
      { intros p'. by apply step1_fr. }
      assert (Hout : forall m b, r_out S (step1 S g (s_sh S s) (c_unl S c) p o) = Some (m, b) ->
        acts1 S (s_sh S s) p o = [] /\ uses g (rq_msg S rq) tr m).
      { intros m b Eo. destruct p; cbn [step1 r_out] in Eo;
          repeat (match type of Eo with context [match ?x with _ => _ end] => destruct x end; cbn [r_out] in Eo); try discriminate Eo.
        cbn [fr] in Hw. cbn [acts1]. split; [done|].
        apply (f_equal (fun x => match x with Some (y, _) => y | None => ReqListEntries [] end)) in Eo. cbn in Eo. rewrite <- Eo. apply Hw. }
      assert (Hstore : ((forall e, AWrote e ∉ acts1 S (s_sh S s) p o)
          /\ st_rel S SO (sh_store S (r_sh S (step1 S g (s_sh S s) (c_unl S c) p o))) L)
        \/ exists e, acts1 S (s_sh S s) p o = [AWrote e] /\ wmake g (rq_msg S rq) tr e
            /\ st_rel S SO (sh_store S (r_sh S (step1 S g (s_sh S s) (c_unl S c) p o))) (L ++ [e]) /\ distinct (L ++ [e])).
      { destruct (step1_store S g (s_sh S s) (c_unl S c) p o) as [[-> Hnw]|(e & k & -> & Ho)].
        { left. split; [|done]. intros e. destruct p; cbn [acts1]; try apply not_elem_of_nil.
          - intros H. apply elem_of_list_singleton in H. discriminate H.
          - rewrite (Hnw _ _ eq_refl). apply not_elem_of_nil. }
        cbn [ok] in A6. destruct A6 as [[[Heok _] _] _]. cbn [step1 acts1 fr] in *. rewrite Ho.
        pose proof (st_write_ok S SO _ L e Hrel Heok) as Hwo.
        destruct (st_write S (sh_store S (s_sh S s)) e) as [r s'] eqn:Ew. cbn [fst snd] in Hwo.
        unfold spec_write in Hwo. destruct (taken L e) eqn:Etk.
        - destruct Hwo as [Hr Hrel']. left. split; [|exact Hrel']. intros e'. cbn [fst].
          destruct r as [[]|er]; [done|]. apply not_elem_of_nil.
        - destruct Hwo as [-> Hrel']. right. exists e. split; [done|]. split; [apply Hw|]. split; [exact Hrel'|].
          by apply distinct_snoc. }
      set (now := acts1 S (s_sh S s) p o) in *. clearbody now.
      set (r := step1 S g (s_sh S s) (c_unl S c) p o) in *.
      clearbody r. split.
      + unfold fat. destruct (r_prog S r) as [p'|]; cbn [s_conns]; rewrite lookup_insert; cbn [c_reqs].
        * rewrite mark_fail_lookup. destruct (decide (tid = tid)); [|done]. rewrite Hq. cbn [option_map fmap option_fmap].
          split; cbn [c_thr c_log].
          { rewrite lookup_set_thr. destruct (decide (tid = tid)); [|done]. apply settle_fr. by apply Hs1. }
          { intros m b Hin. unfold log_add in Hin. destruct (r_out S r) as [[m' b']|]; [|by destruct (Hsil m b)].
            apply elem_of_app in Hin as [Hin|Hin]; [by destruct (Hsil m b)|]. apply elem_of_list_singleton in Hin.
            apply (f_equal (fun x => x.1.2)) in Hin. cbn in Hin. rewrite Hin. right.
            destruct (Hout m' b' eq_refl) as [-> H]. by rewrite app_nil_r. }
        * rewrite Hq. split; cbn [c_thr c_log]; [by rewrite lookup_empty|]. intros m b Hin. by destruct (Hsil m b).
      + destruct (r_prog S r); exact Hstore.
    - rewrite Hq, app_nil_r. split; [|left; split; [intros; apply not_elem_of_nil|done]].
      unfold fat. cbn [s_conns]. rewrite lookup_insert. cbn [c_reqs].
      rewrite mark_fail_lookup. destruct (decide (tid = tid)); [|done]. rewrite Hq. cbn [option_map fmap option_fmap].
      eapply freq_log; [| | |exact Hw]; [done|right; intros p; cbn; by rewrite lookup_delete|].
      intros m b. cbn. rewrite elem_of_app, elem_of_list_singleton. intros [?|E]; [by left|].
      apply (f_equal (fun x => x.1.2)) in E. cbn in E. right. by rewrite E.
    - rewrite app_nil_r. split; [|left; split; [intros; apply not_elem_of_nil|done]]. unfold fat. cbn [s_conns]. by rewrite lookup_insert, Hq.
  Qed.

  Lemma step_fr_other sh c tid tid' o rq tr : tid <> tid' ->
    c_reqs S c !! tid = Some rq -> freq c tid rq tr ->
    c_reqs S (snd (step_thread S g sh c tid' o)) !! tid = Some rq
    /\ freq (snd (step_thread S g sh c tid' o)) tid rq tr.
  Proof.
    intros Hne Hq Hw. unfold step_thread. destruct (c_thr S c !! tid') as [[p|e]|]; [| |done].
    - destruct (r_prog S _) as [p'|]; cbn [snd c_reqs].
      + rewrite mark_fail_lookup. destruct (decide (tid = tid')); [done|]. split; [done|].
        eapply freq_log; [| | |exact Hw]; [done| |].
        * left. cbn. rewrite lookup_set_thr. by destruct (decide (tid = tid')).
        * intros m b. cbn. unfold log_add. destruct (r_out S _) as [[m' b']|]; [|by left].
          rewrite elem_of_app, elem_of_list_singleton. intros [?|E]; [by left|]. by apply (f_equal (fun x => x.1.1)) in E.
      + split; [done|]. eapply freq_log; [| | |exact Hw]; [done|right; intros ?; cbn; by rewrite lookup_empty|by left].
    - destruct (c_reqs S c !! tid') as [rq'|]; [|done]. cbn [snd c_reqs].
      rewrite mark_fail_lookup. destruct (decide (tid = tid')); [done|]. split; [done|].
      eapply freq_log; [| | |exact Hw]; [done| |].
      + left. cbn. by rewrite lookup_delete_ne.
      + intros m b. cbn. rewrite elem_of_app, elem_of_list_singleton. intros [?|E]; [by left|]. by apply (f_equal (fun x => x.1.1)) in E.
  Qed.

  Lemma fat_run evs cid tid : fat (run evs) cid tid (acts cid tid evs).
  Proof.
    revert cid tid. induction evs as [|ev evs IH] using rev_ind; [done|].
    destruct (run_both S SO g HC evs) as (L & HL & HA).
    assert (Hsame : forall cid tid, is_restart ev = false -> act_now S cid tid (run evs) ev = [] ->
      (forall tr, fat (run evs) cid tid tr -> fat (run (evs ++ [ev])) cid tid tr) ->
      fat (run (evs ++ [ev])) cid tid (acts cid tid (evs ++ [ev]))).
    { intros cid tid H1 H2 H3. rewrite acts_snoc, H1, H2, app_nil_r. by apply H3. }
    intros cid tid. rewrite (run_snoc S g evs ev) in *.
    destruct ev as [i rx tx|i raw|i t o|i t er|i|d os|].
    - apply Hsame; [done..|]. intros tr. unfold fat. cbn [step].
      destruct (s_conns S (run evs) !! i) as [c|] eqn:Ei; [done|]. destruct (_ && _); [|done]. cbn [s_conns].
      destruct (decide (i = cid)) as [->|Hne]; [|by rewrite lookup_insert_ne].
      rewrite lookup_insert, Ei. cbn. done.
    - apply Hsame; [done..|]. intros tr. unfold fat. cbn [step].
      destruct (s_conns S (run evs) !! i) as [c|] eqn:Ei; [|done]. cbn [s_conns].
      destruct (decide (i = cid)) as [->|Hne]; [|by rewrite lookup_insert_ne].
      rewrite lookup_insert, Ei. unfold receive. destruct (c_open S c && _); [|done].
      destruct (decode_api raw) as [a|]; [|done]. cbn [c_reqs].
      destruct (decide (tid = length (c_reqs S c))) as [->|Hne].
      + rewrite (lookup_ge_None_2 (c_reqs S c)) by lia. intros ->.
        rewrite lookup_app_r, Nat.sub_diag by lia. cbn. split; cbn [c_thr c_log].
        * rewrite lookup_set_thr. destruct (decide _); [|done]. apply settle_fr. by apply fr_dispatch.
        * intros m b Hin. destruct HL as (_ & HCs & _). destruct (HCs _ _ Ei) as (_ & _ & H3 & _). apply H3 in Hin. lia.
      + destruct (c_reqs S c !! tid) as [rq|] eqn:Eq.
        * rewrite lookup_app_l by (by eapply lookup_lt_Some). rewrite Eq.
          apply freq_log; [done| |by left]. left. cbn. rewrite lookup_set_thr. by destruct (decide _).
        * intros ->. rewrite lookup_app_r by (by apply lookup_ge_None). apply lookup_ge_None in Eq.
          destruct (tid - length (c_reqs S c)) eqn:E; [lia|done].
    - destruct (decide (i = cid /\ t = tid)) as [[-> ->]|Hne].
      + destruct (s_conns S (run evs) !! cid) as [c|] eqn:Ei.
        2:{ apply Hsame; [done| |].
            - cbn [act_now]. by rewrite !Nat.eqb_refl, Ei.
            - intros tr. cbn [step]. by rewrite Ei. }
        destruct (c_reqs S c !! tid) as [rq|] eqn:Eq.
        2:{ assert (Et : c_thr S c !! tid = None).
            { destruct (c_thr S c !! tid) as [th|] eqn:E; [|done]. destruct HL as (_ & HCs & _).
              destruct (HCs _ _ Ei) as (_ & H2 & _). destruct (lookup_lt_is_Some_2 (c_reqs S c) tid) as [? ?]; [|congruence].
              apply H2. by eexists. }
            assert (Hs : step S g (run evs) (EvStep cid tid o) = Sys S (s_sh S (run evs)) (<[cid := c]> (s_conns S (run evs)))).
            { cbn [step]. rewrite Ei. unfold step_thread. by rewrite Et. }
            apply Hsame; [done| |].
            - cbn [act_now]. by rewrite !Nat.eqb_refl, Ei, Et.
            - intros tr. rewrite Hs. unfold fat. cbn [s_conns]. by rewrite lookup_insert, Ei. }
        pose proof (IH cid tid) as Hat. unfold fat in Hat. rewrite Ei, Eq in Hat.
        rewrite acts_snoc. cbn [is_restart]. by apply (step_fr L (run evs) cid c tid o rq _ HL HA Ei Eq Hat).
      + assert (Hd : act_now S cid tid (run evs) (EvStep i t o) = []).
        { cbn [act_now]. destruct (Nat.eqb_spec i cid) as [->|]; [|done].
          destruct (Nat.eqb_spec t tid) as [->|]; [|done]. by destruct Hne. }
        apply Hsame; [done..|].
        intros tr. unfold fat. cbn [step]. destruct (s_conns S (run evs) !! i) as [c|] eqn:Ei; [|done].
        pose proof (step_fr_other (s_sh S (run evs)) c tid t o) as Hoth.
        destruct (step_thread S g (s_sh S (run evs)) c t o) as [sh' c'] eqn:Est. cbn [s_conns snd] in *.
        destruct (decide (i = cid)) as [->|Hc]; [|by rewrite lookup_insert_ne].
        rewrite lookup_insert, Ei. assert (Htt : tid <> t) by (intros ->; by apply Hne).
        destruct (c_reqs S c !! tid) as [rq|] eqn:Eq.
        * intros Hw. destruct (Hoth rq tr Htt eq_refl Hw) as [-> ?]. done.
        * intros ->. assert (c_reqs S c' !! tid = None) as ->; [|done].
          apply lookup_ge_None in Eq. apply lookup_ge_None.
          assert (length (c_reqs S c') = length (c_reqs S c)) as ->; [|done].
          revert Est. unfold step_thread. destruct (c_thr S c !! t) as [[p|e]|]; [| |by intros [= _ <-]].
          -- destruct (r_prog S _); intros E; apply (f_equal snd) in E; cbn [snd] in E; subst c'; cbn; [apply mark_fail_length|done].
          -- destruct (c_reqs S c !! t); intros E; apply (f_equal snd) in E; cbn [snd] in E; subst c'; cbn [c_reqs]; [apply mark_fail_length|done].
    - apply Hsame; [done..|]. intros tr. unfold fat. cbn [step].
      destruct (s_conns S (run evs) !! i) as [c|] eqn:Ei; [|done]. cbn [s_conns].
      destruct (decide (i = cid)) as [->|Hne]; [|by rewrite lookup_insert_ne].
      rewrite lookup_insert, Ei. unfold abort_thread. destruct (c_thr S c !! t) as [[p|e']|] eqn:Et; [|done..].
      cbn [c_reqs]. rewrite mark_fail_lookup. destruct (decide (tid = t)) as [->|Hne].
      + destruct (c_reqs S c !! t) as [rq|] eqn:Eq; [|done]. cbn [option_map fmap option_fmap].
        apply freq_log; [done| |by left]. right. intros p'. cbn. by rewrite lookup_insert.
      + destruct (c_reqs S c !! tid) as [rq|] eqn:Eq; [|done].
        apply freq_log; [done| |by left]. left. cbn. by rewrite lookup_insert_ne.
    - apply Hsame; [done..|]. intros tr. unfold fat. cbn [step].
      destruct (s_conns S (run evs) !! i) as [c|] eqn:Ei; [|done]. cbn [s_conns].
      destruct (decide (i = cid)) as [->|Hne]; [|by rewrite lookup_insert_ne].
      rewrite lookup_insert, Ei. cbn [c_reqs]. destruct (c_reqs S c !! tid); [|done]. by apply freq_log; [|left|left].
    - apply Hsame; [done..|]. intros tr. unfold fat. cbn [step]. by destruct (direct_okb d).
    - rewrite acts_snoc. unfold fat. cbn. by rewrite lookup_empty.
  Qed.

  (** ** The store used directly *)

  (** The values drawn so far are those of the steps made so far. *)
  Definition placed (os : list oracle) (n : nat) (vs : list bytes) : Prop :=
    exists ks, StronglySorted lt ks /\ Forall (fun j => j < n) ks
      /\ Forall2 (fun k b => exists r, option_map o_rand (os !! k) = Some r /\ b = fit (length b) r) ks vs.

  Lemma run_direct_fr Wr L0 rq Q T all os : forall p sh L fl n tr,
    drop n all = os ->
    shared_ok S SO g L sh -> L0 `prefix_of` L ->
    (forall i k dp d, rq <> ReqSign i k dp d) ->
    fr Wr T tr p -> placed all n (rands tr) ->
    ok g [] [] L0 true rq (W L true fl (sh_fb S sh)) p Q ->
    exists es, shared_ok S SO g (L ++ es) (run_direct S g sh p os)
      /\ forall e, e ∈ es -> exists tr' n', Wr tr' e /\ placed all n' (rands tr').
  Proof.
    induction os as [|o os IH]; intros p sh L fl n tr Hos HS Hp Hns Hfr Hpl Hok; cbn [run_direct].
    - exists []. rewrite app_nil_r. split; [done|]. by intros ? ?%elem_of_nil.
    - destruct (step1_ok S SO g [] [] L0 true rq sh L true fl p o Q HS Hp (fun _ => eq_refl) Hok)
        as (L' & p' & B1 & B2 & B3 & B4 & B5 & B6 & B7 & B8 & B9).
      assert (Hfb : sh_fb S (r_sh S (step1 S g sh true p o)) = sh_fb S sh).
      { destruct B9 as [B9|(fc & _ & (_ & _ & (dp & Hs) & _) & _)]; [done|]. by apply Hns in Hs. }
      assert (Hu : r_unl S (step1 S g sh true p o) = true) by (destruct B5 as [->|[-> _]]; done).
      pose proof (step1_fr Wr T tr sh true p p' o Hfr B6) as Hfr'.
      assert (Ho : all !! n = Some o).
      { rewrite <- (Nat.add_0_r n), <- lookup_drop, Hos. done. }
      assert (Hpl' : placed all (n + 1) (rands (tr ++ acts1 S sh p o))).
      { rewrite rands_app. destruct Hpl as (ks & P1 & P2 & P3).
        assert (P2' : Forall (fun j => j < n + 1) ks) by (eapply Forall_impl; [exact P2|]; intros j Hj; cbv beta in *; lia).
        assert (Hd : rands (acts1 S sh p o) = [] \/ exists m, rands (acts1 S sh p o) = [fit m (o_rand o)]).
        { destruct p; try by left.
          - right. by eexists.
          - left. cbn [acts1]. destruct (o_fail o); [done|]. by destruct (is_ok _). }
        destruct Hd as [->|[m ->]].
        - exists ks. by rewrite app_nil_r.
        - exists (ks ++ [n]). split; [by apply sorted_snoc|]. split.
          + apply Forall_app. split; [exact P2'|]. constructor; [lia|done].
          + apply Forall2_app; [done|]. constructor; [|done]. exists (o_rand o). rewrite Ho. split; [done|].
            by rewrite fit_length. }
      rewrite B6. rewrite Hu in B7.
      assert (HL' : L0 `prefix_of` L') by (by transitivity L).
      assert (Hos' : drop (n + 1) all = os).
      { rewrite <- drop_drop, Hos. done. }
      destruct (IH p' _ L' _ (n + 1) _ Hos' B1 HL' Hns Hfr' Hpl' B7) as (es & D1 & D3).
      destruct B4 as [->|(e & k & -> & -> & _ & Hw)].
      + by exists es.
      + exists (e :: es). rewrite <- app_assoc in D1. split; [done|].
        intros e' [->|He']%elem_of_cons; [|by auto]. exists tr, n. split; [apply Hfr|done].
  Qed.

  (** ** Every entry *)

  Lemma asked_by_app evs evs' l cid tid m : asked_by S g evs l cid tid m -> asked_by S g (evs ++ evs') l cid tid m.
  Proof.
    intros (pre & post & c & rq & -> & H). exists pre, (post ++ evs'), c, rq. by rewrite <- app_assoc.
  Qed.

  Lemma made_app evs evs' w e : made S g evs w e -> made S g (evs ++ evs') w e.
  Proof.
    destruct w as [l cid tid|i]; cbn [made].
    - intros (m & vs & H1 & H2 & H3 & H4). exists m, vs.
      split; [by apply asked_by_app|]. split; [done|]. split; [done|]. by apply drew_app.
    - intros (d & os & vs & H1 & H2 & H3). exists d, os, vs.
      split; [by apply lookup_app_l_Some|]. split; [done|]. by apply drew_app.
  Qed.

  Definition current (evs : list event) (w : writer) (e : entry) : Prop :=
    match w with
    | ByRequest l cid tid => l <= restarts evs /\ (l = restarts evs -> AWrote e ∈ acts cid tid evs)
    | ByOwner i => i < length evs
    end.

  Definition book_ok (evs : list event) (book : list (writer * entry)) : Prop :=
    NoDup (map fst book)
    /\ (forall e, stored evs e -> exists w, (w, e) ∈ book)
    /\ forall w e, (w, e) ∈ book -> made S g evs w e /\ current evs w e.

  Lemma current_snoc evs ev w e : current evs w e -> current (evs ++ [ev]) w e.
  Proof.
    destruct w as [l cid tid|i]; cbn [current]; [|rewrite app_length; cbn; lia].
    rewrite acts_snoc, restarts_app, restarts_one. intros [H1 H2].
    destruct (is_restart ev); [split; lia|]. split; [lia|]. intros H. apply elem_of_app. left. apply H2. lia.
  Qed.

  Lemma book_add evs ev book w e :
    book_ok evs book -> (forall e', stored (evs ++ [ev]) e' -> stored evs e' \/ e' = e) ->
    (forall e', (w, e') ∉ book) -> made S g (evs ++ [ev]) w e -> current (evs ++ [ev]) w e ->
    book_ok (evs ++ [ev]) ((w, e) :: book).
  Proof.
    intros (H1 & H2 & H3) Hs Hw Hm Hc. split; [|split].
    - cbn. constructor; [|done]. intros Hin. apply elem_of_list_fmap in Hin as ([w' e'] & E & Hin). cbn in E. subst w'.
      by apply (Hw e').
    - intros e' He. destruct (Hs e' He) as [He'| ->]; [|exists w; by left].
      destruct (H2 e' He') as [w' Hw']. exists w'. by right.
    - intros w' e' [E|Hin]%elem_of_cons; [by injection E as -> ->|].
      destruct (H3 w' e' Hin) as [? ?]. split; [by apply made_app|by apply current_snoc].
  Qed.

  Lemma book_keep evs ev book :
    book_ok evs book -> (forall e', stored (evs ++ [ev]) e' -> stored evs e') -> book_ok (evs ++ [ev]) book.
  Proof.
    intros (H1 & H2 & H3) Hs. split; [done|]. split; [by auto|].
    intros w' e' Hin. destruct (H3 w' e' Hin) as [? ?]. split; [by apply made_app|by apply current_snoc].
  Qed.

  Lemma stored_in evs L : inv_at S SO g L (run evs) -> forall e, stored evs e <-> e ∈ L.
  Proof. intros ((H1 & H2 & _) & _) e. unfold ServerVocab.stored, store_at. by rewrite <- (rel_holds S SO _ L e H1 H2). Qed.

  Lemma books evs : exists book, book_ok evs book.
  Proof.
    induction evs as [|ev evs [book IH]] using rev_ind.
    { exists []. split; [constructor|]. split; [|by intros w e ?%elem_of_nil].
      intros e He. destruct (run_both S SO g HC []) as (L & HL & _).
      pose proof (init_inv S SO g) as HI. apply (stored_in [] []) in He; [by apply elem_of_nil in He|]. exact HI. }
    destruct (run_both S SO g HC evs) as (L & HL & HA).
    destruct (step_inv S SO g HC L (run evs) ev HL) as (L' & HL' & Hch).
    rewrite <- (run_snoc S g evs ev) in HL'.
    assert (Hkeep : L' = L -> exists book, book_ok (evs ++ [ev]) book).
    { intros ->. exists book. apply book_keep; [done|]. intros e. by rewrite (stored_in _ _ HL), (stored_in _ _ HL'). }
    destruct ev as [i rx tx|i raw|cid tid o|i t er|i|d os|]; cbn [change] in Hch; try by apply Hkeep.
    - (* a request *)
      destruct Hch as [->|(e0 & c & rq & -> & Hc & _ & Hq & _)]; [by apply Hkeep|].
      pose proof (fat_run evs cid tid) as Hat. unfold fat in Hat. rewrite Hc, Hq in Hat.
      destruct (step_fr L (run evs) cid c tid o rq _ HL HA Hc Hq Hat) as [_ [[_ Hrel]|(e & Hnow & Hmk & Hrel & Hd)]].
      { exists book. apply book_keep; [done|]. intros e. rewrite (stored_in _ _ HL). unfold ServerVocab.stored, store_at.
        rewrite (run_snoc S g). destruct HL as ((_ & Hdis & _) & _). by rewrite (rel_holds S SO _ L e Hrel Hdis). }
      exists ((ByRequest (restarts evs) cid tid, e) :: book).
      assert (Hr : restarts (evs ++ [EvStep cid tid o]) = restarts evs).
      { rewrite restarts_app, restarts_one. cbn. lia. }
      destruct Hmk as (vs & Hvs & Htag & Hmade).
      apply book_add; [done| | | |].
      + intros e'. rewrite (stored_in _ _ HL). unfold ServerVocab.stored at 1, store_at. rewrite (run_snoc S g).
        rewrite <- (rel_holds S SO _ _ e' Hrel Hd). rewrite elem_of_app, elem_of_list_singleton. done.
      + intros e' Hin. destruct IH as (_ & _ & H3). destruct (H3 _ _ Hin) as [_ [_ Hcur]].
        specialize (Hcur eq_refl). rewrite Hvs in Hcur. by apply wrote_not_rand in Hcur.
      + apply made_app. cbn [made]. exists (rq_msg S rq), vs. split; [|split; [done|split; [done|]]].
        * exists evs, [], c, rq. by rewrite app_nil_r.
        * pose proof (drew_acts S g cid tid evs) as H. by rewrite Hvs, rands_map in H.
      + cbn [current]. rewrite Hr. split; [done|]. intros _. rewrite acts_snoc. cbn [is_restart]. rewrite Hnow.
        apply elem_of_app. right. by left.
    - (* the owner *)
      destruct Hch as [->|(e0 & -> & _)]; [by apply Hkeep|].
      destruct (direct_okb d) eqn:Ed.
      2:{ exists book. apply book_keep; [done|]. intros e'. unfold ServerVocab.stored, store_at. rewrite (run_snoc S g). cbn [step]. by rewrite Ed. }
      pose proof HL as (HS & _ & _).
      assert (Hw : wf g L true (W L true false (sh_fb S (s_sh S (run evs))))).
      { destruct HS as (? & ? & ? & ?). split; [done|split; [done|done]]. }
      destruct (direct_prog_ok g HC L d _ Ed Hw) as (rq & Hns & Hta & Hok).
      destruct (run_direct_fr (dmake g d) L rq _ _ os os (direct_prog g d) (s_sh S (run evs)) L false 0 []
        eq_refl HS ltac:(done) Hns (fr_direct g HC d) ltac:(exists []; by repeat constructor) Hok)
        as (es & D1 & D3).
      assert (HL2 : st_rel S SO (sh_store S (s_sh S (run (evs ++ [EvDirect d os])))) (L ++ es) /\ distinct (L ++ es)).
      { rewrite (run_snoc S g). cbn [step]. rewrite Ed. destruct D1 as (? & ? & _). done. }
      assert (Hin : e0 ∈ es).
      { assert (Hi : e0 ∈ L ++ [e0]) by (apply elem_of_app; right; by left).
        rewrite <- (stored_in _ _ HL') in Hi. unfold ServerVocab.stored, store_at in Hi.
        rewrite <- (rel_holds S SO _ _ e0 (proj1 HL2) (proj2 HL2)) in Hi. apply elem_of_app in Hi as [Hi|Hi]; [|done].
        exfalso. destruct HL' as ((_ & Hdis & _) & _). eapply (distinct_clash L e0 e0 (ByTag (tag_of e0))); [exact Hdis|done|..].
        all: by left. }
      destruct (D3 e0 Hin) as (tr' & n' & (vs & -> & Hmade) & Hpl). rewrite rands_map in Hpl.
      exists ((ByOwner (length evs), e0) :: book). apply book_add; [done| | | |].
      + intros e'. rewrite (stored_in _ _ HL), (stored_in _ _ HL'), elem_of_app, elem_of_list_singleton. done.
      + intros e' Hb. destruct IH as (_ & _ & H3). destruct (H3 _ _ Hb) as [_ Hcur]. cbn in Hcur. lia.
      + cbn [made]. exists d, os, vs. rewrite lookup_app_r, Nat.sub_diag by lia. split; [done|]. split; [done|].
        destruct Hpl as (ks & P1 & _ & P3). exists ks. split; [done|]. cbn [given].
        rewrite lookup_app_r, Nat.sub_diag by lia. exact P3.
      + cbn [current]. rewrite app_length. cbn. lia.
    - (* a restart *)
      exists book. apply book_keep; [done|]. intros e. rewrite (stored_in _ _ HL), (stored_in _ _ HL'), Hch.
      destruct (st_persist S SO); [done|]. by intros ?%elem_of_nil.
  Qed.

  (** ** Every answer *)

  Lemma answer_draws evs cid c tid rq m :
    conn_at evs cid c -> received c tid rq -> sent c tid m -> is_error m = false ->
    drew evs (ByRequest (restarts evs) cid tid) (rands (acts cid tid evs))
    /\ uses g (rq_msg S rq) (acts cid tid evs) m.
  Proof.
    intros Hc Hq [b Hm] He. split; [apply drew_acts|]. pose proof (fat_run evs cid tid) as Hat.
    unfold fat in Hat. unfold ServerVocab.conn_at in Hc. unfold ServerVocab.received in Hq. rewrite Hc, Hq in Hat.
    destruct Hat as (_ & H3). destruct (H3 m b Hm) as [H|H]; [congruence|done].
  Qed.

  (** What was written is stored until the next restart. *)
  Lemma wrote_stored evs cid tid e : AWrote e ∈ acts cid tid evs -> stored evs e.
  Proof.
    induction evs as [|ev evs IH] using rev_ind; [by intros ?%elem_of_nil|].
    rewrite acts_snoc. destruct (is_restart ev) eqn:Er; [by intros ?%elem_of_nil|].
    rewrite elem_of_app. intros [H|H].
    - apply (stored_lasts S SO g HC [ev]); [by apply IH|]. right. unfold no_restart. cbn. by rewrite Er.
    - destruct (run_both S SO g HC evs) as (L & HL & HA).
      destruct ev as [| |i t o| | | |]; try by apply elem_of_nil in H.
      cbn [act_now] in H. destruct (Nat.eqb_spec i cid) as [->|]; [|by apply elem_of_nil in H].
      destruct (Nat.eqb_spec t tid) as [->|]; [|by apply elem_of_nil in H]. cbn [andb] in H.
      destruct (s_conns S (run evs) !! cid) as [c|] eqn:Ec; [|by apply elem_of_nil in H].
      destruct (c_reqs S c !! tid) as [rq|] eqn:Eq.
      + pose proof (fat_run evs cid tid) as Hat. unfold fat in Hat. rewrite Ec, Eq in Hat.
        destruct (step_fr L (run evs) cid c tid o rq _ HL HA Ec Eq Hat) as [_ Hs].
        cbn [act_now] in Hs. rewrite !Nat.eqb_refl, Ec in Hs. cbn [andb] in Hs.
        unfold ServerVocab.stored, store_at. rewrite (run_snoc S g).
        destruct Hs as [[Hno Hrel]|(e' & Hnow & _ & Hrel & Hd)].
        * by destruct (Hno e).
        * rewrite Hnow in H. apply elem_of_list_singleton in H. injection H as ->.
          apply (rel_holds S SO _ _ e' Hrel Hd). apply elem_of_app. right. by left.
      + destruct (c_thr S c !! tid) as [th|] eqn:E; [|by apply elem_of_nil in H]. exfalso.
        destruct HL as (_ & HCs & _). destruct (HCs _ _ Ec) as (_ & H2 & _).
        destruct (lookup_lt_is_Some_2 (c_reqs S c) tid) as [? ?]; [|congruence]. apply H2. by eexists.
  Qed.
End Fresh.
