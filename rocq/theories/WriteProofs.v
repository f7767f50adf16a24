(** * WriteProofs: what each request adds to the store *)

From Verif Require Import Base Utf8 Crypto Types Codec Secret Store StoreProofs
  Lru Server System ServerSpec ServerVocab ServerProofs ServerProofs2 SystemProofs AnswerProofs ServerTheorems.

(** ** The words of the statements *)

(** A request that creates an entry. *)
Definition creating (rq : api) : bool :=
  match rq with
  | ReqNewSeed _ _ _ _ | ReqImportSeed _ _ _ _ _ _ _ _ | ReqDeriveSeed _ _ _ _ _ _ | ReqNewCert _ _ => true
  | _ => false
  end.

(** The tag it is to have. *)
Definition new_tag (rq : api) : option bytes :=
  match rq with
  | ReqNewSeed _ t _ _ | ReqImportSeed _ _ _ _ _ _ t _ | ReqDeriveSeed _ _ _ t _ _ | ReqNewCert _ t => Some t
  | _ => None
  end.

(** The answer [m] to the request [rq] describes the entry [e]. *)
Definition describes (rq m : api) (e : entry) : Prop :=
  new_tag rq = Some (tag_of e) /\
  match m with
  | ResNewSeed _ t si | ResImportSeed _ t si => t = tag_of e /\ seed_info_of e = Some si
  | ResDeriveSeed _ si => seed_info_of e = Some si
  | ResNewCert _ t ci => info_of e = ICert t ci
  | _ => False
  end.

Section Added.
  Variable S : store_impl.
  Variable g : genv.

  (** Request [tid] of connection [cid] (since the last restart) added [e]: the keystore did not hold it before
      a step of the handling of this request, and held it after. *)
  Definition added (evs : list event) (cid tid : nat) (e : entry) : Prop :=
    exists pre o post, evs = pre ++ EvStep cid tid o :: post /\ no_restart post
      /\ ~ stored S g pre e /\ stored S g (pre ++ [EvStep cid tid o]) e.
End Added.

(** ** A program writes at most once, and fails only if it has not written *)

Fixpoint wr (T : list entry -> api -> Prop) (ws : list entry) (p : prog (res unit)) {struct p} : Prop :=
  match p with
  | Ret r => is_ok r = false /\ ws = []
  | Send m k => T ws m
  | Crash => True
  | StWrite e k => ws = [] /\ wr T [e] (k (Ok tt)) /\ forall er, wr T [] (k (Err er))
  | LoadUnlocked k => forall x, wr T ws (k x)
  | SetUnlocked k => wr T ws k
  | Rand _ k => forall x, wr T ws (k x)
  | StList k => forall x, wr T ws (k x)
  | StGet _ k => forall x, wr T ws (k x)
  | CacheGet _ k => forall x, wr T ws (k x)
  | CachePut _ k => wr T ws k
  | CertGen k => forall x, wr T ws (k x)
  | AskFallback _ _ _ k => forall x, wr T ws (k x)
  end.

(** What a message other than an error says about what was written. *)
Definition tells (rq : api) (ws : list entry) (m : api) : Prop :=
  is_error m = false /\
  if creating rq then exists e, ws = [e] /\ describes rq m e else ws = [].

Lemma wr_dispatch g enc dec a : wr (tells a) [] (dispatch g enc dec a).
Proof.
  destruct a; cbn [dispatch]; try (split; exact eq_refl);
    unfold h_hello, h_unlock, h_get_entry, h_list, h_new_seed, h_derive, h_export, h_import,
      h_sign, h_box, h_box_open, h_box_sign, h_box_sign_open, h_new_cert, h_cert_key, h_sbox,
      h_sbox_open, check_unlocked, store_seed, new_seed, insert_seed, new_deep_locked_seed,
      insert_deep_locked_seed, new_wka_tls_cert, get_full, rand, send, fail, bindr;
    repeat (cbn [wr bind orelse];
      lazymatch goal with
      | |- forall _, _ => intros ?
      | |- [] = [] /\ _ => split; [reflexivity|]
      | |- tells _ _ _ /\ _ => split
      | |- is_ok _ = false /\ _ => split; reflexivity
      | |- tells _ _ _ => split; [reflexivity|]; cbn [creating];
          first [reflexivity | eexists; split; [reflexivity|split; [reflexivity|]]; cbn;
                   first [reflexivity | split; reflexivity]]
      | |- True => exact I
      | |- wr _ _ (bind (match ?x with _ => _ end) _) => destruct x
      | |- wr _ _ (bind (orelse _ ?x) _) => destruct x
      | |- wr _ _ (orelse _ ?x) => destruct x
      | |- wr _ _ (match ?x with _ => _ end) => destruct x
      | |- wr _ _ (bind (bind (match ?x with _ => _ end) _) _) => destruct x
      | |- wr _ _ (bind (bind (orelse _ ?x) _) _) => destruct x
      end).
Qed.

Lemma distinct_clash L e e0 q : distinct (L ++ [e]) -> e0 ∈ L -> q ∈ keys_of e -> q ∉ keys_of e0.
Proof.
  induction L as [|e1 L IH]; intros Hd He Hk Hk0; [by apply elem_of_nil in He|].
  cbn in Hd. destruct Hd as [H1 H2]. apply elem_of_cons in He as [->|He]; [|by apply IH].
  eapply (H1 e q); [apply elem_of_app; right; by left|done..].
Qed.

Section Writes.
  Variable S : store_impl.
  Variable SO : StoreOk S.
  Variable g : genv.
  Hypothesis HC : CryptoOk (g_crypto g).

  Notation run := (run S g).
  Notation stored := (stored S g).
  Notation conn_at := (conn_at S g).
  Notation received := (received S).
  Notation sent := (sent S).
  Notation added := (added S g).

  Definition wthread (rq : request S) (A : list entry) (t : option thread) : Prop :=
    match t with
    | Some (Running p) => wr (tells (rq_msg S rq)) A p
    | Some (Failed _) => rq_fail S rq = false -> A = []
    | None => True
    end.

  Definition wlogged (rq : request S) (A : list entry) (m : api) : Prop :=
    if is_error m then rq_fail S rq = false -> A = [] else tells (rq_msg S rq) A m.

  (** [e] shares no tag or key with what was there when the request came. *)
  Definition apart (rq : request S) (e : entry) : Prop :=
    forall e0 k, held_before S rq e0 -> k ∈ keys_of e -> k ∉ keys_of e0.

  Definition wreq (c : conn S) (tid : nat) (rq : request S) (A : list entry) : Prop :=
    (forall e, e ∈ A -> apart rq e)
    /\ wthread rq A (c_thr S c !! tid) /\ forall m b, (tid, m, b) ∈ c_log S c -> wlogged rq A m.

  Definition wat (s : sys S) (cid tid : nat) (A : list entry) : Prop :=
    match s_conns S s !! cid with
    | Some c => match c_reqs S c !! tid with Some rq => wreq c tid rq A | None => A = [] end
    | None => A = []
    end.

  (** Entries added by one step. *)
  Lemma added_snoc evs ev cid tid e : added (evs ++ [ev]) cid tid e <->
    (is_restart ev = false /\ added evs cid tid e)
    \/ (exists o, ev = EvStep cid tid o /\ ~ stored evs e /\ stored (evs ++ [ev]) e).
  Proof.
    split.
    - intros (pre & o & post & E & Hp & H1 & H2).
      destruct post as [|x post _] using rev_ind.
      + apply app_inj_tail in E as [-> ->]. right. by exists o.
      + rewrite app_comm_cons, app_assoc in E. apply app_inj_tail in E as [-> ->].
        unfold no_restart in Hp. rewrite existsb_app in Hp. apply orb_false_elim in Hp as [Hp1 Hp2].
        cbn in Hp2. rewrite orb_false_r in Hp2. left. split; [done|]. by exists pre, o, post.
    - intros [(Hr & pre & o & post & -> & Hp & H1 & H2)|(o & -> & H1 & H2)].
      + exists pre, o, (post ++ [ev]). rewrite <- app_assoc. split; [done|]. split; [|done].
        unfold no_restart in *. rewrite existsb_app, Hp. cbn. by rewrite Hr.
      + exists evs, o, []. done.
  Qed.

  Lemma added_same evs ev cid tid e : is_restart ev = false ->
    (forall o, ev <> EvStep cid tid o) \/ (forall e, stored (evs ++ [ev]) e <-> stored evs e) ->
    added (evs ++ [ev]) cid tid e <-> added evs cid tid e.
  Proof.
    intros Hr H. rewrite added_snoc. split; [|by left].
    intros [[_ ?]|(o & -> & H1 & H2)]; [done|]. destruct H as [H|H]; [by destruct (H o)|].
    by apply H in H2.
  Qed.

  (** The store after one effect. *)
  Lemma step1_store {A} sh unl (p : prog A) o :
    (sh_store S (r_sh S (step1 S g sh unl p o)) = sh_store S sh /\ forall e k, p = StWrite e k -> o_fail o = true)
    \/ exists e k, p = StWrite e k /\ o_fail o = false.
  Proof.
    destruct p as [a|k|k|m k|e k|k|q k|q k|f k|k|i pk d k|m k|]; cbn [step1]; try (by left).
    - destruct (o_fail o) eqn:E; [left; split; [done|]; by intros ? ? [= <- <-]|]. right. eauto.
    - destruct (o_fail o); by left.
    - destruct (o_fail o); by left.
    - left. unfold cache_get. destruct q; destruct (lru_get _ _); done.
    - left. cbn. unfold cache_put. by destruct (f_entry f).
    - destruct (o_cert o) as [gc|]; [destruct (_ && _)|]; by left.
  Qed.

  Lemma step1_wr sh unl p o T ws : wr T ws p ->
    (forall e k, p = StWrite e k -> o_fail o = true) ->
    let r := step1 S g sh unl p o in
    match r_prog S r with
    | None => True
    | Some p' =>
        match r_out S r with
        | None => wr T ws p'
        | Some (m, b) => T ws m
        end
    end.
  Proof.
    intros Hw Hst.
    destruct p as [a|k|k|m k|e k|k|q k|q k|f k|k|i pk d k|m k|]; cbn [step1]; cbn [wr] in Hw; cbn; try done.
    - rewrite (Hst e k eq_refl). cbn. destruct Hw as (-> & _ & Hw). apply Hw.
    - destruct (o_fail o); apply Hw.
    - destruct (o_fail o); apply Hw.
    - destruct (cache_get S sh q). apply Hw.
    - destruct (o_cert o) as [gc|]; [destruct (_ && _)|]; apply Hw.
  Qed.

  Lemma wthread_fail rq rq' A t : rq_msg S rq' = rq_msg S rq ->
    (rq_fail S rq = true -> rq_fail S rq' = true) ->
    wthread rq A t -> wthread rq' A t.
  Proof.
    intros Hm Hf. destruct t as [[p|e]|]; cbn [wthread]; [by rewrite Hm| |done].
    intros H E. apply H. destruct (rq_fail S rq); [by rewrite Hf in E|done].
  Qed.
  Lemma wlogged_fail rq rq' A m : rq_msg S rq' = rq_msg S rq ->
    (rq_fail S rq = true -> rq_fail S rq' = true) ->
    wlogged rq A m -> wlogged rq' A m.
  Proof.
    intros Hm Hf. unfold wlogged. destruct (is_error m); [|by rewrite Hm].
    intros H E. apply H. destruct (rq_fail S rq); [by rewrite Hf in E|done].
  Qed.

  Lemma settle_wr rq A p : wr (tells (rq_msg S rq)) A p -> wthread rq A (settle p).
  Proof. destruct p as [[u|e]| | | | | | | | | | | |]; cbn; try done; by intros []. Qed.

  (** ** One event *)

  Lemma wreq_log c c' tid rq A :
    c_thr S c' !! tid = c_thr S c !! tid \/ c_thr S c' !! tid = None ->
    (forall m b, (tid, m, b) ∈ c_log S c' -> (tid, m, b) ∈ c_log S c) ->
    wreq c tid rq A -> wreq c' tid rq A.
  Proof.
    intros Ht Hl (H0 & H1 & H2). split; [done|]. split.
    - destruct Ht as [->| ->]; done.
    - intros m b Hm. eapply H2, Hl, Hm.
  Qed.

  Lemma step_thread_other sh c tid tid' o rq A : tid <> tid' ->
    c_reqs S c !! tid = Some rq -> wreq c tid rq A ->
    c_reqs S (snd (step_thread S g sh c tid' o)) !! tid = Some rq
    /\ wreq (snd (step_thread S g sh c tid' o)) tid rq A.
  Proof.
    intros Hne Hq Hw. unfold step_thread. destruct (c_thr S c !! tid') as [[p|e]|]; [| |done].
    - destruct (r_prog S _) as [p'|]; cbn [snd c_reqs].
      + rewrite mark_fail_lookup. destruct (decide (tid = tid')); [done|]. split; [done|].
        eapply wreq_log; [| |exact Hw].
        * left. cbn. rewrite lookup_set_thr. by destruct (decide (tid = tid')).
        * intros m b. cbn. unfold log_add. destruct (r_out S _) as [[m' b']|]; [|done].
          rewrite elem_of_app, elem_of_list_singleton. intros [?|E]; [done|]. by apply (f_equal (fun x => x.1.1)) in E.
      + split; [done|]. eapply wreq_log; [| |exact Hw]; [right; apply lookup_empty|done].
    - destruct (c_reqs S c !! tid') as [rq'|]; [|done]. cbn [snd c_reqs].
      rewrite mark_fail_lookup. destruct (decide (tid = tid')); [done|]. split; [done|].
      eapply wreq_log; [| |exact Hw].
      + left. cbn. by rewrite lookup_delete_ne.
      + intros m b. cbn. rewrite elem_of_app, elem_of_list_singleton. intros [?|E]; [done|]. by apply (f_equal (fun x => x.1.1)) in E.
  Qed.

  (** No message has been sent while a request is being handled. *)
  Lemma running_silent s cid c tid rq p : ans_inv S s -> s_conns S s !! cid = Some c ->
    c_reqs S c !! tid = Some rq -> c_thr S c !! tid = Some (Running p) ->
    (exists n, shape n p) /\ forall m b, (tid, m, b) ∉ c_log S c.
  Proof.
    intros HA Hc Hq Ht. pose proof (HA cid c Hc tid rq Hq) as H. unfold ans_req in H. rewrite Ht in H.
    destruct H as [(n & _ & Hn) Ha]. split; [by exists n|]. intros m b Hin.
    assert (Hx : (m, b) ∈ answers S c tid).
    { unfold answers. apply elem_of_list_omap. exists (tid, m, b). split; [done|]. cbn. by rewrite Nat.eqb_refl. }
    rewrite Ha in Hx. by apply elem_of_nil in Hx.
  Qed.

  Lemma logs_add c tid r : forall t m b, (t, m, b) ∈ log_add S c tid r ->
    (t, m, b) ∈ c_log S c \/ (t = tid /\ r = Some (m, b)).
  Proof.
    intros t m b. unfold log_add. destruct r as [[m' b']|]; [|by left].
    rewrite elem_of_app, elem_of_list_singleton. intros [?|[= -> -> ->]]; auto.
  Qed.

  (** The step of a request itself. *)
  Lemma step_thread_self L s cid c tid o rq A :
    inv_at S SO g L s -> ans_inv S s -> s_conns S s !! cid = Some c -> c_reqs S c !! tid = Some rq ->
    wreq c tid rq A ->
    let s' := step S g s (EvStep cid tid o) in
    exists A', wat s' cid tid A'
      /\ ((A' = A /\ st_rel S SO (sh_store S (s_sh S s')) L)
          \/ (exists e, A = [] /\ A' = [e] /\ st_rel S SO (sh_store S (s_sh S s')) (L ++ [e]) /\ distinct (L ++ [e]))).
  Proof.
    intros HL HA Hc Hq Hw. cbn [step]. rewrite Hc. unfold step_thread.
    pose proof HL as (HS & HCs & HF). pose proof HS as (Hrel & Hdis & _).
    destruct (c_thr S c !! tid) as [[p|e]|] eqn:Et.
    - pose proof (HCs _ _ Hc) as (H1 & H2 & H3 & H4).
      destruct (H1 tid rq Hq) as (L0 & A1 & A2 & A3 & A4 & A5 & A6 & A7). rewrite Et in A6. cbn [thread_ok] in A6.
      destruct (running_silent s cid c tid rq p HA Hc Hq Et) as [[n Hn] Hsil].
      destruct Hw as (Hap & Hw & Hlog). rewrite Et in Hw. cbn [wthread] in Hw.
      destruct (step1_store (s_sh S s) (c_unl S c) p o) as [[Hst Hnw]|(e & k & -> & Ho)].
      + (* the store is left alone *)
        pose proof (step1_wr (s_sh S s) (c_unl S c) p o _ A Hw Hnw) as Hs1. cbv zeta in Hs1.
        pose proof (step1_shape S g (s_sh S s) (c_unl S c) p o n Hn) as Hsh. cbv zeta in Hsh.
        set (r := step1 S g (s_sh S s) (c_unl S c) p o) in *. clearbody r.
        exists A. split; [|left; split; [done|]; destruct (r_prog S r); cbn; by rewrite Hst].
        unfold wat. destruct (r_prog S r) as [p'|]; cbn [s_conns]; rewrite lookup_insert; cbn [c_reqs].
        * rewrite mark_fail_lookup. destruct (decide (tid = tid)); [|done]. rewrite Hq. cbn [option_map fmap option_fmap].
          split; [exact Hap|]. split; cbn [c_thr c_log].
          { rewrite lookup_set_thr. destruct (decide (tid = tid)); [|done].
            destruct (r_out S r) as [[m b]|].
            - destruct Hsh as (Hf & x & -> & Hx). cbn [settle]. destruct x as [u|er]; cbn [wthread]; [done|].
              cbn [rq_fail]. cbn in Hx. subst b. rewrite Hf. cbn. by rewrite orb_true_r.
            - by apply settle_wr. }
          { intros m b Hin. apply logs_add in Hin as [Hin|[_ E]]; [by destruct (Hsil m b)|].
            rewrite E in Hs1. unfold wlogged. destruct Hs1 as [He Hs1]. rewrite He. by split. }
        * rewrite Hq. split; [exact Hap|]. split; cbn [c_thr c_log]; [by rewrite lookup_empty|]. intros m b Hin. by destruct (Hsil m b).
      + (* a write *)
        cbn [wr] in Hw. destruct Hw as (-> & Hw1 & Hw2).
        cbn [ok] in A6. destruct A6 as [[[Heok _] _] _].
        cbn [step1]. rewrite Ho. cbn [shape] in Hn.
        pose proof (st_write_ok S SO _ L e Hrel Heok) as Hwo.
        destruct (st_write S (sh_store S (s_sh S s)) e) as [r s'] eqn:Ew. cbn [fst snd] in Hwo.
        cbn [r_prog r_sh r_unl r_out r_fail].
        assert (Hat : forall A' sh, (forall e, e ∈ A' -> apart rq e) -> wr (tells (rq_msg S rq)) A' (k r) ->
          wat (Sys S sh (<[cid := Conn S (c_enc S c) (c_dec S c) (c_unl S c) (c_open S c)
            (set_thr (c_thr S c) tid (settle (k r))) (mark_fail S (c_reqs S c) tid false) (log_add S c tid None)]> (s_conns S s))) cid tid A').
        { intros A' sh Hap' Hk. unfold wat. cbn [s_conns]. rewrite lookup_insert. cbn [c_reqs].
          rewrite mark_fail_lookup. destruct (decide (tid = tid)); [|done]. rewrite Hq. cbn [option_map fmap option_fmap].
          split; [exact Hap'|]. split; cbn [c_thr c_log].
          - rewrite lookup_set_thr. destruct (decide (tid = tid)); [|done]. by apply settle_wr.
          - intros m b Hin. cbn in Hin. by destruct (Hsil m b). }
        unfold spec_write in Hwo. destruct (taken L e) eqn:Etk.
        * destruct Hwo as [Hr Hrel']. destruct r as [[]|er]; [done|].
          exists []. split; [apply Hat; [done|apply Hw2]|]. left. by split.
        * destruct Hwo as [-> Hrel']. exists [e]. assert (Hd : distinct (L ++ [e])) by (by apply distinct_snoc).
          split; [apply Hat; [|apply Hw1]|right; by exists e].
          intros e1 ->%elem_of_list_singleton e0 q He0 Hk Hk0.
          apply (rel_holds S SO _ _ e0 A1 A2) in He0. apply (prefix_in L0 L) in He0; [|done].
          eapply (distinct_clash L e e0 q); done.
    - rewrite Hq. exists A. split; [|by left]. unfold wat. cbn [s_conns]. rewrite lookup_insert. cbn [c_reqs].
      set (m := ResError _ e). assert (Hm : is_error m = true) by done. set (b := fits m && o_send o). clearbody b m.
      rewrite mark_fail_lookup. destruct (decide (tid = tid)); [|done]. rewrite Hq. cbn [option_map fmap option_fmap].
      destruct Hw as (Hap & Hw & Hlog). rewrite Et in Hw. cbn [wthread] in Hw.
      split; [exact Hap|]. split; cbn [c_thr c_log]; [by rewrite lookup_delete|].
      intros m1 b1. rewrite elem_of_app, elem_of_list_singleton. intros [Hin|[= -> ->]].
      + eapply wlogged_fail; [| |by eapply Hlog]; [done|]. cbn. by intros ->.
      + unfold wlogged. rewrite Hm. cbn. intros H. apply orb_false_elim in H as [H _]. by apply Hw.
    - exists A. split; [|by left]. unfold wat. cbn [s_conns]. rewrite lookup_insert, Hq. done.
  Qed.

  Definition winv (evs : list event) : Prop :=
    forall cid tid, exists A, (forall e, e ∈ A <-> added evs cid tid e) /\ wat (run evs) cid tid A.

  Lemma stored_same evs ev L : inv_at S SO g L (run evs) -> st_rel S SO (sh_store S (s_sh S (run (evs ++ [ev])))) L ->
    forall e, stored (evs ++ [ev]) e <-> stored evs e.
  Proof.
    intros ((H1 & H2 & _) & _) H3 e. unfold ServerVocab.stored, store_at.
    rewrite <- (rel_holds S SO _ L e H3 H2). by rewrite <- (rel_holds S SO _ L e H1 H2).
  Qed.

  Lemma winv_run evs : winv evs.
  Proof.
    induction evs as [|ev evs IH] using rev_ind.
    { intros cid tid. exists []. split; [|done]. intros e. split; [by intros ?%elem_of_nil|].
      intros (pre & o & post & E & _). by destruct pre. }
    destruct (run_both S SO g HC evs) as (L & HL & HA).
    assert (Hsame : forall cid tid, is_restart ev = false ->
      (forall o, ev <> EvStep cid tid o) \/ (forall e, stored (evs ++ [ev]) e <-> stored evs e) ->
      (forall A, wat (run evs) cid tid A -> wat (run (evs ++ [ev])) cid tid A) ->
      exists A, (forall e, e ∈ A <-> added (evs ++ [ev]) cid tid e) /\ wat (run (evs ++ [ev])) cid tid A).
    { intros cid tid H1 H2 H3. destruct (IH cid tid) as (A & H4 & H5). exists A. split; [|by apply H3].
      intros e. rewrite added_same by done. apply H4. }
    intros cid tid. rewrite (run_snoc S g evs ev) in *.
    destruct ev as [i rx tx|i raw|i t o|i t er|i|d os|].
    - apply Hsame; [done|left; done|]. intros A. unfold wat. cbn [step].
      destruct (s_conns S (run evs) !! i) as [c|] eqn:Ei; [done|]. destruct (_ && _); [|done]. cbn [s_conns].
      destruct (decide (i = cid)) as [->|Hne]; [|by rewrite lookup_insert_ne].
      rewrite lookup_insert, Ei. cbn. done.
    - apply Hsame; [done|left; done|]. intros A. unfold wat. cbn [step].
      destruct (s_conns S (run evs) !! i) as [c|] eqn:Ei; [|done]. cbn [s_conns].
      destruct (decide (i = cid)) as [->|Hne]; [|by rewrite lookup_insert_ne].
      rewrite lookup_insert, Ei. unfold receive. destruct (c_open S c && _); [|done].
      destruct (decode_api raw) as [a|]; [|done]. cbn [c_reqs].
      destruct (decide (tid = length (c_reqs S c))) as [->|Hne].
      + rewrite (lookup_ge_None_2 (c_reqs S c)) by lia. intros ->.
        rewrite lookup_app_r, Nat.sub_diag by lia. cbn. split; [by intros e ?%elem_of_nil|]. split; cbn [c_thr c_log].
        * rewrite lookup_set_thr. destruct (decide _); [|done]. apply settle_wr. apply wr_dispatch.
        * intros m b Hin. destruct HL as (_ & HCs & _). destruct (HCs _ _ Ei) as (_ & _ & H3 & _). apply H3 in Hin. lia.
      + destruct (c_reqs S c !! tid) as [rq|] eqn:Eq.
        * rewrite lookup_app_l by (by eapply lookup_lt_Some). rewrite Eq.
          apply wreq_log; [|done]. left. cbn. rewrite lookup_set_thr. by destruct (decide _).
        * intros ->. rewrite lookup_app_r by (by apply lookup_ge_None). apply lookup_ge_None in Eq.
          destruct (tid - length (c_reqs S c)) eqn:E; [lia|done].
    - destruct (decide (i = cid /\ t = tid)) as [[-> ->]|Hne].
      + destruct (s_conns S (run evs) !! cid) as [c|] eqn:Ei.
        2:{ apply Hsame; [done| |]. 
            - right. intros e. unfold ServerVocab.stored, store_at. rewrite (run_snoc S g). cbn [step]. by rewrite Ei.
            - intros A. cbn [step]. by rewrite Ei. }
        destruct (c_reqs S c !! tid) as [rq|] eqn:Eq.
        2:{ assert (Et : c_thr S c !! tid = None).
            { destruct (c_thr S c !! tid) as [th|] eqn:E; [|done]. destruct HL as (_ & HCs & _).
              destruct (HCs _ _ Ei) as (_ & H2 & _). destruct (lookup_lt_is_Some_2 (c_reqs S c) tid) as [? ?]; [|congruence].
              apply H2. by eexists. }
            assert (Hst : step S g (run evs) (EvStep cid tid o) = Sys S (s_sh S (run evs)) (<[cid := c]> (s_conns S (run evs)))).
            { cbn [step]. rewrite Ei. unfold step_thread. by rewrite Et. }
            apply Hsame; [done| |].
            - right. intros e. unfold ServerVocab.stored, store_at. by rewrite (run_snoc S g), Hst.
            - intros A. rewrite Hst. unfold wat. cbn [s_conns]. by rewrite lookup_insert, Ei. }
        destruct (IH cid tid) as (A & HAd & Hat). unfold wat in Hat. rewrite Ei, Eq in Hat.
        destruct (step_thread_self L (run evs) cid c tid o rq A HL HA Ei Eq Hat) as (A' & Hat' & Hc).
        exists A'. split; [|exact Hat'].
        destruct Hc as [[-> Hrel]|(e & -> & -> & Hrel & Hd)].
        * intros e. rewrite added_same; [apply HAd|done|]. right.
          apply (stored_same evs (EvStep cid tid o) L HL). by rewrite (run_snoc S g).
        * intros e'. rewrite added_snoc, elem_of_list_singleton.
          assert (Hs : forall e0, stored (evs ++ [EvStep cid tid o]) e0 <-> e0 ∈ L ++ [e]).
          { intros e0. unfold ServerVocab.stored, store_at. rewrite (run_snoc S g). by rewrite (rel_holds S SO _ _ e0 Hrel Hd). }
          assert (Hb : forall e0, stored evs e0 <-> e0 ∈ L).
          { intros e0. symmetry. by apply (lists_all S SO g). }
          split.
          -- intros ->. right. exists o. split; [done|]. rewrite Hs, Hb. split.
             ++ apply distinct_NoDup in Hd. apply NoDup_app in Hd as (_ & Hd & _). intros Hin. eapply Hd; [exact Hin|by left].
             ++ apply elem_of_app. right. by left.
          -- intros [[_ Had]|(o' & _ & H1 & H2)].
             ++ apply HAd in Had. by apply elem_of_nil in Had.
             ++ rewrite Hs, elem_of_app, elem_of_list_singleton in H2. rewrite Hb in H1. by destruct H2.
      + apply Hsame; [done|left; intros o' E; apply Hne; by injection E|].
        intros A. unfold wat. cbn [step]. destruct (s_conns S (run evs) !! i) as [c|] eqn:Ei; [|done].
        pose proof (step_thread_other (s_sh S (run evs)) c tid t o) as Hoth.
        destruct (step_thread S g (s_sh S (run evs)) c t o) as [sh' c'] eqn:Est. cbn [s_conns snd] in *.
        destruct (decide (i = cid)) as [->|Hc]; [|by rewrite lookup_insert_ne].
        rewrite lookup_insert, Ei. assert (Htt : tid <> t) by (intros ->; by apply Hne).
        destruct (c_reqs S c !! tid) as [rq|] eqn:Eq.
        * intros Hw. destruct (Hoth rq A Htt eq_refl Hw) as [-> ?]. done.
        * intros ->. assert (c_reqs S c' !! tid = None) as ->; [|done].
          apply lookup_ge_None in Eq. apply lookup_ge_None.
          assert (length (c_reqs S c') = length (c_reqs S c)) as ->; [|done].
          revert Est. unfold step_thread. destruct (c_thr S c !! t) as [[p|e]|]; [| |by intros [= _ <-]].
          -- destruct (r_prog S _); intros E; apply (f_equal snd) in E; cbn [snd] in E; subst c'; cbn; [apply mark_fail_length|done].
          -- destruct (c_reqs S c !! t); intros E; apply (f_equal snd) in E; cbn [snd] in E; subst c'; cbn [c_reqs]; [apply mark_fail_length|done].
    - apply Hsame; [done|left; done|]. intros A. unfold wat. cbn [step].
      destruct (s_conns S (run evs) !! i) as [c|] eqn:Ei; [|done]. cbn [s_conns].
      destruct (decide (i = cid)) as [->|Hne]; [|by rewrite lookup_insert_ne].
      rewrite lookup_insert, Ei. unfold abort_thread. destruct (c_thr S c !! t) as [[p|e']|] eqn:Et; [|done..].
      cbn [c_reqs]. rewrite mark_fail_lookup. destruct (decide (tid = t)) as [->|Hne].
      + destruct (c_reqs S c !! t) as [rq|] eqn:Eq; [|done]. cbn. intros (Hap & Hw & Hl).
        split; [exact Hap|]. split; cbn [c_thr c_log].
        * rewrite lookup_insert. cbn. by rewrite orb_true_r.
        * intros m b Hin. eapply wlogged_fail; [| |by eapply Hl]; [done|]. cbn. by rewrite orb_true_r.
      + destruct (c_reqs S c !! tid) as [rq|] eqn:Eq; [|done]. apply wreq_log; [|done]. left. cbn. by rewrite lookup_insert_ne.
    - apply Hsame; [done|left; done|]. intros A. unfold wat. cbn [step].
      destruct (s_conns S (run evs) !! i) as [c|] eqn:Ei; [|done]. cbn [s_conns].
      destruct (decide (i = cid)) as [->|Hne]; [|by rewrite lookup_insert_ne].
      rewrite lookup_insert, Ei. cbn [c_reqs]. destruct (c_reqs S c !! tid); [|done]. by apply wreq_log; [left|].
    - apply Hsame; [done|left; done|]. intros A. unfold wat. cbn [step]. by destruct (direct_okb d).
    - exists []. split; [|unfold wat; cbn; by rewrite lookup_empty].
      intros e. rewrite added_snoc. split; [by intros ?%elem_of_nil|]. intros [[H _]|(o & H & _)]; done.
  Qed.

  (** What was written, from what was answered. *)
  Lemma answer_writes evs cid c tid rq m :
    conn_at evs cid c -> received c tid rq -> sent c tid m ->
    exists A, (forall e, e ∈ A <-> added evs cid tid e) /\ (forall e, e ∈ A -> apart rq e) /\ wlogged rq A m.
  Proof.
    intros Hc Hq [b Hm]. destruct (winv_run evs cid tid) as (A & HA & Hat). exists A. split; [done|].
    unfold wat in Hat. unfold ServerVocab.conn_at in Hc. unfold ServerVocab.received in Hq. rewrite Hc, Hq in Hat.
    destruct Hat as (H1 & H2 & H3). split; [done|]. by eapply H3.
  Qed.
End Writes.
