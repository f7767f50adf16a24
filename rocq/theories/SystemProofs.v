(** * SystemProofs: the invariant of a running server *)

From Verif Require Import Base Utf8 Crypto Types Codec CodecProofs CodecProofs2 Secret Store StoreProofs
  Lru Server System ServerSpec ServerProofs ServerProofs2.

Lemma fit_length n b : length (fit n b) = n.
Proof.
  unfold fit. rewrite take_length, app_length, repeat_length. lia.
Qed.

Lemma wle_intro L L' u u' f f' fb fb' :
  L `prefix_of` L' -> (u = true -> u' = true) -> (f = true -> f' = true) ->
  fb `prefix_of` fb' -> wle (W L u f fb) (W L' u' f' fb').
Proof. by intros. Qed.

Lemma distinct_tags L e e2 es : distinct (L ++ e :: e2 :: es) -> tag_of e <> tag_of e2.
Proof.
  induction L as [|a L IH]; cbn [app distinct].
  - intros (H & _) Ht. apply (H e2 (ByTag (tag_of e)) ltac:(by left) (keys_tag e)).
    rewrite Ht. apply keys_tag.
  - intros [_ H]. auto.
Qed.

Section System.
  Variable S : store_impl.
  Variable SO : StoreOk S.
  Variable g : genv.
  Hypothesis HC : CryptoOk (g_crypto g).
  Notation C := (g_crypto g).
  Notation rel := (st_rel S SO).

  (** What a cache entry [f] found under [q] is. *)
  Definition cache_ok (L : list entry) (mk : bytes -> key) (c : list (bytes * full)) : Prop :=
    length c <= LRU_CAP /\
    forall k f, (k, f) ∈ c ->
      f_entry f ∈ L /\ mk k ∈ keys_of (f_entry f) /\ gen_full g (f_entry f) = Ok f.

  Definition caches_ok (L : list entry) (sh : shared S) : Prop :=
    cache_ok L ByTag (sh_tag S sh) /\ cache_ok L ByEd (sh_ed S sh) /\ cache_ok L ByX (sh_x S sh).

  (** The shared part of the server. *)
  Definition shared_ok (L : list entry) (sh : shared S) : Prop :=
    rel (sh_store S sh) L /\ distinct L /\ Forall (stored_ok g) L /\ caches_ok L sh.

  Lemma cache_ok_mono L L' mk c : L `prefix_of` L' -> cache_ok L mk c -> cache_ok L' mk c.
  Proof.
    intros [z ->] [H1 H2]. split; [done|]. intros k f Hk. destruct (H2 k f Hk) as (A & B & D).
    split; [|done]. apply elem_of_app. by left.
  Qed.

  Lemma cache_ok_get L mk c k o c' : cache_ok L mk c -> lru_get k c = (o, c') ->
    cache_ok L mk c' /\
    forall f, o = Some f ->
      f_entry f ∈ L /\ mk k ∈ keys_of (f_entry f) /\ gen_full g (f_entry f) = Ok f.
  Proof.
    intros [H1 H2] Hg. assert (Hc' : c' = snd (lru_get k c)) by (by rewrite Hg). split.
    - subst c'. split; [by rewrite lru_get_length|]. intros k' f' Hin. apply H2.
      by eapply lru_get_sub.
    - intros f ->. apply H2. unfold lru_get in Hg. destruct (lru_find k c) as [v|] eqn:E; [|done].
      injection Hg as <- _. by apply lru_find_In.
  Qed.

  Lemma cache_ok_put L mk c k f : cache_ok L mk c ->
    f_entry f ∈ L -> mk k ∈ keys_of (f_entry f) -> gen_full g (f_entry f) = Ok f ->
    cache_ok L mk (lru_put LRU_CAP k f c).
  Proof.
    intros [H1 H2] A B D. split.
    - apply lru_put_length; [|done]. unfold LRU_CAP. lia.
    - intros k' f' Hin. apply lru_put_sub in Hin as [[= -> ->]|Hin]; auto.
  Qed.

  Ltac fin := split; [done|split; [done|split; [done|split; [by left|split;
    [by first [left; done|right; done]|split; [done|split; [assumption|split;
    [done|by left]]]]]]]].

  Section Step.
    Variable enc dec : bytes.
    Variable L0 : list entry.
    Variable u0 : bool.
    Variable rq : api.

    Notation wf := (wf g L0 u0).
    Notation fut := (fut g L0 u0).

    (** One effect, seen from the request. *)
    Lemma step1_ok {A} (sh : shared S) L unl fl (p : prog A) o Q :
      shared_ok L sh -> L0 `prefix_of` L -> (u0 = true -> unl = true) ->
      ok g enc dec L0 u0 rq (W L unl fl (sh_fb S sh)) p Q ->
      let r := step1 S g sh unl p o in
      exists L' p',
        shared_ok L' (r_sh S r) /\ L `prefix_of` L' /\ sh_fb S sh `prefix_of` sh_fb S (r_sh S r)
        /\ (L' = L \/ exists e k, p = StWrite e k /\ L' = L ++ [e]
              /\ may_write g dec rq (W L unl fl (sh_fb S sh)) e)
        /\ (r_unl S r = unl \/ (r_unl S r = true /\ may_unlock g dec rq))
        /\ r_prog S r = Some p'
        /\ ok g enc dec L0 u0 rq (W L' (r_unl S r) (fl || r_fail S r) (sh_fb S (r_sh S r))) p' Q
        /\ (forall m b, r_out S r = Some (m, b) ->
              good g enc dec L0 u0 rq (W L unl fl (sh_fb S sh)) m)
        /\ (sh_fb S (r_sh S r) = sh_fb S sh
            \/ exists fc, sh_fb S (r_sh S r) = sh_fb S sh ++ [fc]
               /\ ask_ok g L0 rq (W L unl fl (sh_fb S sh)) (fb_id fc) (fb_pk fc) (fb_data fc)
               /\ forall s, fb_ans fc = Ok s -> length s = 64).
    Proof.
      intros HS Hpre Hu0. pose proof HS as (Hrel & Hdis & Hst & Hca).
      set (w := W L unl fl (sh_fb S sh)).
      assert (Hwf : wf w) by done.
      assert (Hfut : fut w w) by (by apply fut_refl).
      assert (Hfl : fut w (W L unl (fl || true) (sh_fb S sh))).
      { split; [|done]. apply wle_intro; auto. intros _. by rewrite orb_true_r. }
      assert (Hsame : fut w (W L unl (fl || false) (sh_fb S sh))).
      { by rewrite orb_false_r. }
      assert (Hfl' : fl || true = true) by apply orb_true_r.
      destruct p as [a|k|k|n k|e k|k|q k|q k|f k|k|i pk d k|m k|]; cbn [ok step1]; intros Hok.
      - exists L, (Ret a). cbn. rewrite orb_false_r. fin.
      - exists L, (k unl). cbn. rewrite orb_false_r. specialize (Hok w Hfut). fin.
      - destruct Hok as [Hmay Hok]. exists L, k. cbn. rewrite orb_false_r.
        assert (Hok' : ok g enc dec L0 u0 rq (W L true fl (sh_fb S sh)) k Q).
        { apply Hok; [|done]. split; [apply wle_intro; auto|]. split; [done|]. done. }
        fin.
      - exists L, (k (fit n (o_rand o))). cbn. rewrite orb_false_r.
        assert (Hok' := Hok w (fit n (o_rand o)) Hfut (fit_length _ _)). fin.
      - destruct Hok as [[Hse Hmw] Hok].
        destruct (o_fail o) eqn:Eo.
        + exists L, (k (Err io_error)). cbn.
          assert (Hok' := proj2 (Hok _ Hfl) io_error (or_introl Hfl')). fin.
        + pose proof (st_write_ok S SO (sh_store S sh) L e Hrel (proj1 Hse)) as Hw.
          destruct (st_write S (sh_store S sh) e) as [r s'] eqn:Ew. cbn [fst snd] in Hw.
          unfold spec_write in Hw. destruct (taken L e) eqn:Et.
          * destruct Hw as [Hr Hrel']. destruct r as [[]|er]; [done|].
            exists L, (k (Err er)). cbn. rewrite orb_false_r.
            assert (Hok' := proj2 (Hok w Hfut) er (or_intror Et)).
            split; [by split|]. split; [done|]. split; [done|]. split; [by left|]. split; [by left|]. split; [done|]. split; [assumption|]. split; [done|]. by left.
          * destruct Hw as [-> Hrel']. exists (L ++ [e]), (k (Ok tt)). cbn. rewrite orb_false_r.
            assert (Hp : L `prefix_of` L ++ [e]) by (by eexists).
            assert (Hst' : Forall (stored_ok g) (L ++ [e])).
            { apply Forall_app. split; [done|]. by apply Forall_singleton. }
            assert (Hd' : distinct (L ++ [e])) by (by apply distinct_snoc).
            assert (Hca' : caches_ok (L ++ [e]) (with_store S sh s')).
            { destruct Hca as (A1 & A2 & A3). cbn.
              split; [|split]; by eapply cache_ok_mono. }
            split; [by split|]. split; [done|]. split; [done|]. split; [by right; exists e, k|].
            split; [by left|]. split; [done|]. split; [|split; [done|by left]].
            apply Hok.
            { split; [apply wle_intro; auto|]. split; [by transitivity L|]. done. }
            { cbn. apply elem_of_app. right. by left. }
      - destruct (o_fail o) eqn:Eo.
        + exists L, (k (Err io_error)). cbn.
          assert (Hok' := proj2 (Hok _ Hfl) io_error Hfl'). fin.
        + destruct (st_list_ok S SO _ _ Hrel) as (l & Hl & Hperm). rewrite Hl.
          exists L, (k (Ok l)). cbn. rewrite orb_false_r.
          assert (Hok' := proj1 (Hok w Hfut) l Hperm). fin.
      - destruct (o_fail o) eqn:Eo.
        + exists L, (k (Err io_error)). cbn.
          assert (Hok' := proj2 (Hok _ Hfl) io_error (or_introl Hfl')). fin.
        + pose proof (st_get_ok S SO _ _ q Hrel) as Hg.
          destruct (spec_get L q) as [e|] eqn:Eg.
          * rewrite Hg. exists L, (k (Ok e)). cbn. rewrite orb_false_r.
            apply spec_get_Some in Eg as [He Hq].
            assert (Hok' := proj1 (Hok w Hfut) e He Hq). fin.
          * destruct (st_get S (sh_store S sh) q) as [?|er]; [done|].
            exists L, (k (Err er)). cbn. rewrite orb_false_r.
            assert (Hok' := proj2 (Hok w Hfut) er (or_intror (fun e He => spec_get_None L q e Eg He))).
            fin.
      - destruct (cache_get S sh q) as [r sh'] eqn:Ec.
        assert (Hsh' : shared_ok L sh' /\ sh_fb S sh' = sh_fb S sh /\
                  forall f, r = Some f -> cached g w q f).
        { destruct Hca as (A1 & A2 & A3). unfold cache_get in Ec. destruct q as [t|pk|pk].
          - destruct (lru_get t (sh_tag S sh)) as [o1 l1] eqn:El.
            destruct (cache_ok_get _ _ _ _ _ _ A1 El) as [B1 B2].
            injection Ec as <- <-. split; [|split; [done|exact B2]].
            split; [done|]. split; [done|]. split; [done|]. by split; [|split].
          - destruct (lru_get pk (sh_ed S sh)) as [o1 l1] eqn:El.
            destruct (cache_ok_get _ _ _ _ _ _ A2 El) as [B1 B2].
            injection Ec as <- <-. split; [|split; [done|exact B2]].
            split; [done|]. split; [done|]. split; [done|]. by split; [|split].
          - destruct (lru_get pk (sh_x S sh)) as [o1 l1] eqn:El.
            destruct (cache_ok_get _ _ _ _ _ _ A3 El) as [B1 B2].
            injection Ec as <- <-. split; [|split; [done|exact B2]].
            split; [done|]. split; [done|]. split; [done|]. by split; [|split]. }
        destruct Hsh' as (Hsh' & Hfb & Hcd).
        exists L, (k r). cbn. rewrite orb_false_r, Hfb.
        assert (Hok' : ok g enc dec L0 u0 rq w (k r) Q).
        { destruct (Hok w Hfut) as [HN HS']. destruct r as [f|]; [|done]. auto. }
        fin.
      - destruct Hok as [[Hin Hg] Hok]. exists L, k. cbn.
        assert (Hsh' : shared_ok L (cache_put S sh f) /\ sh_fb S (cache_put S sh f) = sh_fb S sh).
        { destruct Hca as (A1 & A2 & A3).
          assert (B1 := cache_ok_put L ByTag _ _ f A1 Hin (keys_tag (f_entry f)) Hg).
          unfold cache_put. destruct (f_entry f) as [t si sec|t si salt ops mem sec|t ci sec] eqn:Ef.
          - assert (B2 : cache_ok L ByEd (lru_put LRU_CAP (si_ed si) f (sh_ed S sh))).
            { apply cache_ok_put; try done; rewrite Ef; try done. by apply keys_ed. }
            assert (B3 : cache_ok L ByX (lru_put LRU_CAP (si_x si) f (sh_x S sh))).
            { apply cache_ok_put; try done; rewrite Ef; try done. by apply keys_x. }
            done.
          - done.
          - done. }
        destruct Hsh' as [Hsh' Hfb]. rewrite Hfb, orb_false_r.
        assert (Hok' := Hok w Hfut). fin.
      - assert (Herr : ok g enc dec L0 u0 rq (W L unl (fl || true) (sh_fb S sh)) (k (Err io_error)) Q)
          by (apply (Hok _ Hfl); done).
        destruct (o_cert o) as [gc|]; [destruct (g_rcgen g gc && gencert_okb gc) eqn:Eg|].
        + exists L, (k (Ok gc)). cbn. rewrite orb_false_r.
          assert (Hok' := proj1 (Hok w Hfut) gc (proj1 (andb_prop _ _ Eg)) (proj2 (andb_prop _ _ Eg))). fin.
        + exists L, (k (Err io_error)). cbn. fin.
        + exists L, (k (Err io_error)). cbn. fin.
      - set (r := match o_sign o with
                  | Ok s => if Nat.eqb (length s) 64 then Ok s else Err io_error
                  | Err e => Err e end).
        assert (Hr : forall s, r = Ok s -> length s = 64).
        { unfold r. intros s. destruct (o_sign o) as [s'|]; [|done].
          destruct (Nat.eqb_spec (length s') 64); [|done]. by intros [= <-]. }
        destruct (Hok w Hfut) as [Hask Hok'].
        assert (Hp : sh_fb S sh `prefix_of` sh_fb S sh ++ [FbCall i pk d r]) by (by eexists).
        exists L, (k r). cbn. rewrite orb_false_r.
        split; [by split|]. split; [done|]. split; [done|]. split; [by left|].
        split; [by left|]. split; [done|]. split.
        { apply Hok'; [|cbn; apply elem_of_app; right; by left|done].
          split; [apply wle_intro; auto|]. done. }
        split; [done|]. right. by eexists.
      - set (b := fits m && o_send o). destruct (Hok w Hfut) as [Hg Hok'].
        exists L, (k (if b then Ok tt else Err (str "FrameOverflow"))). cbn.
        split; [done|]. split; [done|]. split; [done|]. split; [by left|].
        split; [by left|]. split; [done|]. split.
        { apply Hok'.
          - destruct b; [exact Hsame|exact Hfl].
          - destruct b; [done|]. intros _. exact Hfl'. }
        split; [by intros ? ? [= <- _]|]. by left.
      - done.
    Qed.
  End Step.

  (** ** The invariant *)

  Definition wof (L : list entry) (sh : shared S) (c : conn S) (rq : request S) : world :=
    W L (c_unl S c) (rq_fail S rq) (sh_fb S sh).

  Definition thread_ok (c : conn S) (L0 : list entry) (rq : request S) (w : world)
      (t : option thread) : Prop :=
    match t with
    | Some (Running p) =>
        ok g (c_enc S c) (c_dec S c) L0 (rq_unl S rq) (rq_msg S rq) w p
          (post g (c_dec S c) L0 (rq_unl S rq) (rq_msg S rq))
    | Some (Failed e) =>
        forall w', fut g L0 (rq_unl S rq) w w' ->
          excuse g (c_dec S c) L0 (rq_unl S rq) (rq_msg S rq) w'
    | None => True
    end.

  Definition logged_ok (c : conn S) (L0 : list entry) (rq : request S) (w : world) (m : api) : Prop :=
    exists w0, wf g L0 (rq_unl S rq) w0 /\ wle w0 w
      /\ good g (c_enc S c) (c_dec S c) L0 (rq_unl S rq) (rq_msg S rq) w0 m.

  Definition request_ok (L : list entry) (sh : shared S) (c : conn S) (tid : nat)
      (rq : request S) : Prop :=
    exists L0, rel (rq_store S rq) L0 /\ distinct L0 /\ L0 `prefix_of` L
      /\ (rq_unl S rq = true -> c_unl S c = true)
      /\ api_ok (rq_msg S rq)
      /\ thread_ok c L0 rq (wof L sh c rq) (c_thr S c !! tid)
      /\ forall m b, (tid, m, b) ∈ c_log S c -> logged_ok c L0 rq (wof L sh c rq) m.

  Definition conn_ok (L : list entry) (sh : shared S) (c : conn S) : Prop :=
    (forall tid rq, c_reqs S c !! tid = Some rq -> request_ok L sh c tid rq)
    /\ (forall tid, is_Some (c_thr S c !! tid) -> tid < length (c_reqs S c))
    /\ (forall tid m b, (tid, m, b) ∈ c_log S c -> tid < length (c_reqs S c))
    /\ (c_unl S c = true -> exists tid rq, c_reqs S c !! tid = Some rq
          /\ may_unlock g (c_dec S c) (rq_msg S rq)).

  (** Who asked the fallback signer. *)
  Definition fb_ok (cs : gmap nat (conn S)) (fc : fbcall) : Prop :=
    g_fallback g = true
    /\ (forall s, fb_ans fc = Ok s -> length s = 64)
    /\ exists cid c tid rq dp, cs !! cid = Some c /\ c_reqs S c !! tid = Some rq
         /\ c_unl S c = true /\ rq_msg S rq = ReqSign (fb_id fc) (fb_pk fc) dp (fb_data fc)
         /\ exists L0, rel (rq_store S rq) L0
              /\ (rq_fail S rq = true \/ forall e, e ∈ L0 -> ByEd (fb_pk fc) ∉ keys_of e).

  Definition inv_at (L : list entry) (s : sys S) : Prop :=
    shared_ok L (s_sh S s)
    /\ (forall cid c, s_conns S s !! cid = Some c -> conn_ok L (s_sh S s) c)
    /\ (forall fc, fc ∈ sh_fb S (s_sh S s) -> fb_ok (s_conns S s) fc).

  Definition inv (s : sys S) : Prop := exists L, inv_at L s.

  (** When others move on. *)
  Lemma conn_ok_mono L L' sh sh' c :
    L `prefix_of` L' -> sh_fb S sh `prefix_of` sh_fb S sh' ->
    conn_ok L sh c -> conn_ok L' sh' c.
  Proof.
    intros HL Hfb (H1 & H2 & H3 & H4). split; [|done].
    intros tid rq Hrq. destruct (H1 tid rq Hrq) as (L0 & A1 & A2 & A3 & A4 & A5 & A6 & A7).
    assert (Hle : wle (wof L sh c rq) (wof L' sh' c rq)) by (apply wle_intro; auto).
    exists L0. split; [done|]. split; [done|]. split; [by transitivity L|].
    split; [done|]. split; [done|]. split.
    - unfold thread_ok in *. destruct (c_thr S c !! tid) as [[p|e]|]; [| |done].
      + by eapply ok_mono.
      + intros w' Hf. apply A6. by eapply fut_trans.
    - intros m b Hin. destruct (A7 m b Hin) as (w0 & B1 & B2 & B3).
      exists w0. split; [done|]. split; [by eapply wle_trans|done].
  Qed.

  Lemma mark_fail_lookup rqs tid b i :
    mark_fail S rqs tid b !! i =
    (if decide (i = tid) then
       (fun r => Rq S (rq_msg S r) (rq_store S r) (rq_unl S r) (rq_fail S r || b)) <$> rqs !! i
     else rqs !! i).
  Proof.
    unfold mark_fail. destruct (decide (i = tid)) as [->|Hne].
    - apply list_lookup_alter.
    - by apply list_lookup_alter_ne.
  Qed.

  Lemma mark_fail_length rqs tid b : length (mark_fail S rqs tid b) = length rqs.
  Proof. apply alter_length. Qed.

  Lemma lookup_set_thr m tid t i :
    set_thr m tid t !! i = (if decide (i = tid) then t else m !! i).
  Proof.
    unfold set_thr. destruct t as [t|]; destruct (decide (i = tid)) as [->|Hne].
    - apply lookup_insert.
    - by apply lookup_insert_ne.
    - apply lookup_delete.
    - by apply lookup_delete_ne.
  Qed.

  Lemma settle_ok c L0 rq w p :
    wf g L0 (rq_unl S rq) w ->
    ok g (c_enc S c) (c_dec S c) L0 (rq_unl S rq) (rq_msg S rq) w p
      (post g (c_dec S c) L0 (rq_unl S rq) (rq_msg S rq)) ->
    thread_ok c L0 rq w (settle p).
  Proof.
    intros Hw Hok. destruct p as [[[]|e]| | | | | | | | | | | |]; try exact Hok; [exact I|].
    cbn [settle thread_ok]. intros w' Hf. by apply (Hok w' Hf).
  Qed.

  (** A step of one request of one connection. *)
  Lemma step_conn_ok L sh c c' sh' L' tid rq fl t out :
    shared_ok L sh -> shared_ok L' sh' ->
    conn_ok L sh c -> c_reqs S c !! tid = Some rq ->
    L `prefix_of` L' -> sh_fb S sh `prefix_of` sh_fb S sh' ->
    c_enc S c' = c_enc S c -> c_dec S c' = c_dec S c ->
    (c_unl S c' = c_unl S c
      \/ (c_unl S c' = true /\ may_unlock g (c_dec S c) (rq_msg S rq))) ->
    c_thr S c' = set_thr (c_thr S c) tid t ->
    c_reqs S c' = mark_fail S (c_reqs S c) tid fl ->
    c_log S c' = log_add S c tid out ->
    (exists L0, rel (rq_store S rq) L0 /\ distinct L0 /\ L0 `prefix_of` L
       /\ (rq_unl S rq = true -> c_unl S c = true) /\ api_ok (rq_msg S rq)
       /\ (forall m b, (tid, m, b) ∈ c_log S c -> logged_ok c L0 rq (wof L sh c rq) m)
       /\ thread_ok c L0 rq (W L' (c_unl S c') (rq_fail S rq || fl) (sh_fb S sh')) t
       /\ forall m b, out = Some (m, b) ->
            good g (c_enc S c) (c_dec S c) L0 (rq_unl S rq) (rq_msg S rq) (wof L sh c rq) m) ->
    conn_ok L' sh' c'.
  Proof.
    intros HS HS' (H1 & H2 & H3 & H4) Hrq HL Hfb He Hd Hu Ht Hr Hl Hthr.
    assert (Hunl : c_unl S c = true -> c_unl S c' = true) by (destruct Hu as [->|[-> _]]; auto).
    assert (Htid : tid < length (c_reqs S c)) by (by eapply lookup_lt_Some).
    split; [|split; [|split]].
    - intros i r. rewrite Hr, mark_fail_lookup. destruct (decide (i = tid)) as [->|Hne].
      + rewrite Hrq. cbn. intros [= <-].
        destruct Hthr as (L0 & A1 & A2 & A3 & A4 & A5 & A7 & B1 & B2).
        exists L0. cbn. split; [done|]. split; [done|]. split; [by transitivity L|].
        split; [by auto|]. split; [done|].
        assert (Hle : wle (wof L sh c rq)
            (W L' (c_unl S c') (rq_fail S rq || fl) (sh_fb S sh'))).
        { apply wle_intro; auto. by intros ->. }
        split.
        { rewrite Ht, lookup_set_thr, decide_True by done. unfold thread_ok in *. cbn.
          unfold wof. cbn. rewrite He, Hd. exact B1. }
        intros m b Hin. unfold logged_ok. cbn. rewrite He, Hd. rewrite Hl in Hin.
        assert (Hcase : (tid, m, b) ∈ c_log S c \/ out = Some (m, b)).
        { unfold log_add in Hin. destruct out as [[m' b']|]; [|by left].
          apply elem_of_app in Hin as [Hin|Hin]; [by left|].
          apply elem_of_list_singleton in Hin. injection Hin as <- <-. by right. }
        destruct Hcase as [Hin'| ->].
        * destruct (A7 m b Hin') as (w0 & D1 & D2 & D3). exists w0.
          split; [done|]. split; [by eapply wle_trans|done].
        * exists (wof L sh c rq). destruct HS as (? & ? & ? & ?).
          split; [(split; [done|split; [done|done]])|]. split; [done|]. by eapply B2.
      + intros Hi. destruct (H1 i r Hi) as (L0 & A1 & A2 & A3 & A4 & A5 & A6 & A7).
        assert (Hle : wle (wof L sh c r) (wof L' sh' c' r)) by (apply wle_intro; auto).
        exists L0. split; [done|]. split; [done|]. split; [by transitivity L|].
        split; [by auto|]. split; [done|]. split.
        * rewrite Ht, lookup_set_thr, decide_False by done. unfold thread_ok in *.
          rewrite He, Hd. destruct (c_thr S c !! i) as [[p|e]|]; [| |done].
          { by eapply ok_mono. }
          { intros w' Hf. apply A6. by eapply fut_trans. }
        * intros m b Hin. unfold logged_ok. rewrite He, Hd.
          assert (Hin' : (i, m, b) ∈ c_log S c).
          { rewrite Hl in Hin. unfold log_add in Hin. destruct out as [[m' b']|]; [|done].
            apply elem_of_app in Hin as [Hin|Hin]; [done|].
            apply elem_of_list_singleton in Hin. by injection Hin as ? ? ?. }
          destruct (A7 m b Hin') as (w0 & D1 & D2 & D3). exists w0.
          split; [done|]. split; [by eapply wle_trans|done].
    - intros i. rewrite Hr, mark_fail_length, Ht, lookup_set_thr.
      destruct (decide (i = tid)) as [->|Hne]; auto.
    - intros i m b. rewrite Hr, mark_fail_length, Hl. unfold log_add.
      destruct out as [[m' b']|]; [|eauto].
      intros [Hin|Hin]%elem_of_app; [eauto|].
      apply elem_of_list_singleton in Hin. by injection Hin as -> _ _.
    - intros Hc'. rewrite Hd, Hr. destruct Hu as [Hu|[_ Hm]].
      + rewrite Hu in Hc'. destruct (H4 Hc') as (i & r & Hi & Hm).
        destruct (decide (i = tid)) as [->|Hne].
        * eexists tid, _. rewrite mark_fail_lookup, decide_True, Hi by done. cbn.
          split; [reflexivity|]. done.
        * exists i, r. by rewrite mark_fail_lookup, decide_False.
      + eexists tid, _. rewrite mark_fail_lookup, decide_True, Hrq by done. cbn.
        split; [reflexivity|]. done.
  Qed.

  Lemma fb_ok_conns cs cs' fc :
    (forall cid c, cs !! cid = Some c -> exists c', cs' !! cid = Some c'
       /\ (c_unl S c = true -> c_unl S c' = true)
       /\ forall tid rq, c_reqs S c !! tid = Some rq -> exists rq',
            c_reqs S c' !! tid = Some rq' /\ rq_msg S rq' = rq_msg S rq
            /\ rq_store S rq' = rq_store S rq
            /\ (rq_fail S rq = true -> rq_fail S rq' = true)) ->
    fb_ok cs fc -> fb_ok cs' fc.
  Proof.
    intros H (F1 & F2 & cid & c & tid & rq & dp & A1 & A2 & A3 & A4 & L0 & A5 & A6).
    destruct (H cid c A1) as (c' & B1 & B2 & B3).
    destruct (B3 tid rq A2) as (rq' & D1 & D2 & D3 & D4).
    split; [done|]. split; [done|]. exists cid, c', tid, rq', dp.
    rewrite D2, D3. split; [done|]. split; [done|]. split; [auto|]. split; [done|].
    exists L0. split; [done|]. destruct A6 as [A6|A6]; auto.
  Qed.

  Lemma fb_ok_insert cs cid c c' fc :
    cs !! cid = Some c ->
    (c_unl S c = true -> c_unl S c' = true) ->
    (forall tid rq, c_reqs S c !! tid = Some rq -> exists rq',
       c_reqs S c' !! tid = Some rq' /\ rq_msg S rq' = rq_msg S rq
       /\ rq_store S rq' = rq_store S rq
       /\ (rq_fail S rq = true -> rq_fail S rq' = true)) ->
    fb_ok cs fc -> fb_ok (<[cid := c']> cs) fc.
  Proof.
    intros Hc Hu Hr. apply fb_ok_conns. intros i ci Hi.
    destruct (decide (i = cid)) as [->|Hne].
    - rewrite Hc in Hi. injection Hi as <-. exists c'. by rewrite lookup_insert.
    - exists ci. rewrite lookup_insert_ne by done. split; [done|]. split; [done|].
      intros tid rq Hrq. by exists rq.
  Qed.

  Lemma mark_fail_keeps rqs tid fl i rq : rqs !! i = Some rq -> exists rq',
       mark_fail S rqs tid fl !! i = Some rq' /\ rq_msg S rq' = rq_msg S rq
       /\ rq_store S rq' = rq_store S rq
       /\ (rq_fail S rq = true -> rq_fail S rq' = true).
  Proof.
    intros Hi. rewrite mark_fail_lookup. destruct (decide (i = tid)); rewrite Hi; cbn.
    - eexists. split; [reflexivity|]. cbn. split; [done|]. split; [done|]. by intros ->.
    - by exists rq.
  Qed.

  Lemma post_good L0 rq w e c :
    excuse g (c_dec S c) L0 (rq_unl S rq) (rq_msg S rq) w ->
    good g (c_enc S c) (c_dec S c) L0 (rq_unl S rq) (rq_msg S rq) w
      (ResError (msg_id (rq_msg S rq)) e).
  Proof. intros H. right. by exists e. Qed.

  (** What one step of a request does to the whole server. *)
  Lemma step_thread_ok L s cid c tid o :
    inv_at L s -> s_conns S s !! cid = Some c ->
    let (sh', c') := step_thread S g (s_sh S s) c tid o in
    exists L', inv_at L' (Sys S sh' (<[cid := c']> (s_conns S s)))
      /\ (L' = L \/ exists e rq, L' = L ++ [e] /\ c_unl S c = true
            /\ c_reqs S c !! tid = Some rq /\ asked g (c_dec S c) (rq_msg S rq) L e).
  Proof.
    intros (HS & HCs & HF) Hc. pose proof (HCs cid c Hc) as Hck.
    pose proof Hck as (H1 & H2 & H3 & H4).
    assert (Hno : exists L', inv_at L' (Sys S (s_sh S s) (<[cid := c]> (s_conns S s)))
      /\ (L' = L \/ exists e rq, L' = L ++ [e] /\ c_unl S c = true
            /\ c_reqs S c !! tid = Some rq /\ asked g (c_dec S c) (rq_msg S rq) L e)).
    { exists L. split; [|by left]. rewrite insert_id by done. split; [done|]. by split. }
    unfold step_thread. destruct (c_thr S c !! tid) as [[p|e]|] eqn:Et; [| |exact Hno].
    - assert (Htid : tid < length (c_reqs S c)) by (apply H2; by eexists).
      apply lookup_lt_is_Some in Htid as [rq Hrq].
      destruct (H1 tid rq Hrq) as (L0 & A1 & A2 & A3 & A4 & A5 & A6 & A7).
      rewrite Et in A6. cbn [thread_ok] in A6.
      destruct (step1_ok (c_enc S c) (c_dec S c) L0 (rq_unl S rq) (rq_msg S rq)
        (s_sh S s) L (c_unl S c) (rq_fail S rq) p o _ HS A3 A4 A6)
        as (L' & p' & B1 & B2 & B3 & B4 & B5 & B6 & B7 & B8 & B9).
      set (r := step1 S g (s_sh S s) (c_unl S c) p o) in *. rewrite B6.
      exists L'. split.
      2:{ destruct B4 as [->|(e & k & _ & -> & Hm & Hw)]; [by left|right]. by exists e, rq. }
      assert (Hunl : c_unl S c = true -> r_unl S r = true) by (destruct B5 as [->|[-> _]]; auto).
      set (c' := Conn S (c_enc S c) (c_dec S c) (r_unl S r) (c_open S c)
                   (set_thr (c_thr S c) tid (settle p'))
                   (mark_fail S (c_reqs S c) tid (r_fail S r))
                   (log_add S c tid (r_out S r))).
      split; [done|]. split; cbn [s_sh s_conns].
      + intros i ci. destruct (decide (i = cid)) as [->|Hne].
        * rewrite lookup_insert. intros [= <-].
          eapply (step_conn_ok L (s_sh S s) c c' (r_sh S r) L' tid rq (r_fail S r) (settle p')
            (r_out S r)); try done.
          exists L0. split; [done|]. split; [done|]. split; [done|]. split; [done|].
          split; [done|]. split; [done|]. split; [|exact B8].
          apply settle_ok; [|exact B7].
          destruct B1 as (? & ? & ? & ?). split; [by transitivity L|]. split; [|done].
          intros Hu. apply Hunl. auto.
        * rewrite lookup_insert_ne by done. intros Hi.
          eapply conn_ok_mono; [exact B2|exact B3|by eapply HCs].
      + intros fc Hfc. assert (Hcase : fc ∈ sh_fb S (s_sh S s) \/
          (ask_ok g L0 (rq_msg S rq) (wof L (s_sh S s) c rq) (fb_id fc) (fb_pk fc) (fb_data fc)
           /\ forall s, fb_ans fc = Ok s -> length s = 64)).
        { destruct B9 as [B9|(fc' & B9 & B10)]; rewrite B9 in Hfc; [by left|].
          apply elem_of_app in Hfc as [Hfc|Hfc%elem_of_list_singleton]; [by left|].
          right. by subst fc'. }
        destruct Hcase as [Hold|[(F1 & F2 & (dp & F3) & F4) F5]].
        * eapply fb_ok_insert; [exact Hc|exact Hunl| |by apply HF].
          intros i r' Hi. cbn. by apply mark_fail_keeps.
        * split; [done|]. split; [done|].
          destruct (mark_fail_keeps (c_reqs S c) tid (r_fail S r) tid rq Hrq)
            as (rq' & G1 & G2 & G3 & G4).
          exists cid, c', tid, rq', dp. rewrite lookup_insert, G2, G3.
          split; [done|]. split; [done|]. split; [by apply Hunl|]. split; [done|].
          exists L0. split; [done|]. destruct F4 as [F4|F4]; [left; auto|by right].
    - destruct (c_reqs S c !! tid) as [rq|] eqn:Hrq; [|exact Hno].
      set (m := ResError (msg_id (rq_msg S rq)) e). set (b := fits m && o_send o).
      set (c' := Conn S (c_enc S c) (c_dec S c) (c_unl S c) (c_open S c) (delete tid (c_thr S c))
                   (mark_fail S (c_reqs S c) tid (negb b)) (c_log S c ++ [(tid, m, b)])).
      exists L. split; [|by left]. split; [done|]. split; cbn [s_sh s_conns].
      + intros i ci. destruct (decide (i = cid)) as [->|Hne].
        * rewrite lookup_insert. intros [= <-].
          eapply (step_conn_ok L (s_sh S s) c c' (s_sh S s) L tid rq (negb b) None
            (Some (m, b))); try done; [by left|].
          destruct (H1 tid rq Hrq) as (L0 & A1 & A2 & A3 & A4 & A5 & A6 & A7).
          rewrite Et in A6. cbn [thread_ok] in A6.
          exists L0. split; [done|]. split; [done|]. split; [done|]. split; [done|].
          split; [done|]. split; [done|]. split; [done|]. intros ? ? [= <- _].
          apply post_good. apply A6.
          apply fut_refl. destruct HS as (? & ? & ? & ?). (split; [done|split; [done|done]]).
        * rewrite lookup_insert_ne by done. intros Hi. by eapply HCs.
      + intros fc Hfc. eapply fb_ok_insert; [exact Hc|done| |by apply HF].
        intros i r' Hi. cbn. by apply mark_fail_keeps.
  Qed.

  Lemma conn_ok_connect L sh rx tx : conn_ok L sh (connect S g rx tx).
  Proof.
    split; [|split; [|split]]; cbn.
    - by intros tid rq ?%elem_of_list_lookup_2%elem_of_nil.
    - intros tid [t Ht]. by rewrite lookup_empty in Ht.
    - by intros ? ? ? ?%elem_of_nil.
    - done.
  Qed.

  Lemma receive_ok L s cid c raw :
    inv_at L s -> s_conns S s !! cid = Some c ->
    inv_at L (Sys S (s_sh S s) (<[cid := receive S g (s_sh S s) c raw]> (s_conns S s))).
  Proof.
    intros (HS & HCs & HF) Hc. pose proof (HCs cid c Hc) as (H1 & H2 & H3 & H4).
    set (c' := receive S g (s_sh S s) c raw).
    assert (Hext : c_unl S c' = c_unl S c /\
      forall tid rq, c_reqs S c !! tid = Some rq -> c_reqs S c' !! tid = Some rq).
    { unfold c', receive. destruct (c_open S c && _); [|done].
      destruct (decode_api raw) as [a|]; [|done]. cbn. split; [done|].
      intros tid rq Hrq. by apply lookup_app_l_Some. }
    split; [done|]. split; cbn [s_sh s_conns].
    - intros i ci. destruct (decide (i = cid)) as [->|Hne].
      2:{ rewrite lookup_insert_ne by done. apply HCs. }
      rewrite lookup_insert. intros [= <-]. unfold c', receive.
      destruct (c_open S c && _); [|by apply (HCs cid)].
      destruct (decode_api raw) as [a|] eqn:Ed.
      2:{ pose proof (HCs cid c Hc) as Hck. exact Hck. }
      set (tid := length (c_reqs S c)).
      assert (Hlog : forall m b, (tid, m, b) ∉ c_log S c).
      { intros m b Hin. specialize (H3 _ _ _ Hin). unfold tid in H3. lia. }
      split; [|split; [|split]]; cbn.
      + intros i rq Hi. destruct (decide (i = tid)) as [->|Hne].
        * rewrite lookup_app_r, Nat.sub_diag in Hi by done. injection Hi as <-.
          exists L. cbn. pose proof HS as (A1 & A2 & A3 & A4).
          split; [done|]. split; [done|]. split; [done|]. split; [done|].
          split; [by eapply decode_api_ok|]. split.
          { rewrite lookup_set_thr, decide_True by done.
            assert (Hw : wf g L (c_unl S c) (wof L (s_sh S s) c (Rq S a (sh_store S (s_sh S s))
              (c_unl S c) false))) by (split; [done|split; [done|done]]).
            pose proof (settle_ok c L (Rq S a (sh_store S (s_sh S s)) (c_unl S c) false) _
              (dispatch g (c_enc S c) (c_dec S c) a) Hw) as Hset.
            apply Hset. apply dispatch_ok; [done|done|]. by eapply decode_api_ok. }
          intros m b Hin. by apply Hlog in Hin.
        * assert (Hi' : c_reqs S c !! i = Some rq).
          { rewrite lookup_app_Some in Hi. destruct Hi as [Hi|[Hge Hi]]; [done|].
            exfalso. apply Hne. fold tid in Hge. fold tid in Hi.
            apply list_lookup_singleton_Some in Hi as [Hi _]. lia. }
          destruct (H1 i rq Hi') as (L0 & A1 & A2 & A3 & A4 & A5 & A6 & A7).
          exists L0. cbn. split; [done|]. split; [done|]. split; [done|]. split; [done|].
          split; [done|]. split; [|done].
          by rewrite lookup_set_thr, decide_False.
      + intros i. rewrite app_length, lookup_set_thr. cbn.
        destruct (decide (i = tid)) as [->|Hne]; [unfold tid; lia|].
        intros Hi. specialize (H2 i Hi). lia.
      + intros i m b Hin. rewrite app_length. specialize (H3 i m b Hin). lia.
      + intros Hu. destruct (H4 Hu) as (i & rq & Hi & Hm). exists i, rq.
        split; [|done]. by apply lookup_app_l_Some.
    - intros fc Hfc. eapply fb_ok_insert; [exact Hc| | |by apply HF].
      + by destruct Hext as [-> _].
      + intros tid rq Hrq. exists rq. destruct Hext as [_ H]. auto.
  Qed.

  Lemma abort_ok L s cid c tid e :
    inv_at L s -> s_conns S s !! cid = Some c ->
    inv_at L (Sys S (s_sh S s) (<[cid := abort_thread S c tid e]> (s_conns S s))).
  Proof.
    intros (HS & HCs & HF) Hc. pose proof (HCs cid c Hc) as Hck.
    pose proof Hck as (H1 & H2 & H3 & H4).
    assert (Hno : inv_at L (Sys S (s_sh S s) (<[cid := c]> (s_conns S s)))).
    { rewrite insert_id by done. split; [done|]. by split. }
    unfold abort_thread. destruct (c_thr S c !! tid) as [[p|e']|] eqn:Et; [|exact Hno..].
    assert (Htid : tid < length (c_reqs S c)) by (apply H2; by eexists).
    apply lookup_lt_is_Some in Htid as [rq Hrq].
    destruct (H1 tid rq Hrq) as (L0 & A1 & A2 & A3 & A4 & A5 & A6 & A7).
    set (c' := Conn S (c_enc S c) (c_dec S c) (c_unl S c) (c_open S c)
                 (<[tid := Failed e]> (c_thr S c)) (mark_fail S (c_reqs S c) tid true)
                 (c_log S c)).
    split; [done|]. split; cbn [s_sh s_conns].
    - intros i ci. destruct (decide (i = cid)) as [->|Hne].
      2:{ rewrite lookup_insert_ne by done. apply HCs. }
      rewrite lookup_insert. intros [= <-].
      eapply (step_conn_ok L (s_sh S s) c c' (s_sh S s) L tid rq true (Some (Failed e)) None);
        try done; [by left|].
      exists L0. split; [done|]. split; [done|]. split; [done|]. split; [done|].
      split; [done|]. split; [done|]. split; [|done].
      cbn [thread_ok]. intros w' Hf. left. eapply fut_fail; [exact Hf|]. cbn. apply orb_true_r.
    - intros fc Hfc. eapply fb_ok_insert; [exact Hc|done| |by apply HF].
      intros i r' Hi. cbn. by apply mark_fail_keeps.
  Qed.

  (** ** The store used directly *)

  Definition direct_tag (d : direct) : bytes :=
    match d with
    | DNewSeed t _ | DInsertSeed _ t _ | DNewDeep t _ _ _ _ | DInsertDeep _ t _ _ _ _
    | DNewCert t => t
    end.

  Lemma text_okb_ok t : text_okb t = true -> text_ok t.
  Proof. unfold text_okb. rewrite andb_true_iff, N.ltb_lt. by intros [? ?]. Qed.

  (** A passphrase that opens to [p] on a connection with the key [k]. *)
  Lemma some_dlp k p ops mem : length p = 64 -> (ops < 2 ^ 32)%N -> (mem < 2 ^ 32)%N ->
    exists d, dlp_ok d /\ dl_ops d = ops /\ dl_mem d = mem
      /\ sec_open C 64 k (dl_pass d) = Ok p.
  Proof.
    intros Hp Ho Hm.
    exists (Dlp ops mem (sec_encrypt C k (repeat x00 24) p)). cbn [dl_ops dl_mem dl_pass].
    split; [|split; [done|split; [done|]]].
    - split; [done|]. split; [done|].
      pose proof (sec_encrypt_ok C HC k (repeat x00 24) p eq_refl) as H. by rewrite Hp in H.
    - rewrite <- Hp at 1. apply (sec_open_encrypt C HC).
  Qed.

  (** What a call of the store asks to be stored. *)
  Definition direct_asked (d : direct) (e : entry) : Prop :=
    match d with
    | DNewSeed t x =>
        exists si seed, si_exportable si = x /\ holds_seed g [] e t None si seed
    | DInsertSeed seed t x =>
        exists si, si_exportable si = x /\ holds_seed g [] e t None si seed
    | DNewDeep t ops mem pass x =>
        exists si salt sec seed, e = EDeep t si salt ops mem sec /\ si_exportable si = x
          /\ locked_seed g e pass seed
    | DInsertDeep seed t ops mem pass x =>
        exists si salt sec, e = EDeep t si salt ops mem sec /\ si_exportable si = x
          /\ locked_seed g e pass seed
    | DNewCert t =>
        exists gc sec, g_rcgen g gc = true /\ e = ECert t (cert_of g gc) sec
          /\ cert_priv g e (gc_priv gc)
    end.

  (** Every entry written satisfies [P]. *)
  Fixpoint wonly {A} (P : entry -> Prop) (p : prog A) : Prop :=
    match p with
    | Ret _ | Crash => True
    | LoadUnlocked k => forall b, wonly P (k b)
    | SetUnlocked k => wonly P k
    | Rand n k => forall b, length b = n -> wonly P (k b)
    | StWrite e k => P e /\ forall r, wonly P (k r)
    | StList k => forall r, wonly P (k r)
    | StGet _ k => forall r, wonly P (k r)
    | CacheGet _ k => forall r, wonly P (k r)
    | CachePut _ k => wonly P k
    | CertGen k => (forall gc, g_rcgen g gc = true -> wonly P (k (Ok gc)))
                   /\ forall e, wonly P (k (Err e))
    | AskFallback _ _ _ k => forall r, wonly P (k r)
    | Send _ k => forall r, wonly P (k r)
    end.

  Lemma step1_wonly {A} P sh unl (p p' : prog A) o : wonly P p ->
    r_prog S (step1 S g sh unl p o) = Some p' -> wonly P p'.
  Proof.
    destruct p as [a|k|k|n k|e k|k|q k|q k|f k|k|i pk d k|m k|]; cbn [wonly step1]; intros H.
    - by intros [= <-].
    - by intros [= <-].
    - by intros [= <-].
    - intros [= <-]. apply H, fit_length.
    - destruct H as [_ H]. destruct (o_fail o); [by intros [= <-]|].
      destruct (st_write S (sh_store S sh) e). by intros [= <-].
    - destruct (o_fail o); by intros [= <-].
    - destruct (o_fail o); by intros [= <-].
    - destruct (cache_get S sh q). by intros [= <-].
    - by intros [= <-].
    - destruct (o_cert o) as [gc|]; [|by intros [= <-]; apply H].
      destruct (g_rcgen g gc) eqn:E; cbn [andb]; [|by intros [= <-]; apply H].
      destruct (gencert_okb gc); intros [= <-]; by apply H.
    - by intros [= <-].
    - cbn. intros E. apply Some_inj in E as <-. apply H.
    - done.
  Qed.

  Lemma direct_wonly d : direct_okb d = true -> wonly (direct_asked d) (direct_prog g d).
  Proof.
    intros Hd.
    assert (HS : forall seed t x hdr, length seed = 32 ->
      exists si, si_exportable si = x /\
        holds_seed g [] (ESeed t (SeedInfo (sign_pk C seed) (box_pk C seed) x)
          (sec_encrypt C (g_bidi g) hdr seed)) t None si seed).
    { intros seed t x hdr Hl. eexists. split; [|eexists; split; [reflexivity|]]; [done|].
      split; [|done]. rewrite <- Hl at 1. apply (sec_open_encrypt C HC). }
    assert (HD : forall seed t x salt o m p k hdr, length seed = 32 ->
      argon2id C p salt o m = Ok k ->
      locked_seed g (EDeep t (SeedInfo (sign_pk C seed) (box_pk C seed) x) salt o m
          (sec_encrypt C k hdr seed)) p seed).
    { intros seed t x salt o m p k hdr Hl Hk. exists k. split; [done|]. split; [|done].
      rewrite <- Hl at 1. apply (sec_open_encrypt C HC). }
    destruct d as [t x|sd t x|t o m p x|sd t o m p x|t]; cbn [direct_okb direct_prog] in *;
      rewrite ?andb_true_iff, ?Nat.eqb_eq in Hd;
      unfold ignore, new_seed, insert_seed, new_deep_locked_seed, insert_deep_locked_seed,
        new_wka_tls_cert, rand, bindr; cbn [bind orelse wonly].
    - intros seed Hl hdr _. split; [|by intros [[]|]]. cbn [direct_asked].
      destruct (HS seed t x hdr Hl) as (si & ? & ?). by exists si, seed.
    - intros hdr _. split; [|by intros [[]|]]. cbn [direct_asked]. apply HS. tauto.
    - intros seed Hl salt _. destruct (argon2id C p salt o m) as [k|] eqn:Ek; [|done].
      cbn [bind orelse wonly]. intros hdr _. split; [|by intros [[]|]].
      cbn [direct_asked]. eexists _, _, _, _. split; [reflexivity|]. split; [done|]. by apply HD.
    - intros salt _. destruct (argon2id C p salt o m) as [k|] eqn:Ek; [|done].
      cbn [bind orelse wonly]. intros hdr _. split; [|by intros [[]|]].
      cbn [direct_asked]. eexists _, _, _. split; [reflexivity|]. split; [done|]. apply HD; tauto.
    - split; [|done]. intros gc Hgc. cbn [bind orelse wonly]. intros hdr _. split; [|by intros [[]|]].
      cbn [direct_asked]. eexists gc, _. split; [done|]. split; [reflexivity|].
      cbn [cert_priv]. apply (sec_open_any_encrypt C HC).
  Qed.

  Lemma direct_prog_ok L0 d w : direct_okb d = true ->
    wf g L0 true w ->
    exists rq, (forall i k dp d, rq <> ReqSign i k dp d)
      /\ (forall L e, asked g [] rq L e -> tag_of e = direct_tag d)
      /\ ok g [] [] L0 true rq w (direct_prog g d) (fun _ _ => True).
  Proof.
    intros Hd Hw. assert (Hu : w_unl w = true) by (by apply Hw).
    assert (Hbr : forall rq A (p : prog (res A)),
      ok g [] [] L0 true rq w p (fun _ _ => True) ->
      ok g [] [] L0 true rq w (ignore p) (fun _ _ => True)).
    { intros rq A p Hp. unfold ignore.
      eapply (ok_bindr _ _ _ _ _ _ _ _ _ (fun _ _ => True) (fun _ _ => True)); try done.
      eapply ok_conseq; [|exact Hp]. by intros ? []. }
    assert (Hns : forall t dd x i k dp d, ReqNewSeed [] t dd x <> ReqSign i k dp d) by done.
    assert (Hta : forall t dd x L e, asked g [] (ReqNewSeed [] t dd x) L e -> tag_of e = t).
    { intros t dd x L e (si & seed & _ & H). destruct dd as [dd|]; cbn [holds_seed] in H.
      - by destruct H as (? & ? & ? & _ & -> & _).
      - by destruct H as (? & -> & _). }
    destruct d as [t x|sd t x|t o m p x|sd t o m p x|t]; cbn [direct_okb direct_prog direct_tag] in *;
      rewrite ?andb_true_iff, ?Nat.eqb_eq in Hd.
    - exists (ReqNewSeed [] t None x). split; [done|]. split; [by eauto|]. apply Hbr. unfold new_seed.
      eapply (ok_bindr _ _ _ _ _ _ _ _ _ (fun _ b => length b = 32) (fun _ _ => False));
        [by apply ok_rand|done| |done].
      intros w1 seed Hf Hl. apply ok_insert_seed; try done; [by apply Hf|by eapply fut_unl| |].
      { intros. by exists si, seed. }
      by apply text_okb_ok.
    - exists (ReqNewSeed [] t None x). split; [done|]. split; [by eauto|]. apply Hbr.
      destruct Hd as [Hl Ht]. apply ok_insert_seed; try done; [|by apply text_okb_ok].
      intros. by exists si, sd.
    - destruct Hd as [[[Ht Ho] Hm] Hp]. apply N.ltb_lt in Ho, Hm.
      destruct (some_dlp [] p o m Hp Ho Hm) as (dl & D1 & D2 & D3 & D4).
      exists (ReqNewSeed [] t (Some dl) x). split; [done|]. split; [by eauto|]. apply Hbr.
      unfold new_deep_locked_seed.
      eapply (ok_bindr _ _ _ _ _ _ _ _ _ (fun _ b => length b = 32) (fun _ _ => False));
        [by apply ok_rand|done| |done].
      intros w1 seed Hf Hl. eapply (ok_insert_deep g HC _ _ _ _ _ _ _ _ _ _ _ _ _ dl); try done;
        [by apply Hf|by eapply fut_unl| |by apply text_okb_ok].
      intros. by exists si, seed.
    - destruct Hd as [[[[Hl Ht] Ho] Hm] Hp]. apply N.ltb_lt in Ho, Hm.
      destruct (some_dlp [] p o m Hp Ho Hm) as (dl & D1 & D2 & D3 & D4).
      exists (ReqNewSeed [] t (Some dl) x). split; [done|]. split; [by eauto|]. apply Hbr.
      eapply (ok_insert_deep g HC _ _ _ _ _ _ _ _ _ _ _ _ _ dl); try done;
        [|by apply text_okb_ok]. intros. by exists si, sd.
    - exists (ReqNewCert [] t). split; [done|]. split.
      { intros L e (gc & sec & _ & -> & _). done. }
      apply Hbr. eapply (ok_conseq _ _ _ _ _ _ _ _ (cert_stored g t)); [done|].
      apply ok_new_cert; try done; by apply text_okb_ok.
  Qed.

  (** Only entries that were asked for are added. *)
  Lemma run_direct_ok L0 rq p os Q P : forall sh L fl,
    shared_ok L sh -> L0 `prefix_of` L ->
    (forall i k dp d, rq <> ReqSign i k dp d) ->
    wonly P p ->
    ok g [] [] L0 true rq (W L true fl (sh_fb S sh)) p Q ->
    exists es, shared_ok (L ++ es) (run_direct S g sh p os)
      /\ sh_fb S (run_direct S g sh p os) = sh_fb S sh
      /\ forall e, e ∈ es -> P e /\ exists L1, asked g [] rq L1 e.
  Proof.
    revert p. induction os as [|o os IH]; intros p sh L fl HS Hp Hns Hwo Hok; cbn [run_direct].
    - exists []. rewrite app_nil_r. split; [done|]. split; [done|]. by intros ? ?%elem_of_nil.
    - destruct (step1_ok [] [] L0 true rq sh L true fl p o Q HS Hp (fun _ => eq_refl) Hok)
        as (L' & p' & B1 & B2 & B3 & B4 & B5 & B6 & B7 & B8 & B9).
      pose proof (step1_wonly P sh true p p' o Hwo B6) as Hwo'.
      set (r := step1 S g sh true p o) in *. rewrite B6.
      assert (Hfb : sh_fb S (r_sh S r) = sh_fb S sh).
      { destruct B9 as [B9|(fc & _ & (_ & _ & (dp & Hs) & _) & _)]; [done|].
        by apply Hns in Hs. }
      assert (Hu : r_unl S r = true) by (destruct B5 as [->|[-> _]]; done).
      rewrite Hu in B7.
      assert (HL' : L0 `prefix_of` L') by (by transitivity L).
      destruct (IH p' (r_sh S r) L' _ B1 HL' Hns Hwo' B7) as (es & D1 & D2 & D3).
      rewrite Hfb in D2.
      destruct B4 as [->|(e & k & -> & -> & _ & Hw)].
      + by exists es.
      + exists (e :: es). rewrite <- app_assoc in D1. split; [done|]. split; [done|].
        intros e' [->|He']%elem_of_cons; [|by auto]. split; [apply Hwo|by eauto].
  Qed.

  (** ** Every execution *)

  Definition change (s : sys S) (ev : event) (L L' : list entry) : Prop :=
    match ev with
    | EvStep cid tid _ =>
        L' = L \/ exists e c rq, L' = L ++ [e] /\ s_conns S s !! cid = Some c
          /\ c_unl S c = true /\ c_reqs S c !! tid = Some rq
          /\ asked g (c_dec S c) (rq_msg S rq) L e
    | EvDirect d _ => L' = L \/ exists e, L' = L ++ [e] /\ direct_asked d e
    | EvRestart => L' = if st_persist S SO then L else []
    | _ => L' = L
    end.

  Lemma step_inv L s ev : inv_at L s ->
    exists L', inv_at L' (step S g s ev) /\ change s ev L L'.
  Proof.
    intros HI. pose proof HI as (HS & HCs & HF).
    destruct ev as [cid rx tx|cid raw|cid tid o|cid tid e|cid|d os|]; cbn [step change].
    - exists L. split; [|done]. destruct (s_conns S s !! cid) as [c|] eqn:Ec; [done|].
      destruct (Nat.eqb (length rx) 32 && Nat.eqb (length tx) 32); [|done].
      split; [done|]. split; cbn [s_sh s_conns].
      + intros i ci. destruct (decide (i = cid)) as [->|Hne].
        * rewrite lookup_insert. intros [= <-]. apply conn_ok_connect.
        * rewrite lookup_insert_ne by done. apply HCs.
      + intros fc Hfc. eapply fb_ok_conns; [|by apply HF]. intros i ci Hi. exists ci.
        assert (i <> cid) by congruence. rewrite lookup_insert_ne by done.
        split; [done|]. split; [done|]. intros tid rq Hrq. by exists rq.
    - exists L. split; [|done]. destruct (s_conns S s !! cid) as [c|] eqn:Ec; [|done].
      by apply receive_ok.
    - destruct (s_conns S s !! cid) as [c|] eqn:Ec; [|exists L; split; [done|by left]].
      pose proof (step_thread_ok L s cid c tid o HI Ec) as H.
      destruct (step_thread S g (s_sh S s) c tid o) as [sh' c'].
      destruct H as (L' & H1 & H2). exists L'. split; [done|].
      destruct H2 as [->|(e & rq & H2)]; [by left|right]. exists e, c, rq. naive_solver.
    - exists L. split; [|done]. destruct (s_conns S s !! cid) as [c|] eqn:Ec; [|done].
      by apply abort_ok.
    - exists L. split; [|done]. destruct (s_conns S s !! cid) as [c|] eqn:Ec; [|done].
      split; [done|]. split; cbn [s_sh s_conns].
      + intros i ci. destruct (decide (i = cid)) as [->|Hne].
        * rewrite lookup_insert. intros [= <-]. pose proof (HCs cid c Ec) as H. exact H.
        * rewrite lookup_insert_ne by done. apply HCs.
      + intros fc Hfc. eapply fb_ok_insert; [exact Ec|done| |by apply HF].
        intros tid rq Hrq. by exists rq.
    - destruct (direct_okb d) eqn:Ed; [|exists L; split; [done|by left]].
      assert (Hw : wf g L true (W L true false (sh_fb S (s_sh S s)))).
      { destruct HS as (? & ? & ? & ?). split; [done|split; [done|done]]. }
      destruct (direct_prog_ok L d _ Ed Hw) as (rq & Hns & Hta & Hok).
      destruct (run_direct_ok L rq (direct_prog g d) os _ (direct_asked d)
        (s_sh S s) L false HS ltac:(done) Hns (direct_wonly d Ed) Hok)
        as (es & D1 & D2 & D3).
      exists (L ++ es). split.
      + split; [done|]. split; cbn [s_sh s_conns].
        * intros i ci Hi. eapply (conn_ok_mono L _ (s_sh S s)); [by eexists|by rewrite D2|].
          by eapply HCs.
        * intros fc. rewrite D2. apply HF.
      + destruct es as [|e es]; [left; by rewrite app_nil_r|right].
        exists e. destruct (D3 e ltac:(by left)) as [He (L1 & Ha)].
        split; [|done]. destruct es as [|e2 es]; [done|]. exfalso.
        destruct (D3 e2 ltac:(right; by left)) as [_ (L2 & Ha2)].
        apply Hta in Ha, Ha2.
        destruct D1 as (_ & HD & _). eapply distinct_tags; [exact HD|congruence].
    - exists (if st_persist S SO then L else []). split; [|done].
      destruct HS as (A1 & A2 & A3 & A4). split; [|split]; cbn.
      + split; [by apply st_reopen_ok|]. destruct (st_persist S SO).
        * split; [done|]. split; [done|]. cbn. split; [|split]; split; cbn; try lia; by intros ? ? ?%elem_of_nil.
        * split; [constructor|]. split; [done|]. cbn. split; [|split]; split; cbn; try lia; by intros ? ? ?%elem_of_nil.
      + intros i ci Hi. by rewrite lookup_empty in Hi.
      + by intros ? ?%elem_of_nil.
  Qed.

  Lemma init_inv : inv_at [] (init S).
  Proof.
    split; [|split].
    - split; [apply st_init_ok|]. split; [constructor|]. split; [done|].
      split; [|split]; split; cbn; try lia; by intros ? ? ?%elem_of_nil.
    - intros i ci Hi. cbn in Hi. by rewrite lookup_empty in Hi.
    - by intros ? ?%elem_of_nil.
  Qed.

  Lemma run_inv evs : inv (run S g evs).
  Proof.
    unfold run. assert (H : inv (init S)) by (exists []; apply init_inv). revert H.
    generalize (init S). induction evs as [|ev evs IH]; intros s Hs; [done|].
    cbn [fold_left]. apply IH. destruct Hs as [L HL].
    destruct (step_inv L s ev HL) as (L' & H & _). by exists L'.
  Qed.
End System.
