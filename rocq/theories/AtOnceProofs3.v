(** * AtOnceProofs3: handling a request alone does what the specification says *)

From Verif Require Import Base Crypto Types Secret Store StoreProofs Lru Server System ServerSpec ServerVocab
  ServerProofs ServerProofs2 SystemProofs AnswerProofs ServerTheorems WriteProofs AtOnce AtOnceSpec AtOnceProofs AtOnceProofs2.

Section Alone.
  Variable S : store_impl.
  Variable SO : StoreOk S.
  Variable g : genv.
  Hypothesis HC : CryptoOk (g_crypto g).
  Notation rel := (st_rel S SO).

  Section Req.
    Variable enc dec : bytes.
    Variable L0 : list entry.
    Variable u0 : bool.
    Variable rq : api.
    Notation wf := (wf g L0 u0).
    Notation okp w p := (ok g enc dec L0 u0 rq w p (post g dec L0 u0 rq)).

    Definition written (ws : list entry) : Prop :=
      forall e, e ∈ ws -> asked g dec rq L0 e /\ forall e0, e0 ∈ L0 -> ~ in_common e e0.

    Lemma in_common_key e e' : in_common e e' -> exists k, k ∈ keys_of e /\ k ∈ keys_of e'.
    Proof.
      intros [E|[(pk & E & E')|(pk & E & E')]].
      - exists (ByTag (tag_of e)). split; [apply keys_tag|]. rewrite E. apply keys_tag.
      - exists (ByEd pk). split; by apply ed_key.
      - exists (ByX pk). split; by apply x_key.
    Qed.

    Lemma here w : wf w -> fut g L0 u0 w w.
    Proof. intros H. by apply fut_refl. Qed.

    Lemma alone s u p fb s' u' m : at_once S g (msg_id rq) s u p fb s' u' m ->
      forall L ws acc, rel s L -> L = L0 ++ ws -> written ws -> wf (W L u false acc) ->
        (u0 = u \/ (u = true /\ may_unlock g dec rq)) ->
        (forall fc, fc ∈ acc -> exists dp, g_fallback g = true /\ u0 = true /\ rq = ReqSign (fb_id fc) (fb_pk fc) dp (fb_data fc)
           /\ forall e, e ∈ L0 -> ed_of e <> Some (fb_pk fc)) ->
        okp (W L u false acc) p -> wr (tells rq) ws p ->
        exists L' ws', rel s' L' /\ L' = L0 ++ ws' /\ written ws' /\ wf (W L' u' false (acc ++ fb))
          /\ (u0 = u' \/ (u' = true /\ may_unlock g dec rq))
          /\ (forall fc, fc ∈ acc ++ fb -> exists dp, g_fallback g = true /\ u0 = true /\ rq = ReqSign (fb_id fc) (fb_pk fc) dp (fb_data fc)
             /\ forall e, e ∈ L0 -> ed_of e <> Some (fb_pk fc))
          /\ good g enc dec L0 u0 rq (W L' u' false (acc ++ fb)) m
          /\ (if is_error m then ws' = [] /\ exists e, m = ResError (msg_id rq) e /\ excuse g dec L0 u0 rq (W L' u' false (acc ++ fb)) else tells rq ws' m).
    Proof.
      induction 1 as [s u m k|s u e|s u k fb s' u' m H IH|s u k fb s' u' m H IH|s u n b k fb s' u' m Hn H IH
        |s u e k fb s' u' m H IH|s u k fb s' u' m H IH|s u q k fb s' u' m H IH|s u q k fb s' u' m H IH
        |s u f k fb s' u' m H IH|s u gc k fb s' u' m Hg Hgc H IH|s u i pk d k r fb s' u' m Hr H IH];
        intros L ws acc HR HL Hw Hwf Hu Hfb Hok Hwr; cbn [ok wr] in Hok, Hwr;
        pose proof (here _ Hwf) as Hh.
      - rewrite app_nil_r. destruct (Hok _ Hh) as [Hgood _].
        exists L, ws. do 7 (split; [done|]). destruct Hwr as [E Hwr]. rewrite E. by split.
      - rewrite app_nil_r. destruct Hwr as [_ ->]. pose proof (Hok _ Hh eq_refl) as Hx.
        exists L, []. do 6 (split; [done|]). split; [right; by exists e|]. cbn. split; [done|]. by exists e.
      - eapply IH; try done; by apply (Hok _ Hh).
      - destruct Hok as [Hmay Hok].
        assert (Hwf' : wf (W L true false acc)) by (destruct Hwf as (A & _ & B & D); by split).
        eapply IH; try done; [by right|]. apply Hok; [|done]. split; [|done]. by repeat split.
      - eapply IH; try done; by apply (Hok _ b Hh).
      - destruct Hok as [[Hse [Hun Has]] Hok]. destruct Hwr as (-> & W1 & W2).
        pose proof (st_write_ok S SO s L e HR (proj1 Hse)) as Hwt.
        destruct (st_write S s e) as [r s1]. cbn [fst snd] in *. unfold spec_write in Hwt.
        destruct (taken L e) eqn:Et.
        + destruct Hwt as [Hr HR']. destruct r as [[]|er]; [done|].
          eapply IH; try done. apply (Hok _ Hh). by right.
        + destruct Hwt as [-> HR']. rewrite app_nil_r in HL. subst L. cbn [w_L w_unl] in Has, Hun.
          assert (Hd' : distinct (L0 ++ [e])) by (apply distinct_snoc; [apply Hwf|done]).
          assert (Hwf' : wf (W (L0 ++ [e]) u false acc)).
          { destruct Hwf as (A & B & D & E). split; [by eexists|]. split; [done|]. split; [|done].
            apply Forall_app. split; [done|]. by apply Forall_singleton. }
          eapply (IH (L0 ++ [e]) [e] acc); try done.
          * intros e1 ->%elem_of_list_singleton. split; [done|]. intros e0 He0 (q & K1 & K2)%in_common_key.
            by eapply distinct_clash.
          * apply Hok; [|cbn; apply elem_of_app; right; by left]. split; [|done].
            split; [cbn; by eexists|]. by repeat split.
      - destruct (st_list_ok S SO _ _ HR) as (l & El & Hp). rewrite El in *.
        eapply IH; try done; by apply (Hok _ Hh).
      - pose proof (st_get_ok S SO _ _ q HR) as Hg.
        destruct (spec_get L q) as [e|] eqn:Eg.
        + rewrite Hg in *. eapply IH; try done.
          apply find_some in Eg as [Eg1 Eg2]. apply (Hok _ Hh); [by apply elem_of_list_In|]. by apply under_keys.
        + destruct (st_get S s q) as [e|er]; [done|]. eapply IH; try done.
          apply (Hok _ Hh). right. intros e He Hk. apply under_keys in Hk.
          apply elem_of_list_In in He. rewrite (find_none _ _ Eg e He) in Hk. done.
      - eapply IH; try done; by apply (Hok _ Hh).
      - eapply IH; try done; by apply Hok.
      - eapply IH; try done; by apply (Hok _ Hh).
      - destruct (Hok _ Hh) as [(F1 & F2 & (dp & F3) & F4) Hok'].
        change (FbCall i pk d r :: fb) with ([FbCall i pk d r] ++ fb). rewrite app_assoc.
        assert (Hwf' : wf (W L u false (acc ++ [FbCall i pk d r]))) by (destruct Hwf as (A & B & D & E); by split).
        eapply IH; try done.
        + intros fc [Hin| ->%elem_of_list_singleton]%elem_of_app; [by apply Hfb|]. exists dp. cbn.
          split; [done|]. cbn in F2. split; [|split; [done|]].
          * destruct Hu as [->|[_ (? & ? & Hx & _)]]; [done|]. rewrite F3 in Hx. done.
          * destruct F4 as [F4|F4]; [done|]. intros e He Ee. apply (F4 e He). by apply ed_key.
        + apply Hok'; [|cbn; apply elem_of_app; right; by left|done]. split; [|done].
          split; [done|]. split; [done|]. split; [done|]. cbn. by eexists.
    Qed.

    Lemma unlock_alone i s st0 u fb s' u' m : rq = ReqUnlock i s ->
      at_once S g (msg_id rq) st0 u (dispatch g enc dec rq) fb s' u' m -> u' = u || unlocks m.
    Proof.
      intros ->. cbn [dispatch]. unfold h_unlock. destruct (unlock_pk g dec s) as [pk|e]; cbn [orelse].
      - destruct (beq (g_id_pk g) pk); intros H.
        + inversion H; subst. unfold send in *. match goal with H : at_once _ _ _ _ _ (Send _ _) _ _ _ _ |- _ => inversion H; subst end.
          cbn. by rewrite orb_true_r.
        + unfold fail in H. inversion H; subst. cbn. by rewrite orb_false_r.
      - intros H. inversion H; subst. cbn. by rewrite orb_false_r.
    Qed.
  End Req.

  Lemma handled_alone enc dec rq L u s fb s' u' m :
    rel s L -> distinct L -> Forall (stored_ok g) L -> api_ok rq ->
    at_once S g (msg_id rq) s u (dispatch g enc dec rq) fb s' u' m ->
    exists L', rel s' L' /\ distinct L' /\ Forall (stored_ok g) L' /\ handled g enc dec rq L u fb L' u' m.
  Proof.
    intros HR Hd Hs Ha H.
    assert (Hwf : wf g L u (W L u false [])) by (by split).
    destruct (alone enc dec L u rq _ _ _ _ _ _ _ H L [] []) as (L' & ws & R' & -> & Hw & Hwf' & Hu & Hfb & Hg & Hm); try done.
    { by rewrite app_nil_r. }
    { by intros e ?%elem_of_nil. }
    { by left. }
    { by intros e ?%elem_of_nil. }
    { by apply dispatch_ok. }
    { apply wr_dispatch. }
    rewrite app_nil_l in *.
    exists (L ++ ws). split; [done|]. split; [apply Hwf'|]. split; [apply Hwf'|].
    assert (Eu : u' = u || unlocks m).
    { destruct rq as [| |i s0| | | | | | | | | | | | | | | | | | | | | | | | | | | | | | | | ] eqn:Erq.
      all: try (by eapply (unlock_alone enc dec _ _ _ s u fb s' u' m eq_refl H)).
      all: destruct Hu as [->|[_ (? & ? & Hx & _)]]; [|done].
      all: destruct (is_error m) eqn:Ee; [destruct Hm as [_ (e & -> & _)]; by rewrite orb_false_r|].
      all: destruct Hg as [[_ Hg]|(e & -> & _)]; [|done].
      all: destruct m; try done; by rewrite orb_false_r. }
    split; [done|]. split; [|split].
    - unfold stores. destruct (is_error m) eqn:Ee; cbn.
      + destruct Hm as [-> _]. by rewrite app_nil_r.
      + destruct Hm as [_ Hm]. destruct (creating rq).
        * destruct Hm as (e & -> & Hde). exists e. split; [done|]. split; [done|]. apply Hw. by left.
        * rewrite Hm. by rewrite app_nil_r.
    - intros fc Hin. destruct (Hfb fc Hin) as (dp & F1 & F2 & F3 & F4). split; [done|]. split; [done|]. split; [by exists dp|done].
    - unfold right_now. destruct (is_error m) eqn:Ee.
      + destruct Hm as [-> (e & -> & Hx)]. split; [done|]. rewrite app_nil_r in Hx.
        destruct Hx as [Hx|[Hx|Hx]]; [done|by left|]. right.
        assert (E1 : u' = u) by (rewrite Eu; by rewrite orb_false_r). by rewrite E1 in Hx.
      + destruct Hg as [Hg|(e & -> & _)]; [|done]. split; [|done].
        intros Ho. destruct Hu as [->|[_ (? & ? & -> & _)]]; [|done].
        destruct Hg as [_ Hg]. destruct rq; try done; destruct m; try done; by destruct Hg as [Hg _].
  Qed.

  Lemma request_ok_msg evs cid c tid r : conn_at S g evs cid c -> received S c tid r -> api_ok (rq_msg S r).
  Proof.
    intros Hc Hr. destruct (run_both S SO g HC evs) as (L & (_ & HL & _) & _).
    destruct (HL cid c Hc) as (H & _). by destruct (H tid r Hr) as (L1 & _ & _ & _ & _ & H1 & _).
  Qed.

  Lemma rel_just evs L : rel (store_at S g evs) L -> distinct L -> holds_just g S evs L.
  Proof.
    intros HR Hd. split; [by apply distinct_NoDup|]. intros e. unfold ServerVocab.stored. by apply (rel_holds S SO).
  Qed.

  Lemma instant_spec evs cid tid rq m : instant S g evs cid tid rq m -> one_instant g S evs cid tid rq m.
  Proof.
    intros (pre & o & post & c & c' & r & fb & H1 & H2 & H3 & H4 & H5 & H6 & H7 & H8 & H9 & H10).
    destruct (run_both S SO g HC pre) as (L & ((HR & Hd & Hs & _) & _) & _).
    assert (Ha : api_ok rq) by (rewrite <- H5; exact (request_ok_msg pre cid c tid r H3 H4)).
    destruct (handled_alone (c_enc S c) (c_dec S c) rq L (c_unl S c) _ fb _ (c_unl S c') m HR Hd Hs Ha H8) as (L' & R' & D' & _ & Hh).
    exists pre, o, post, c, c', r, fb, L, L'. do 7 (split; [done|]). split; [by apply rel_just|]. split; [by apply rel_just|]. done.
  Qed.

  Lemma in_turn_spec keys ts : forall s us s' us' L, in_turn S g keys ts s us s' us' ->
    rel s L -> distinct L -> Forall (stored_ok g) L -> (forall t, t ∈ ts -> api_ok (tu_rq t)) ->
    exists L', rel s' L' /\ distinct L' /\ served g keys ts L us L' us'.
  Proof.
    intros s us s' us' L H. revert L. induction H as [s us us' E|cid tid rq m fb ts s us s1 u1 s2 us2 Ha Ht IH]; intros L HR Hd Hs Hok.
    - exists L. split; [done|]. split; [done|]. by constructor.
    - assert (Hrq : api_ok rq) by (apply (Hok (Turn cid tid rq m)); by left).
      destruct (handled_alone _ _ rq L _ s fb s1 u1 m HR Hd Hs Hrq Ha) as (L1 & R1 & D1 & S1 & Hh).
      destruct (IH L1 R1 D1 S1) as (L2 & R2 & D2 & Hsv).
      { intros t Hin. apply Hok. by right. }
      exists L2. split; [done|]. split; [done|]. by econstructor.
  Qed.
End Alone.
