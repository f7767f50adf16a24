(** * SenderProofs: lemmas about concurrent sending *)

From Verif Require Import Base Crypto Types Codec CodecProofs CodecProofs2 System Wire Sender
  WireVocab WireProofs.
From Coq Require Import ZifyBool ZifyNat ZifyN.

Section SenderProofs.
  Variable C : Crypto.
  Hypothesis CK : CryptoOk C.

  Notation after := (after C).
  Notation holds := (holds_sender C).
  Notation holding := (holding C).
  Notation fine := fine_message.

  Definition fine_job (j : job) : Prop := match j with JSend a => fine a | JShutdown => True end.

  Definition cipher (st : ss_state C) (a : api) : bytes :=
    fst (ss_push C st TagMessage (encode_api a)).

  Lemma cipher_small st a : fits a = true -> (N.of_nat (length (cipher st a)) <= MAX_FRAME)%N.
  Proof. unfold fits, cipher. rewrite (ss_push_len C CK). lia. Qed.

  (** The frames of some messages. *)
  Fixpoint stream (st : ss_state C) (l : list api) : bytes :=
    match l with
    | [] => []
    | a :: l => frame (cipher st a) ++ stream (snd (ss_push C st TagMessage (encode_api a))) l
    end.

  Lemma after_snoc st l m : after st (l ++ [m]) = snd (ss_push C (after st l) TagMessage m).
  Proof. unfold WireVocab.after. by rewrite fold_left_app. Qed.

  Lemma stream_snoc st l a :
    stream st (l ++ [a]) = stream st l ++ frame (cipher (after st (map encode_api l)) a).
  Proof.
    revert st. induction l as [|b l IH]; intros st; cbn [app stream map].
    - by rewrite app_nil_r.
    - rewrite IH, <- app_assoc. done.
  Qed.

  Lemma messages_stream st l cs rest :
    Forall fine l -> concat cs = stream st l ++ rest ->
    exists r, concat r = rest /\
      messages C st cs = (l ++ (messages C (after st (map encode_api l)) r).1,
                          (messages C (after st (map encode_api l)) r).2).
  Proof.
    intros HF. revert st cs. induction HF as [|a l [Ha Hf] HF IH]; intros st cs E.
    - exists cs. split; [done|]. cbn [map WireVocab.after fold_left app]. by destruct (messages C st cs).
    - cbn [stream] in E. rewrite <- app_assoc in E.
      destruct (api_recv_own C CK st a (cipher st a) (snd (ss_push C st TagMessage (encode_api a)))
        cs _ Ha ltac:(unfold cipher; by destruct (ss_push C st TagMessage (encode_api a)))
        (cipher_small st a Hf) E) as (r & Hr & Er).
      destruct (IH _ _ Er) as (r' & E1 & E2). exists r'. split; [done|].
      rewrite (messages_got _ _ _ _ _ _ Hr), E2. done.
  Qed.

  (** A part of the frames of some messages. *)
  Lemma messages_stream_part st l cs :
    Forall fine l -> concat cs `prefix_of` stream st l ->
    exists k, messages C st cs = (take k l, Ended eof).
  Proof.
    intros HF. revert st cs. induction HF as [|a l [Ha Hf] HF IH]; intros st cs [k E].
    - cbn in E. symmetry in E. apply app_eq_nil in E as [E _]. exists 0. by apply messages_nil.
    - cbn [stream] in E.
      destruct (le_lt_dec (length (frame (cipher st a))) (length (concat cs))) as [Hl|Hl].
      + pose proof (whole_of _ _ _ _ E Hl) as Ed.
        destruct (api_recv_own C CK st a (cipher st a) (snd (ss_push C st TagMessage (encode_api a)))
          cs _ Ha ltac:(unfold cipher; by destruct (ss_push C st TagMessage (encode_api a)))
          (cipher_small st a Hf) Ed) as (r & Hr & Er).
        destruct (IH (ss_push C st TagMessage (encode_api a)).2 r) as (j & Hj).
        { exists k. rewrite Ed, <- app_assoc in E. apply app_inv_head in E. by rewrite E, Er. }
        exists (S j). by rewrite (messages_got _ _ _ _ _ _ Hr), Hj.
      + exists 0. apply messages_eof, (frame_recv_part _ (cipher st a)); [by apply cipher_small| |done].
        by apply (part_of _ _ _ _ E).
  Qed.

  (** ** The invariant *)

  Definition fine_phase (p : phase C) : Prop :=
    match p with
    | PWait j | PTaken j _ => fine_job j
    | PWrite a _ _ => fine a
    | PDone _ _ | PDropped => True
    | PPanic => False
    end.

  (** The bytes after the last whole frame are less than a frame. *)
  Definition fragment (b : bytes) : Prop :=
    exists c, (N.of_nat (length c) <= MAX_FRAME)%N /\ b `prefix_of` frame c
      /\ length b < length (frame c).

  Lemma fragment_nil : fragment [].
  Proof.
    exists []. split; [cbn; unfold MAX_FRAME; lia|]. split; [by apply prefix_nil|].
    rewrite frame_length. cbn. lia.
  Qed.

  (** What the holder of the sender is doing, when the transport lives: [st] is the
      state of the stream after the whole frames, [part] the bytes after them. *)
  Definition working (st : ss_state C) (part : bytes) (p : phase C) : Prop :=
    match p with
    | PTaken _ enc => enc = st /\ part = []
    | PWrite a enc todo =>
        enc = snd (ss_push C st TagMessage (encode_api a)) /\
        frame (cipher st a) = part ++ todo /\ todo <> []
    | _ => False
    end.

  Record inv (st0 : ss_state C) (order : list (nat * api)) (s : sender C) : Prop := Inv {
    i_nodup : NoDup order.*1;
    i_done : forall tid a, (tid, a) ∈ order <-> n_tasks s !! tid = Some (PDone (JSend a) (Ok tt));
    i_order : Forall fine order.*2;
    i_fine : forall tid p, n_tasks s !! tid = Some p -> fine_phase p;
    i_state : exists part,
      n_wire s = stream st0 order.*2 ++ part /\ fragment part /\
      ((n_permit s = true /\ (forall tid, ~ holding s tid) /\
        exists enc, n_slot s = Some enc /\
          (n_dead s = false -> enc = after st0 (map encode_api order.*2) /\ part = [])) \/
       (n_permit s = false /\ n_slot s = None /\
        exists h p, n_tasks s !! h = Some p /\ holds p = true /\
          (forall tid, holding s tid -> tid = h) /\
          (n_dead s = false -> working (after st0 (map encode_api order.*2)) part p)))
  }.

  Lemma inv_init st0 : inv st0 [] (sender_init C st0).
  Proof.
    split.
    - constructor.
    - intros tid a. rewrite elem_of_nil. by cbn; rewrite lookup_empty.
    - constructor.
    - intros tid p H. cbn in H. by rewrite lookup_empty in H.
    - exists []. split; [done|]. split; [apply fragment_nil|]. left. split; [done|]. split.
      + intros tid (p & Hp & _). cbn in Hp. by rewrite lookup_empty in Hp.
      + by exists st0.
  Qed.

  (** A step that changes one call, which had not succeeded and does not now. *)
  Lemma done_insert (order : list (nat * api)) (m : gmap nat (phase C)) tid p :
    (forall t a, (t, a) ∈ order <-> m !! t = Some (PDone (JSend a) (Ok tt))) ->
    (forall a, m !! tid <> Some (PDone (JSend a) (Ok tt))) ->
    (forall a, p <> PDone (JSend a) (Ok tt)) ->
    forall t a, (t, a) ∈ order <-> <[tid := p]> m !! t = Some (PDone (JSend a) (Ok tt)).
  Proof.
    intros H1 H2 H3 t a. rewrite H1. destruct (decide (t = tid)) as [->|Hn].
    - rewrite lookup_insert. split; [by intros ?%H2|]. intros [= E]. by destruct (H3 a).
    - by rewrite lookup_insert_ne.
  Qed.

  Lemma done_insert_ok (order : list (nat * api)) (m : gmap nat (phase C)) tid a0 :
    (forall t a, (t, a) ∈ order <-> m !! t = Some (PDone (JSend a) (Ok tt))) ->
    (forall a, m !! tid <> Some (PDone (JSend a) (Ok tt))) ->
    forall t a, (t, a) ∈ order ++ [(tid, a0)]
      <-> <[tid := PDone (JSend a0) (Ok tt)]> m !! t = Some (PDone (JSend a) (Ok tt)).
  Proof.
    intros H1 H2 t a. rewrite elem_of_app, elem_of_list_singleton, H1.
    destruct (decide (t = tid)) as [->|Hn].
    - rewrite lookup_insert. split.
      + intros [H|H]; [by apply H2 in H|]. by injection H as ->.
      + intros [= ->]. by right.
    - rewrite lookup_insert_ne by done. split; [|by left]. intros [H|H]; [done|].
      by injection H as -> ->.
  Qed.

  Lemma fine_insert (m : gmap nat (phase C)) tid p :
    (forall t p, m !! t = Some p -> fine_phase p) -> fine_phase p ->
    forall t q, <[tid := p]> m !! t = Some q -> fine_phase q.
  Proof.
    intros H Hp t q. destruct (decide (t = tid)) as [->|Hn].
    - rewrite lookup_insert. by intros [= <-].
    - rewrite lookup_insert_ne by done. apply H.
  Qed.

  Lemma holding_insert (m : gmap nat (phase C)) pm sl w d pm' sl' w' d' tid p t :
    holding (Snd C pm' sl' w' d' (<[tid := p]> m)) t ->
    (t = tid /\ holds p = true) \/ (t <> tid /\ holding (Snd C pm sl w d m) t).
  Proof.
    intros (q & Hq & Hh). cbn in Hq. destruct (decide (t = tid)) as [->|Hn].
    - rewrite lookup_insert in Hq. injection Hq as <-. by left.
    - rewrite lookup_insert_ne in Hq by done. right. split; [done|]. by exists q.
  Qed.

  (** An event is fair: its message is [fine], and no holder is dropped. *)
  Definition fair (s : sender C) (e : sevent) : Prop :=
    match e with
    | SvCall _ j => fine_job j
    | SvPoll _ _ _ => True
    | SvDrop tid => ~ holding s tid
    end.

  (** The three ways in which the holder's step ends. *)
  Lemma inv_finish st0 order s tid p0 j r enc pm' sl' d' :
    inv st0 order s -> n_tasks s !! tid = Some p0 -> holds p0 = true ->
    (r = Ok tt -> j = JShutdown) ->
    (n_dead s = true -> d' = true) ->
    (d' = false -> n_wire s = stream st0 order.*2 ++ [] /\
        enc = after st0 (map encode_api order.*2)) ->
    inv st0 order (finish C (Snd C pm' sl' (n_wire s) d' (n_tasks s)) tid j r enc).
  Proof.
    intros [I1 I2 I3 I4 (part & Hw & Hfr & Hst)] Ht Hh Hr Hdd Hd.
    assert (forall a, n_tasks s !! tid <> Some (PDone (JSend a) (Ok tt))) as Hnd.
    { intros a E. rewrite Ht in E. injection E as ->. done. }
    split; cbn; try done.
    - apply done_insert; [done..|]. intros a [= -> ->]. by discriminate (Hr eq_refl).
    - by apply fine_insert.
    - exists part. split; [done|]. split; [done|]. left. split; [done|]. split.
      + intros t H. apply (holding_insert _ true None [] false) in H as [[-> H]|[Hn (q & Hq & Hqh)]]; [done|].
        cbn in Hq. destruct Hst as [(_ & Hno & _)|(_ & _ & h & p & Hh1 & Hh2 & Hh3 & _)].
        * apply (Hno t). by exists q.
        * apply Hn. rewrite (Hh3 t) by (by exists q). symmetry. apply Hh3. by exists p0.
      + exists enc. split; [done|]. intros ->. destruct (Hd eq_refl) as [Hw2 ->]. split; [done|].
        rewrite Hw in Hw2. by apply app_inv_head in Hw2.
  Qed.

  Lemma sstep_inv st0 order s e :
    inv st0 order s -> fair s e -> exists o, inv st0 (order ++ o) (sstep C s e).
  Proof.
    intros HI Hfair. pose proof HI as [I1 I2 I3 I4 (part & Hw & Hfr & Hst)].
    assert (forall o, inv st0 order o -> exists x, inv st0 (order ++ x) o) as Same.
    { intros o Ho. exists []. by rewrite app_nil_r. }
    (* a step that sets the phase of a call that neither held the sender nor had succeeded *)
    assert (forall tid p, (forall q, n_tasks s !! tid = Some q -> exists j, q = PWait j) ->
      fine_phase p -> holds p = false -> (forall a, p <> PDone (JSend a) (Ok tt)) ->
      inv st0 order (set_phase C s tid p)) as Quiet.
    { intros tid p Hq Hfp Hhp Hnp.
      assert (~ holding s tid) as Hnh.
      { intros (q & Hq1 & Hq2). by destruct (Hq q Hq1) as [j ->]. }
      split; cbn; try done.
      - apply done_insert; try done. intros a E. by destruct (Hq _ E) as [j ?].
      - by apply fine_insert.
      - exists part. split; [done|]. split; [done|].
        assert (forall t, holding (set_phase C s tid p) t -> holding s t) as Hback.
        { intros t H. unfold set_phase in H.
          apply (holding_insert _ (n_permit s) (n_slot s) (n_wire s) (n_dead s)) in H
            as [[_ H]|[_ (q & Hq1 & Hq2)]]; [congruence|]. by exists q. }
        destruct Hst as [(Hp & Hno & Hs)|(Hp & Hsl & h & q & Hh1 & Hh2 & Hh3 & Hh4)].
        + left. split; [done|]. split; [|done]. intros t H. by apply Hback, Hno in H.
        + right. split; [done|]. split; [done|]. exists h, q. split; [|split; [done|]; split; [|done]].
          * rewrite lookup_insert_ne; [done|]. intros ->. apply Hnh. by exists q.
          * intros t H. apply Hh3, Hback, H. }
    destruct e as [tid j|tid k fail|tid]; cbn [sstep fair] in *.
    - (* call *)
      destruct (n_tasks s !! tid) as [p|] eqn:Et; [by apply Same|].
      apply Same, Quiet; try done. by rewrite Et.
    - (* poll *)
      unfold poll. destruct (n_tasks s !! tid) as [p|] eqn:Et; [|by apply Same].
      destruct p as [j|[a|] enc|a enc todo|j r| |]; try by apply Same.
      + (* takes the sender *)
        destruct Hst as [(Hp & Hno & enc & Hs & Henc)|(Hp & Hsl & h & q & Hh1 & Hh2 & Hh3 & Hh4)];
          rewrite Hp; [|by apply Same].
        rewrite Hs. apply Same. split; cbn; try done.
        * apply done_insert; try done. intros a E. congruence.
        * apply fine_insert; [done|]. exact (I4 _ _ Et).
        * exists part. split; [done|]. split; [done|]. right. split; [done|]. split; [done|].
          exists tid, (PTaken j enc). split; [by rewrite lookup_insert|]. split; [done|]. split.
          -- intros t H. apply (holding_insert _ (n_permit s) (n_slot s) (n_wire s) (n_dead s)) in H
               as [[-> _]|[_ (q & Hq1 & Hq2)]]; [done|]. destruct (Hno t). by exists q.
          -- done.
      + (* encrypts *)
        destruct (ss_push C enc TagMessage (encode_api a)) as [c enc'] eqn:Ep.
        pose proof (I4 _ _ Et) as [Ha Hf].
        assert (c = cipher enc a) as Ec by (unfold cipher; by rewrite Ep).
        rewrite Ec, frame_send_small by by apply cipher_small.
        destruct Hst as [(Hp & Hno & _)|(Hp & Hsl & h & q & Hh1 & Hh2 & Hh3 & Hh4)].
        { destruct (Hno tid). by exists (PTaken (JSend a) enc). }
        assert (tid = h) as -> by (apply Hh3; by exists (PTaken (JSend a) enc)).
        rewrite Et in Hh1. injection Hh1 as <-.
        apply Same. split; cbn; try done.
        * apply done_insert; try done. intros b E. congruence.
        * by apply fine_insert.
        * exists part. split; [done|]. split; [done|]. right. split; [done|]. split; [done|].
          exists h, (PWrite a enc' (frame (cipher enc a))).
          split; [by rewrite lookup_insert|]. split; [done|]. split.
          -- intros t H. apply (holding_insert _ (n_permit s) (n_slot s) (n_wire s) (n_dead s)) in H
               as [[-> _]|[_ (q & Hq1 & Hq2)]]; [done|]. apply Hh3. by exists q.
          -- intros Hd. destruct (Hh4 Hd) as [-> ->]. split; [by rewrite Ep|]. split; [done|].
             intros E. apply (f_equal length) in E. rewrite frame_length in E. cbn in E. lia.
      + (* shuts down *)
        apply Same. eapply inv_finish; try done.
      + (* writes *)
        destruct Hst as [(Hp & Hno & _)|(Hp & Hsl & h & q & Hh1 & Hh2 & Hh3 & Hh4)].
        { destruct (Hno tid). by exists (PWrite a enc todo). }
        assert (tid = h) as -> by (apply Hh3; by exists (PWrite a enc todo)).
        rewrite Et in Hh1. injection Hh1 as <-. pose proof (I4 _ _ Et) as [Ha Hf].
        destruct (n_dead s) eqn:Hdead.
        { apply Same. destruct s as [pm sl w d ts]. cbn in Hdead. subst d.
          eapply (inv_finish st0 order (Snd C pm sl w true ts)); try done. }
        destruct fail.
        { apply Same. eapply inv_finish; try done. }
        destruct (Hh4 eq_refl) as (Henc & Hfrm & Hne).
        assert (forall b, n_tasks s !! h <> Some (PDone (JSend b) (Ok tt))) as Hnd.
        { intros b E. congruence. }
        destruct (drop k todo) as [|b rest] eqn:Edrop.
        * (* finishes *)
          exists [(h, a)]. rewrite take_ge.
          2:{ apply (f_equal length) in Edrop. rewrite drop_length in Edrop. cbn in Edrop. lia. }
          split; cbn; try done.
          -- rewrite fmap_app. apply NoDup_app. split; [done|]. split.
             ++ intros t Ht1 Ht2. cbn in Ht2. apply elem_of_list_singleton in Ht2 as ->.
                apply elem_of_list_fmap in Ht1 as ((t' & b) & Ex & Ht1). cbn in Ex. subst t'.
                by apply I2, Hnd in Ht1.
             ++ apply NoDup_singleton.
          -- by apply done_insert_ok.
          -- rewrite fmap_app. apply Forall_app. split; [done|]. cbn. by constructor.
          -- by apply fine_insert.
          -- exists []. rewrite app_nil_r, fmap_app. cbn.
             rewrite stream_snoc, Hfrm, Hw, app_assoc. split; [done|]. split; [apply fragment_nil|].
             left. split; [done|]. split.
             ++ intros t H. apply (holding_insert _ (n_permit s) (n_slot s) (n_wire s) false) in H
                  as [[-> H]|[Hn (q & Hq1 & Hq2)]]; [done|]. apply Hn, Hh3. by exists q.
             ++ exists enc. split; [done|]. intros _. split; [|done].
                rewrite map_app. cbn. by rewrite after_snoc.
        * (* goes on *)
          apply Same. split; cbn; try done.
          -- by apply done_insert.
          -- by apply fine_insert.
          -- exists (part ++ take k todo). rewrite Hw, app_assoc. split; [done|].
             assert (frame (cipher (after st0 (map encode_api order.*2)) a)
                     = (part ++ take k todo) ++ b :: rest) as Hfrm2.
             { rewrite Hfrm, <- app_assoc. f_equal. rewrite <- (take_drop k todo) at 1.
               by rewrite Edrop. }
             split.
             { exists (cipher (after st0 (map encode_api order.*2)) a).
               split; [by apply cipher_small|]. rewrite Hfrm2. split; [by eexists|].
               rewrite (app_length _ (b :: rest)). cbn. lia. }
             right. split; [done|]. split; [done|]. exists h, (PWrite a enc (b :: rest)).
             split; [by rewrite lookup_insert|]. split; [done|]. split.
             ++ intros t H. apply (holding_insert _ (n_permit s) (n_slot s) (n_wire s) false) in H
                  as [[-> _]|[_ (q & Hq1 & Hq2)]]; [done|]. apply Hh3. by exists q.
             ++ intros _. split; [done|]. split; [done|]. done.
    - (* drop *)
      unfold drop_task. destruct (n_tasks s !! tid) as [p|] eqn:Et; [|by apply Same].
      destruct p as [j|j enc|a enc todo|j r| |]; try by apply Same.
      + apply Same, Quiet; try done. intros q E. injection (eq_trans (eq_sym Et) E) as <-. by exists j.
      + destruct Hfair. by exists (PTaken j enc).
      + destruct Hfair. by exists (PWrite a enc todo).
  Qed.

  (** Every event is fair at its time. *)
  Fixpoint all_fair (s : sender C) (evs : list sevent) : Prop :=
    match evs with
    | [] => True
    | e :: evs => fair s e /\ all_fair (sstep C s e) evs
    end.

  Lemma run_inv st0 order s evs :
    inv st0 order s -> all_fair s evs ->
    exists o, inv st0 (order ++ o) (fold_left (sstep C) evs s).
  Proof.
    revert order s. induction evs as [|e evs IH]; intros order s HI HF.
    - exists []. by rewrite app_nil_r.
    - destruct HF as [H1 H2]. destruct (sstep_inv _ _ _ _ HI H1) as [o Ho].
      destruct (IH _ _ Ho H2) as [o' Ho']. exists (o ++ o'). by rewrite app_assoc.
  Qed.

  Lemma all_fair_app s evs1 evs2 :
    all_fair s (evs1 ++ evs2) <->
    all_fair s evs1 /\ all_fair (fold_left (sstep C) evs1 s) evs2.
  Proof.
    revert s. induction evs1 as [|e evs IH]; intros s; cbn; [tauto|]. rewrite IH. tauto.
  Qed.

  Lemma all_fair_of st evs :
    all_fit evs -> no_holder_dropped C st evs -> all_fair (sender_init C st) evs.
  Proof.
    induction evs as [|e evs IH] using rev_ind; intros Hf Hd; [done|].
    apply all_fair_app. split.
    - apply IH.
      + intros t a H. apply (Hf t a). apply elem_of_app. by left.
      + intros e1 t e2 E. apply (Hd e1 t (e2 ++ [e])). rewrite E. by rewrite <- app_assoc.
    - split; [|done]. destruct e as [t [a|]|t k f|t]; cbn; try done.
      + apply (Hf t a). apply elem_of_app. right. by apply elem_of_list_singleton.
      + apply (Hd evs t []). done.
  Qed.

  Lemma inv_messages st0 order s cs :
    inv st0 order s -> concat cs = n_wire s -> messages C st0 cs = (order.*2, Ended eof).
  Proof.
    intros [I1 I2 I3 I4 (part & Hw & Hfr & _)] E. rewrite Hw in E.
    destruct (messages_stream st0 _ cs part I3 E) as (r & Er & ->).
    destruct Hfr as (c & Hc & Hp & Hl). rewrite <- Er in Hp, Hl.
    rewrite messages_eof; [by rewrite app_nil_r|]. by apply (frame_recv_part _ c).
  Qed.

  (** ** A call can always come to its end *)

  Lemma poll_to_done s tid p enc :
    n_tasks s !! tid = Some p -> holds p = true ->
    n_slot s = enc ->
    exists evs, all_fair s evs /\ (forall e, e ∈ evs -> exists k, e = SvPoll tid k false) /\
      (exists j r, n_tasks (fold_left (sstep C) evs s) !! tid = Some (PDone j r)) /\
      (forall t, t <> tid -> n_tasks (fold_left (sstep C) evs s) !! t = n_tasks s !! t) /\
      n_permit (fold_left (sstep C) evs s) = true /\
      is_Some (n_slot (fold_left (sstep C) evs s)).
  Proof.
    intros Ht Hh Hs.
    assert (forall s a enc todo, n_tasks s !! tid = Some (PWrite a enc todo) ->
      let s' := poll C s tid (length todo) false in
      (exists j r, n_tasks s' !! tid = Some (PDone j r)) /\
      (forall t, t <> tid -> n_tasks s' !! t = n_tasks s !! t) /\
      n_permit s' = true /\ is_Some (n_slot s')) as Hwrite.
    { clear. intros s a enc todo Ht. cbn. unfold poll. rewrite Ht.
      destruct (n_dead s); [|rewrite drop_all]; cbn;
        (split; [eexists _, _; apply lookup_insert|]); (split; [|by eauto]);
        intros t Hn; by rewrite lookup_insert_ne. }
    destruct p as [j|[a|] enc'|a enc' todo|j r| |]; try done.
    - (* encrypts, then writes *)
      destruct (ss_push C enc' TagMessage (encode_api a)) as [c enc2] eqn:Ep.
      destruct (frame_send c) as [b|e] eqn:Ef.
      + destruct (Hwrite (set_phase C s tid (PWrite a enc2 b)) a enc2 b) as (H1 & H2 & H3 & H4).
        { cbn. by rewrite lookup_insert. }
        assert (poll C s tid 0 false = set_phase C s tid (PWrite a enc2 b)) as E1.
        { unfold poll. by rewrite Ht, Ep, Ef. }
        exists [SvPoll tid 0 false; SvPoll tid (length b) false].
        cbn [fold_left sstep]. rewrite E1. split; [done|].
        split; [intros e He; set_unfold in He; destruct He as [->|[->|[]]]; by eexists|].
        split; [done|]. split; [|done]. intros t Hn. rewrite H2 by done. cbn.
        by rewrite lookup_insert_ne.
      + exists [SvPoll tid 0 false]. cbn [fold_left sstep]. unfold poll. rewrite Ht, Ep, Ef. cbn.
        split; [done|]. split; [intros x He; set_unfold in He; destruct He as [->|[]]; by eexists|].
        split; [eexists _, _; apply lookup_insert|]. split; [|by eauto].
        intros t Hn. by rewrite lookup_insert_ne.
    - exists [SvPoll tid 0 false]. cbn [fold_left sstep]. unfold poll. rewrite Ht. cbn.
      split; [done|]. split; [intros x He; set_unfold in He; destruct He as [->|[]]; by eexists|].
      split; [eexists _, _; apply lookup_insert|]. split; [|by eauto].
      intros t Hn. by rewrite lookup_insert_ne.
    - exists [SvPoll tid (length todo) false]. cbn [fold_left sstep].
      destruct (Hwrite s a enc' todo Ht) as (H1 & H2 & H3 & H4).
      split; [done|]. split; [intros x He; set_unfold in He; destruct He as [->|[]]; by eexists|].
      split; [done|]. done.
  Qed.

  Lemma waiting_ends st0 order s tid j :
    inv st0 order s -> n_tasks s !! tid = Some (PWait j) ->
    exists evs, all_fair s evs /\ (forall e, e ∈ evs -> exists t k, e = SvPoll t k false) /\
      exists j r, n_tasks (fold_left (sstep C) evs s) !! tid = Some (PDone j r).
  Proof.
    intros HI Ht.
    assert (forall s, n_permit s = true -> is_Some (n_slot s) -> n_tasks s !! tid = Some (PWait j) ->
      exists evs, all_fair s evs /\ (forall e, e ∈ evs -> exists t k, e = SvPoll t k false) /\
      exists j r, n_tasks (fold_left (sstep C) evs s) !! tid = Some (PDone j r)) as Hfree.
    { clear. intros s Hp [enc Hs] Ht.
      set (s1 := Snd C false None (n_wire s) (n_dead s) (<[tid := PTaken j enc]> (n_tasks s))).
      destruct (poll_to_done s1 tid (PTaken j enc) None) as (evs & H1 & H2 & H3 & _).
      { cbn. by rewrite lookup_insert. } { done. } { done. }
      assert (poll C s tid 0 false = s1) as E1 by (unfold poll; by rewrite Ht, Hp, Hs).
      exists (SvPoll tid 0 false :: evs). cbn [all_fair fold_left sstep]. rewrite E1.
      split; [done|]. split; [|done]. intros e He. apply elem_of_cons in He as [->|He].
      - by eexists _, _.
      - destruct (H2 e He) as [k ->]. by eexists _, _. }
    pose proof HI as [_ _ _ _ (part & _ & _ & Hst)].
    destruct Hst as [(Hp & _ & enc & Hs & _)|(Hp & Hsl & h & q & Hh1 & Hh2 & Hh3 & _)].
    - apply Hfree; [done|by exists enc|done].
    - destruct (poll_to_done s h q _ Hh1 Hh2 eq_refl) as (evs1 & F1 & F2 & _ & F4 & F5 & F6).
      destruct (Hfree (fold_left (sstep C) evs1 s) F5 F6) as (evs2 & G1 & G2 & G3).
      { rewrite F4; [done|]. intros ->. rewrite Ht in Hh1. by injection Hh1 as <-. }
      exists (evs1 ++ evs2). rewrite all_fair_app, fold_left_app. split; [done|]. split; [|done].
      intros e He. apply elem_of_app in He as [He|He]; [|by apply G2].
      destruct (F2 e He) as [k ->]. by eexists _, _.
  Qed.

  (** ** A dropped holder *)

  (** Nothing in the place of the sender, nobody holds it. *)
  Definition lost (s : sender C) : Prop :=
    n_slot s = None /\ n_permit s = true /\ forall tid, ~ holding s tid.

  Lemma lost_step s e : lost s -> lost (sstep C s e).
  Proof.
    intros (H1 & H2 & H3).
    assert (forall tid p, holds p = false -> lost (set_phase C s tid p)) as Q.
    { intros tid p Hp. split; [done|]. split; [done|]. intros t H. unfold set_phase in H.
      apply (holding_insert _ (n_permit s) (n_slot s) (n_wire s) (n_dead s)) in H
        as [[_ H]|[_ (q & Hq1 & Hq2)]]; [congruence|]. apply (H3 t). by exists q. }
    destruct e as [tid j|tid k fail|tid]; cbn [sstep].
    - destruct (n_tasks s !! tid); [done|]. by apply Q.
    - unfold poll. destruct (n_tasks s !! tid) as [p|] eqn:Et; [|done].
      destruct p as [j|[a|] enc|a enc todo|j r| |]; try done.
      + rewrite H2, H1. by apply Q.
      + destruct (H3 tid). by eexists.
      + destruct (H3 tid). by eexists.
      + destruct (H3 tid). by eexists.
    - unfold drop_task. destruct (n_tasks s !! tid) as [p|] eqn:Et; [|done].
      destruct p as [j|j enc|a enc todo|j r| |]; try done.
      + by apply Q.
      + destruct (H3 tid). by eexists.
      + destruct (H3 tid). by eexists.
  Qed.

  Lemma lost_done s e tid j r :
    lost s -> n_tasks (sstep C s e) !! tid = Some (PDone j r) -> n_tasks s !! tid = Some (PDone j r).
  Proof.
    intros (H1 & H2 & H3).
    assert (forall t p, (forall j r, p <> PDone j r) ->
      n_tasks (set_phase C s t p) !! tid = Some (PDone j r) -> n_tasks s !! tid = Some (PDone j r)) as Q.
    { intros t p Hp. cbn. destruct (decide (t = tid)) as [->|Hn].
      - rewrite lookup_insert. intros [= ->]. by destruct (Hp j r).
      - by rewrite lookup_insert_ne. }
    destruct e as [t j'|t k fail|t]; cbn [sstep].
    - destruct (n_tasks s !! t) eqn:Et; [done|]. by apply Q.
    - unfold poll. destruct (n_tasks s !! t) as [p|] eqn:Et; [|done].
      destruct p as [j0|[a|] enc|a enc todo|j0 r0| |]; try done.
      + rewrite H2, H1. by apply Q.
      + destruct (H3 t). by eexists.
      + destruct (H3 t). by eexists.
      + destruct (H3 t). by eexists.
    - unfold drop_task. destruct (n_tasks s !! t) as [p|] eqn:Et; [|done].
      destruct p as [j0|j0 enc|a enc todo|j0 r0| |]; try done.
      + by apply Q.
      + destruct (H3 t). by eexists.
      + destruct (H3 t). by eexists.
  Qed.

  Lemma lost_wire s e : lost s -> n_wire (sstep C s e) = n_wire s.
  Proof.
    intros (H1 & H2 & H3). destruct e as [tid j|tid k fail|tid]; cbn [sstep].
    - by destruct (n_tasks s !! tid).
    - unfold poll. destruct (n_tasks s !! tid) as [p|] eqn:Et; [|done].
      destruct p as [j|[a|] enc|a enc todo|j r| |]; try done.
      + by rewrite H2, H1.
      + destruct (H3 tid). by eexists.
      + destruct (H3 tid). by eexists.
    - unfold drop_task. destruct (n_tasks s !! tid) as [p|] eqn:Et; [|done].
      destruct p as [j|j enc|a enc todo|j r| |]; try done.
  Qed.

  Lemma lost_run s evs :
    lost s -> lost (fold_left (sstep C) evs s) /\ n_wire (fold_left (sstep C) evs s) = n_wire s /\
    forall tid j r, n_tasks (fold_left (sstep C) evs s) !! tid = Some (PDone j r) ->
      n_tasks s !! tid = Some (PDone j r).
  Proof.
    revert s. induction evs as [|e evs IH]; intros s HL; [done|]. cbn [fold_left].
    destruct (IH _ (lost_step s e HL)) as (H1 & H2 & H3). split; [done|]. split.
    - by rewrite H2, lost_wire.
    - intros tid j r H. by eapply lost_done, H3.
  Qed.

  Lemma drop_loses st0 order s tid :
    inv st0 order s -> holding s tid -> lost (drop_task C s tid).
  Proof.
    intros [_ _ _ _ (part & _ & _ & Hst)] Hh.
    destruct Hst as [(_ & Hno & _)|(Hp & Hsl & h & q & Hh1 & Hh2 & Hh3 & _)]; [by destruct (Hno tid)|].
    pose proof (Hh3 tid Hh) as ->. unfold drop_task. rewrite Hh1.
    assert (lost (Snd C true (n_slot s) (n_wire s) (n_dead s) (<[h := PDropped]> (n_tasks s)))) as HL.
    { split; [done|]. split; [done|]. intros t H.
      apply (holding_insert _ (n_permit s) (n_slot s) (n_wire s) (n_dead s)) in H
        as [[_ H]|[Hn (q' & Hq1 & Hq2)]]; [done|]. apply Hn, Hh3. by exists q'. }
    by destruct q.
  Qed.
End SenderProofs.
