(** * C36: every request handed to the fallback signer ends, with its own answer *)

From Verif Require Import Base Base64 Fallback.
From Coq Require Import ZifyBool ZifyNat ZifyN.

(** ** Vocabulary *)

(** The line [l] says [r] about the request with id [id]: a signature of the right size, an error,
    or something that should be a signature but is not. *)
Definition proper (s sig : bytes) : Prop := from_b64std s = Ok sig /\ length sig = 64.
Definition says (l : line) (id : bytes) (r : res bytes) : Prop :=
  match r with
  | Ok sig => exists s, l = Reply id (Some s) None /\ proper s sig
  | Err e => (exists s, l = Reply id s (Some e))
      \/ (exists s, l = Reply id (Some s) None /\ forall sig, ~ proper s sig)
  end.

(** Call [k] ended with [o]. *)
Definition over (w : fworld) (k : nat) (o : fout) : Prop := exists c, f_calls w !! k = Some c /\ fc_st c = FEnd o.

(** The request of call [k] was taken to be written to program [g]. *)
Definition put_to (w : fworld) (k g : nat) : Prop := exists p, f_programs w !! g = Some p /\ k ∈ g_put p.
(** Line [n] of program [g] is [l], and was read. *)
Definition printed (w : fworld) (g n : nat) (l : line) : Prop :=
  exists p, f_programs w !! g = Some p /\ g_lines p !! n = Some l /\ n < g_nread p.

(** Events that happen by themselves, without anyone outside doing anything. *)
Definition by_itself (e : fevent) : Prop :=
  match e with
  | Get _ _ | Push _ | Take _ | WFail _ | WForget _ | WEnd _ | Read _ | LForget _ | Drain _ | Poll _ => True
  | _ => False
  end.
Definition quiet (w : fworld) : Prop := forall e, by_itself e -> fstep w e = None.

(** ** The invariant *)

Definition good (w : fworld) (k : nat) (c : fcall) (s : nat * nat) (r : res bytes) : Prop :=
  exists p l, f_programs w !! s.1 = Some p /\ g_lines p !! s.2 = Some l /\ s.2 < g_nread p /\ k ∈ g_put p
    /\ exists b, verdict l = (Some (s_id (fc_req c), Some r), b).

Record finv (w : fworld) : Prop := {
  v_cur : forall g, f_cur w = Some g -> g < length (f_programs w);
  v_gen : forall k c g, f_calls w !! k = Some c -> fc_st c = FSend g \/ fc_st c = FWait g -> g < length (f_programs w);
  v_pend : forall g p id k, f_programs w !! g = Some p -> g_pending p !! id = Some k ->
    exists c, f_calls w !! k = Some c /\ s_id (fc_req c) = id /\ k ∈ g_put p;
  v_cover : forall g p k c, f_programs w !! g = Some p -> f_calls w !! k = Some c ->
    fc_st c = FWait g -> fc_mail c = NoMail -> k ∈ g_queue p \/ g_pending p !! s_id (fc_req c) = Some k;
  v_read : forall g p, f_programs w !! g = Some p -> (g_running p = false <-> g_read p = LDone);
  v_empty : forall g p, f_programs w !! g = Some p -> g_running p = false -> g_pending p = ∅;
  v_done : forall g p, f_programs w !! g = Some p -> g_write p = WDone -> g_queue p = [];
  v_queue : forall g p k, f_programs w !! g = Some p -> k ∈ g_queue p \/ g_write p = WWrite k -> k < length (f_calls w);
  v_told : forall k c s r, f_calls w !! k = Some c -> fc_mail c = Told (Some s) r -> good w k c s r;
  v_self : forall k c r, f_calls w !! k = Some c -> fc_mail c = Told None r -> exists e, r = Err e;
  v_once : forall k1 c1 k2 c2 s r1 r2, f_calls w !! k1 = Some c1 -> f_calls w !! k2 = Some c2 ->
    fc_mail c1 = Told (Some s) r1 -> fc_mail c2 = Told (Some s) r2 -> k1 = k2;
  v_end : forall k c s r, f_calls w !! k = Some c -> fc_st c = FEnd (Answered s r) -> fc_mail c = Told s r
}.

Lemma mail_req m c : fc_req (mail_to m c) = fc_req c.
Proof. by destruct c as [? ? []]. Qed.
Lemma mail_st m c : fc_st (mail_to m c) = fc_st c.
Proof. by destruct c as [? ? []]. Qed.
Lemma mail_mail m c : fc_mail (mail_to m c) = m \/ fc_mail (mail_to m c) = fc_mail c /\ fc_mail c <> NoMail.
Proof. destruct c as [? ? []]; cbn; auto. Qed.

(** A message that does not come from the program, to any calls. *)
Definition own (m : fmail) : Prop := m = Lost \/ exists e, m = Told None (Err e).

Lemma finv_mail w m cs : finv w -> own m -> length cs = length (f_calls w) ->
  (forall k c', cs !! k = Some c' -> exists c, f_calls w !! k = Some c /\ (c' = c \/ c' = mail_to m c)) ->
  finv (set_calls w cs).
Proof.
  intros I Hm Hlen Hcs.
  assert (forall k c', cs !! k = Some c' -> exists c, f_calls w !! k = Some c /\ fc_req c' = fc_req c /\ fc_st c' = fc_st c
    /\ (fc_mail c' = fc_mail c \/ fc_mail c = NoMail /\ fc_mail c' = m)) as Hx.
  { intros k c' H. destruct (Hcs k c' H) as (c & Hc & [->| ->]); exists c; [by auto|].
    rewrite mail_req, mail_st. split; [done|]. split; [done|]. split; [done|]. destruct c as [? ? []]; cbn; auto. }
  destruct I. split; cbn; try done.
  - intros k c' g H Hst. destruct (Hx k c' H) as (c & Hc & E & Es & _). rewrite Es in Hst. by eapply v_gen0.
  - intros g p id k Hp Hk. destruct (v_pend0 _ _ _ _ Hp Hk) as (c & Hc & Hid & Hput).
    destruct (cs !! k) as [c'|] eqn:E; [|apply lookup_ge_None in E; apply lookup_lt_Some in Hc; lia].
    exists c'. destruct (Hx k c' E) as (c2 & Hc2 & Er & _). rewrite Er. naive_solver.
  - intros g p k c' Hp H Hst Hno. destruct (Hx k c' H) as (c & Hc & E & Es & Hml). rewrite E. rewrite Es in Hst.
    eapply v_cover0; [done|done|done|]. destruct Hml as [<-|[? ?]]; done.
  - intros g p k Hp Hk. rewrite Hlen. by eapply v_queue0.
  - intros k c' s r H Ht. destruct (Hx k c' H) as (c & Hc & E & Es & Hml).
    destruct Hml as [Hml|[_ Hml]]; [|destruct Hm as [->|[e ->]]; congruence].
    rewrite Hml in Ht. destruct (v_told0 _ _ _ _ Hc Ht) as (p & l & ? & ? & ? & ? & b & ?). exists p, l. rewrite E. naive_solver.
  - intros k c' r H Ht. destruct (Hx k c' H) as (c & Hc & E & Es & Hml).
    destruct Hml as [Hml|[_ Hml]]; [rewrite Hml in Ht; by eapply v_self0|].
    destruct Hm as [->|[e ->]]; [congruence|]. exists e. congruence.
  - intros k1 c1 k2 c2 s r1 r2 H1 H2 T1 T2.
    destruct (Hx k1 c1 H1) as (d1 & D1 & _ & _ & M1), (Hx k2 c2 H2) as (d2 & D2 & _ & _ & M2).
    destruct M1 as [M1|[_ M1]]; [|destruct Hm as [->|[e ->]]; congruence].
    destruct M2 as [M2|[_ M2]]; [|destruct Hm as [->|[e ->]]; congruence].
    rewrite M1 in T1. rewrite M2 in T2. by eapply v_once0.
  - intros k c' s r H He. destruct (Hx k c' H) as (c & Hc & E & Es & Hml). rewrite Es in He.
    pose proof (v_end0 _ _ _ _ Hc He) as Hk. destruct Hml as [->|[Hn _]]; [done|congruence].
Qed.

Lemma finv_tell_own w k m : finv w -> own m -> finv (tell w k m).
Proof.
  intros I Hm. apply finv_mail with m; [done|done|by rewrite alter_length|].
  intros j c' H. destruct (decide (j = k)) as [->|Hne].
  - rewrite list_lookup_alter in H. destruct (f_calls w !! k) as [c|]; [|done]. exists c. injection H as <-. auto.
  - rewrite list_lookup_alter_ne in H by done. exists c'. auto.
Qed.
Lemma finv_tell_opt w k m : finv w -> own m -> finv (tell_opt w k m).
Proof. destruct k; [apply finv_tell_own|done]. Qed.
Lemma finv_tell_if w P m : finv w -> own m -> finv (tell_if w P m).
Proof.
  intros I Hm. apply finv_mail with m; [done|done|by rewrite imap_length|].
  intros j c' H. rewrite list_lookup_imap in H. destruct (f_calls w !! j) as [c|]; [|done]. exists c.
  cbn in H. injection H as <-. destruct (P j c); auto.
Qed.

(** What the line read says. *)
Lemma finv_tell w k c s r : finv w -> f_calls w !! k = Some c -> good w k c s r ->
  (forall j d r', f_calls w !! j = Some d -> fc_mail d <> Told (Some s) r') -> finv (tell w k (Told (Some s) r)).
Proof.
  intros I Hk Hg Hfresh.
  assert (forall j c', f_calls (tell w k (Told (Some s) r)) !! j = Some c' -> exists c, f_calls w !! j = Some c /\ fc_req c' = fc_req c
    /\ fc_st c' = fc_st c /\ (fc_mail c' = fc_mail c \/ j = k /\ fc_mail c = NoMail /\ fc_mail c' = Told (Some s) r)) as Hx.
  { intros j c' H. cbn in H. destruct (decide (j = k)) as [->|Hne].
    - rewrite list_lookup_alter, Hk in H. injection H as <-. exists c. rewrite mail_req, mail_st.
      split; [done|]. split; [done|]. split; [done|]. destruct c as [? ? []]; cbn; auto.
    - rewrite list_lookup_alter_ne in H by done. exists c'. auto. }
  pose proof (alter_length (mail_to (Told (Some s) r)) (f_calls w) k) as Hlen.
  destruct I. split; cbn [tell set_calls f_cur f_programs]; try done.
  - intros j c' g H Hst. destruct (Hx j c' H) as (d & Hc & E & Es & _). rewrite Es in Hst. by eapply v_gen0.
  - intros g p id j Hp Hj. destruct (v_pend0 _ _ _ _ Hp Hj) as (d & Hd & Hid & Hput).
    destruct (f_calls (tell w k (Told (Some s) r)) !! j) as [c'|] eqn:E; [|apply lookup_ge_None in E; apply lookup_lt_Some in Hd; cbn in E; lia].
    exists c'. destruct (Hx j c' E) as (c2 & Hc2 & Er & _). rewrite Er. naive_solver.
  - intros g p j c' Hp H Hst Hno. destruct (Hx j c' H) as (d & Hd & E & Es & Hml). rewrite E. rewrite Es in Hst.
    eapply v_cover0; [done|done|done|]. destruct Hml as [<-|(? & ? & ?)]; done.
  - intros g p j Hp Hj. cbn. rewrite Hlen. by eapply v_queue0.
  - intros j c' s' r' H Ht. destruct (Hx j c' H) as (d & Hd & E & Es & Hml).
    destruct Hml as [Hml|(-> & _ & Hml)].
    + rewrite Hml in Ht. destruct (v_told0 _ _ _ _ Hd Ht) as (p & l & ? & ? & ? & ? & b & ?). exists p, l. rewrite E. naive_solver.
    + rewrite Ht in Hml. injection Hml as -> ->. rewrite Hk in Hd. injection Hd as <-.
      destruct Hg as (p & l & ? & ? & ? & ? & b & ?). exists p, l. rewrite E. naive_solver.
  - intros j c' r' H Ht. destruct (Hx j c' H) as (d & Hd & E & Es & Hml).
    destruct Hml as [Hml|(_ & _ & Hml)]; [|congruence]. rewrite Hml in Ht. by eapply v_self0.
  - intros k1 c1 k2 c2 s' r1 r2 H1 H2 T1 T2.
    destruct (Hx k1 c1 H1) as (d1 & D1 & _ & _ & M1), (Hx k2 c2 H2) as (d2 & D2 & _ & _ & M2).
    destruct M1 as [M1|(-> & _ & M1)], M2 as [M2|(-> & _ & M2)]; [| | |done].
    + rewrite M1 in T1. rewrite M2 in T2. by eapply v_once0.
    + rewrite M1 in T1. rewrite T2 in M2. injection M2 as -> ->. by destruct (Hfresh _ _ r1 D1).
    + rewrite M2 in T2. rewrite T1 in M1. injection M1 as -> ->. by destruct (Hfresh _ _ r2 D2).
  - intros j c' s' r' H He. destruct (Hx j c' H) as (d & Hd & E & Es & Hml). rewrite Es in He.
    pose proof (v_end0 _ _ _ _ Hd He) as Hj. destruct Hml as [->|(_ & Hn & _)]; [done|congruence].
Qed.

(** A program changes. *)
Lemma finv_prog w g p p' : finv w -> f_programs w !! g = Some p ->
  (forall k, k ∈ g_queue p' \/ g_write p' = WWrite k -> k < length (f_calls w)) ->
  (forall k c, f_calls w !! k = Some c -> fc_st c = FWait g -> fc_mail c = NoMail ->
    k ∈ g_queue p \/ g_pending p !! s_id (fc_req c) = Some k -> k ∈ g_queue p' \/ g_pending p' !! s_id (fc_req c) = Some k) ->
  (forall id k, g_pending p' !! id = Some k -> exists c, f_calls w !! k = Some c /\ s_id (fc_req c) = id /\ k ∈ g_put p') ->
  (g_running p' = false <-> g_read p' = LDone) ->
  (g_running p' = false -> g_pending p' = ∅) ->
  (g_write p' = WDone -> g_queue p' = []) ->
  g_lines p `prefix_of` g_lines p' -> g_nread p <= g_nread p' -> g_put p ⊆ g_put p' ->
  finv (set_g w g p').
Proof.
  intros I Hp Hq Hcover Hpend Hrd Hempty Hdone Hlines Hn Hput.
  assert (g < length (f_programs w)) as Hg by (by eapply lookup_lt_Some).
  assert (forall h q, f_programs (set_g w g p') !! h = Some q -> h = g /\ q = p' \/ h <> g /\ f_programs w !! h = Some q) as Hx.
  { intros h q H. cbn in H. destruct (decide (h = g)) as [->|Hne].
    - rewrite list_lookup_insert in H by done. injection H as <-. auto.
    - rewrite list_lookup_insert_ne in H by done. auto. }
  destruct I. split; cbn [set_g f_cur f_calls f_programs] in *.
  - rewrite insert_length. done.
  - rewrite insert_length. done.
  - intros h q id k Hh Hk. destruct (Hx _ _ Hh) as [[-> ->]|[_ Hh']]; [by apply Hpend|by eapply v_pend0].
  - intros h q k c Hh Hk Hst Hno. destruct (Hx _ _ Hh) as [[-> ->]|[_ Hh']]; [|by eapply v_cover0].
    eapply Hcover; [done..|]. by eapply v_cover0.
  - intros h q Hh. destruct (Hx _ _ Hh) as [[-> ->]|[_ Hh']]; [done|by eapply v_read0].
  - intros h q Hh. destruct (Hx _ _ Hh) as [[-> ->]|[_ Hh']]; [done|by eapply v_empty0].
  - intros h q Hh. destruct (Hx _ _ Hh) as [[-> ->]|[_ Hh']]; [done|by eapply v_done0].
  - intros h q k Hh. destruct (Hx _ _ Hh) as [[-> ->]|[_ Hh']]; [by apply Hq|by eapply v_queue0].
  - intros k c s r Hk Ht. destruct (v_told0 _ _ _ _ Hk Ht) as (q & l & Hq' & Hl & Hnr & Hpu & b & Hb).
    unfold good. cbn [f_programs set_g]. destruct (decide (s.1 = g)) as [E|Hne].
    + subst g. rewrite Hp in Hq'. injection Hq' as <-. exists p', l.
      rewrite list_lookup_insert by done. split; [done|]. split; [by eapply prefix_lookup|]. split; [lia|].
      split; [by apply Hput|]. by exists b.
    + exists q, l. rewrite list_lookup_insert_ne by done. split; [done|]. split; [done|]. split; [done|]. split; [done|]. by exists b.
  - done.
  - done.
  - done.
Qed.

(** A call moves on, with the message it has. *)
Lemma finv_state w k c st : finv w -> f_calls w !! k = Some c ->
  (forall g, st = FSend g \/ st = FWait g -> g < length (f_programs w)) ->
  (forall g p, st = FWait g -> f_programs w !! g = Some p -> fc_mail c = NoMail ->
    k ∈ g_queue p \/ g_pending p !! s_id (fc_req c) = Some k) ->
  (forall s r, st = FEnd (Answered s r) -> fc_mail c = Told s r) ->
  finv (set_c w k (FCall (fc_req c) st (fc_mail c))).
Proof.
  intros I Hk Hgen Hcov Hans.
  assert (k < length (f_calls w)) as Hl by (by eapply lookup_lt_Some).
  assert (forall j d, f_calls (set_c w k (FCall (fc_req c) st (fc_mail c))) !! j = Some d ->
    exists d0, f_calls w !! j = Some d0 /\ fc_req d = fc_req d0 /\ fc_mail d = fc_mail d0
      /\ (j = k /\ d0 = c /\ fc_st d = st \/ fc_st d = fc_st d0)) as Hx.
  { intros j d H. cbn in H. destruct (decide (j = k)) as [->|Hne].
    - rewrite list_lookup_insert in H by done. injection H as <-. exists c. cbn. auto 10.
    - rewrite list_lookup_insert_ne in H by done. exists d. auto. }
  destruct I. split; cbn [set_c set_calls f_cur f_programs] in *; try done.
  - intros j d g H Hst. destruct (Hx _ _ H) as (d0 & Hd & _ & _ & [(_ & _ & E)|E]); rewrite E in Hst; [by apply Hgen|by eapply v_gen0].
  - intros g p id j Hp Hj. destruct (v_pend0 _ _ _ _ Hp Hj) as (d & Hd & Hid & Hput). cbn [set_c set_calls f_calls].
    destruct (decide (j = k)) as [->|Hne].
    + rewrite list_lookup_insert by done. eexists. split; [done|]. cbn. rewrite Hk in Hd. injection Hd as <-. done.
    + rewrite list_lookup_insert_ne by done. by exists d.
  - intros g p j d Hp H Hst Hno. destruct (Hx _ _ H) as (d0 & Hd & Er & Em & [(-> & -> & E)|E]).
    + rewrite Er. rewrite E in Hst. eapply Hcov; [done|done|congruence].
    + rewrite Er. eapply v_cover0; [done|done|congruence|congruence].
  - intros g p j Hp Hj. cbn. rewrite insert_length. by eapply v_queue0.
  - intros j d s r H Ht. destruct (Hx _ _ H) as (d0 & Hd & Er & Em & _). rewrite Em in Ht.
    destruct (v_told0 _ _ _ _ Hd Ht) as (q & l & Hq' & Hl' & Hnr & Hpu & b & Hb). exists q, l. rewrite Er. naive_solver.
  - intros j d r H Ht. destruct (Hx _ _ H) as (d0 & Hd & Er & Em & _). rewrite Em in Ht. by eapply v_self0.
  - intros k1 c1 k2 c2 s r1 r2 H1 H2 T1 T2.
    destruct (Hx _ _ H1) as (d1 & D1 & _ & M1 & _), (Hx _ _ H2) as (d2 & D2 & _ & M2 & _).
    rewrite M1 in T1. rewrite M2 in T2. by eapply v_once0.
  - intros j d s r H He. destruct (Hx _ _ H) as (d0 & Hd & Er & Em & [(-> & -> & E)|E]).
    + rewrite Em. apply Hans. congruence.
    + rewrite Em. eapply v_end0; [done|congruence].
Qed.

Lemma finv_fend w k o : finv w ->
  (forall c s r, f_calls w !! k = Some c -> o = Answered s r -> fc_mail c = Told s r) -> finv (fend w k o).
Proof.
  intros I Ho. destruct (f_calls w !! k) as [c|] eqn:E.
  - assert (fend w k o = set_c w k (FCall (fc_req c) (FEnd o) (fc_mail c))) as ->.
    { unfold fend, set_c, set_calls. f_equal. apply list_eq. intros i. destruct (decide (i = k)) as [->|].
      - rewrite list_lookup_alter, E. cbn. rewrite list_lookup_insert; [done|]. by eapply lookup_lt_Some.
      - rewrite list_lookup_alter_ne, list_lookup_insert_ne by done. done. }
    apply finv_state; [done|done|naive_solver|naive_solver|]. intros s r [= ->]. by eapply Ho.
  - assert (fend w k o = w) as ->; [|done]. destruct w as [cu ps cs]. unfold fend, set_calls. cbn in *. f_equal.
    apply list_eq. intros i. destruct (decide (i = k)) as [->|]; [by rewrite list_lookup_alter, E|by rewrite list_lookup_alter_ne].
Qed.

Lemma finv_cur w cur : finv w -> (forall g, cur = Some g -> g < length (f_programs w)) ->
  finv (FWorld cur (f_programs w) (f_calls w)).
Proof. intros I Hc. destruct I. by split. Qed.

Lemma finv_forget w g : finv w -> finv (forget w g).
Proof.
  intros I. unfold forget. case_bool_decide as E; [|done].
  destruct (f_programs w !! g) as [p|] eqn:Ep; [|pose proof (v_cur _ I g E); apply lookup_ge_None in Ep; lia].
  set (p' := Program (g_alive p) true (g_in p) (g_out p) (g_lines p) (g_nread p)
      (g_queue p) (g_pending p) (g_running p) (g_write p) (g_read p) (g_put p)).
  assert (finv (set_g w g p')) as I'.
  { pose proof I as [??????]. eapply finv_prog; [done|exact Ep|..]; subst p'; cbn; eauto. }
  replace (alter _ g (f_programs w)) with (f_programs (set_g w g p')).
  - apply (finv_cur _ None I'). done.
  - cbn. apply list_eq. intros i. destruct (decide (i = g)) as [->|].
    + rewrite list_lookup_alter, Ep, list_lookup_insert; [done|]. by eapply lookup_lt_Some.
    + by rewrite list_lookup_alter_ne, list_lookup_insert_ne.
Qed.

Lemma forget_calls w g : f_calls (forget w g) = f_calls w.
Proof. unfold forget. by case_bool_decide. Qed.
Lemma forget_length w g : length (f_programs (forget w g)) = length (f_programs w).
Proof. unfold forget. case_bool_decide; [|done]. cbn. by rewrite alter_length. Qed.

Lemma finv_new w : finv w -> finv (FWorld (f_cur w) (f_programs w ++ [new_program]) (f_calls w)).
Proof.
  intros I. destruct I.
  assert (forall h q, (f_programs w ++ [new_program]) !! h = Some q -> f_programs w !! h = Some q \/ h = length (f_programs w) /\ q = new_program) as Hx.
  { intros h q [H|[Hl H]]%lookup_app_Some; [by left|]. right. destruct (h - length (f_programs w)) eqn:E; [|done].
    injection H as <-. split; [lia|done]. }
  split; cbn [f_cur f_programs f_calls].
  - rewrite app_length. intros g H. apply v_cur0 in H. lia.
  - rewrite app_length. intros k c g Hc Hst. pose proof (v_gen0 _ _ _ Hc Hst). lia.
  - intros g p id k Hp Hk. destruct (Hx _ _ Hp) as [?|[-> ->]]; [by eapply v_pend0|].
    change (g_pending new_program) with (∅ : gmap bytes nat) in Hk. by rewrite lookup_empty in Hk.
  - intros g p k c Hp Hc Hst Hno. destruct (Hx _ _ Hp) as [?|[-> ->]]; [by eapply v_cover0|].
    pose proof (v_gen0 _ _ _ Hc (or_intror Hst)). lia.
  - intros g p Hp. destruct (Hx _ _ Hp) as [?|[-> ->]]; [by eapply v_read0|done].
  - intros g p Hp. destruct (Hx _ _ Hp) as [?|[-> ->]]; [by eapply v_empty0|done].
  - intros g p Hp. destruct (Hx _ _ Hp) as [?|[-> ->]]; [by eapply v_done0|done].
  - intros g p k Hp. destruct (Hx _ _ Hp) as [?|[-> ->]]; [by eapply v_queue0|]. cbn. intros [H|H]; [|done]. by apply elem_of_nil in H.
  - intros k c s r Hk Ht. destruct (v_told0 _ _ _ _ Hk Ht) as (p & l & Hp & ? & ? & ? & b & ?). exists p, l. cbn [f_programs].
    rewrite lookup_app_l by (by eapply lookup_lt_Some). naive_solver.
  - done.
  - done.
  - done.
Qed.

Lemma finv_call w r : finv w -> finv (set_calls w (f_calls w ++ [FCall r FStart NoMail])).
Proof.
  intros I. destruct I.
  assert (forall h q, (f_calls w ++ [FCall r FStart NoMail]) !! h = Some q -> f_calls w !! h = Some q \/ q = FCall r FStart NoMail) as Hx.
  { intros h q [H|[Hl H]]%lookup_app_Some; [by left|]. right. destruct (h - length (f_calls w)) eqn:E; [|done]. by injection H as <-. }
  split; cbn [set_calls f_cur f_programs f_calls]; try done.
  - intros k c g Hc Hst. destruct (Hx _ _ Hc) as [?| ->]; [by eapply v_gen0|]. by destruct Hst.
  - intros g p id k Hp Hk. destruct (v_pend0 _ _ _ _ Hp Hk) as (c & ? & ?). exists c. rewrite lookup_app_l by (by eapply lookup_lt_Some). done.
  - intros g p k c Hp Hc Hst Hno. destruct (Hx _ _ Hc) as [?| ->]; [by eapply v_cover0|done].
  - intros g p k Hp Hk. rewrite app_length. pose proof (v_queue0 _ _ _ Hp Hk). lia.
  - intros k c s x Hk Ht. destruct (Hx _ _ Hk) as [?| ->]; [|done]. by apply v_told0.
  - intros k c x Hk Ht. destruct (Hx _ _ Hk) as [?| ->]; [|done]. by eapply v_self0.
  - intros k1 c1 k2 c2 s r1 r2 H1 H2 T1 T2. destruct (Hx _ _ H1) as [?| ->]; [|done]. destruct (Hx _ _ H2) as [?| ->]; [|done].
    by eapply v_once0.
  - intros k c s x Hk Ht. destruct (Hx _ _ Hk) as [?| ->]; [|done]. by eapply v_end0.
Qed.

Lemma tell_set_g w g p k m : tell (set_g w g p) k m = set_g (tell w k m) g p.
Proof. done. Qed.

(** Taking an entry out of the pending ones, when its call has a message. *)
Lemma finv_unpend w g p id k c put : finv w -> f_programs w !! g = Some p ->
  g_pending p !! id = Some k -> f_calls w !! k = Some c -> fc_mail c <> NoMail -> g_put p ⊆ put ->
  finv (set_g w g (with_pending p (delete id (g_pending p)) put)).
Proof.
  intros I Hp Hid Hk Hm Hput. pose proof I as [? ? Hpend ? Hrd Hem Hdn Hq]. 
  eapply finv_prog; [done|exact Hp|..]; cbn; eauto.
  - intros j d Hd Hst Hno [?|Hj]; [by left|]. right. rewrite lookup_delete_ne; [done|].
    intros E. rewrite <- E, Hid in Hj. injection Hj as ->. congruence.
  - intros id' j Hj. rewrite lookup_delete_Some in Hj. destruct Hj as [_ Hj].
    destruct (Hpend _ _ _ _ Hp Hj) as (d & ? & ? & ?). exists d. auto.
  - intros H. rewrite (Hem _ _ Hp H). by rewrite delete_empty.
Qed.

Lemma set_set w g p q : g < length (f_programs w) -> set_g (set_g w g p) g q = set_g w g q.
Proof. intros H. unfold set_g. cbn. by rewrite list_insert_insert. Qed.
Lemma set_get w g p : g < length (f_programs w) -> f_programs (set_g w g p) !! g = Some p.
Proof. intros H. cbn. by rewrite list_lookup_insert. Qed.

Lemma tell_get w k c m : f_calls w !! k = Some c -> f_calls (tell w k m) !! k = Some (mail_to m c).
Proof. intros H. cbn. by rewrite list_lookup_alter, H. Qed.
Lemma mail_some m c : m <> NoMail -> fc_mail (mail_to m c) <> NoMail.
Proof. by destruct c as [? ? []]; cbn. Qed.

Lemma finv_read_line w g p l : finv w -> f_programs w !! g = Some p -> g_read p = LRun ->
  g_lines p !! g_nread p = Some l -> finv (read_line w g p (g_nread p) l).
Proof.
  intros I Hp Hr Hl. assert (g < length (f_programs w)) as Hg by (by eapply lookup_lt_Some).
  pose proof I as [? ? Hpend ? Hrd Hem Hdn Hq ? ? ? ?].
  assert (g_running p = true) as Hrun.
  { destruct (g_running p) eqn:E; [done|]. apply (Hrd _ _ Hp) in E. congruence. }
  assert (forall s, s <> LDone -> finv (set_g w g (with_read p (S (g_nread p)) s (g_running p)))) as I1.
  { intros s Hs. eapply finv_prog; [done|exact Hp|..]; cbn; eauto; rewrite Hrun; done. }
  unfold read_line. destruct (verdict l) as [[[id r]|] more] eqn:Ev; [|by apply I1].
  destruct (g_pending p !! id) as [k|] eqn:Ek; [|by apply I1].
  set (s := if more then LRun else LExit). assert (s <> LDone) as Hs by (subst s; by destruct more).
  destruct (Hpend _ _ _ _ Hp Ek) as (c & Hc & Hid & Hput).
  set (p1 := with_read p (S (g_nread p)) s (g_running p)).
  set (m := match r with Some r => Told (Some (g, g_nread p)) r | None => Lost end).
  assert (finv (tell (set_g w g p1) k m)) as I2.
  { subst m. destruct r as [r|]; [|apply finv_tell_own; [by apply I1|by left]].
    apply finv_tell with c; [by apply I1|done| |].
    - exists p1, l. cbn [fst snd]. rewrite set_get by done. split; [done|]. split; [done|]. split; [cbn; lia|].
      split; [done|]. exists more. by rewrite Hid.
    - intros j d r' Hd Hm. destruct (v_told0 j d _ _ Hd Hm) as (q & l' & Hq' & _ & Hlt & _). cbn in Hq'.
      rewrite Hp in Hq'. injection Hq' as <-. cbn in Hlt. lia. }
  rewrite tell_set_g in *.
  assert (finv (set_g (set_g (tell w k m) g p1) g (with_pending p1 (delete id (g_pending p1)) (g_put p1)))) as I3.
  { eapply finv_unpend; [done|by apply set_get|done|by apply tell_get| |done]. apply mail_some. subst m. by destruct r. }
  rewrite set_set in I3 by done. exact I3.
Qed.

Lemma finv_step w e w' : finv w -> fstep w e = Some w' -> finv w'.
Proof.
  intros I Hs. pose proof I as [Hcur Hgen Hpend Hcov Hrd Hem Hdn Hq Htold Hself Honce Hend].
  destruct e; cbn [fstep] in Hs.
  - destruct (f_calls w !! k) as [[r [] m]|] eqn:Ek; try done.
    assert (Some (if can
         then set_c (FWorld (Some (length (f_programs w)))
                 (f_programs match f_cur w with Some h => forget w h | None => w end ++ [new_program])
                 (f_calls match f_cur w with Some h => forget w h | None => w end)) k
                (FCall r (FSend (length (f_programs w))) m)
         else fend w k NoSigner) = Some w' -> finv w') as Hspawn.
    { intros [= <-]. destruct can; [|by apply finv_fend].
      set (w0 := match f_cur w with Some h => forget w h | None => w end).
      assert (finv w0) as I0 by (subst w0; destruct (f_cur w); [by apply finv_forget|done]).
      assert (length (f_programs w0) = length (f_programs w)) as El by (subst w0; destruct (f_cur w); [by rewrite forget_length|done]).
      assert (f_calls w0 = f_calls w) as Ec by (subst w0; destruct (f_cur w); [by rewrite forget_calls|done]).
      clearbody w0. apply finv_new in I0.
      apply (finv_cur _ (Some (length (f_programs w)))) in I0; [|cbn; intros g [= <-]; rewrite app_length; cbn; lia].
      cbn [f_cur f_programs f_calls] in I0.
      apply (finv_state _ k (FCall r FStart m) (FSend (length (f_programs w)))) in I0; cbn [f_calls f_programs fc_mail fc_req] in *.
      - exact I0.
      - by rewrite Ec.
      - intros g [[= <-]|?]; [rewrite app_length; cbn; lia|done].
      - done.
      - done. }
    destruct (f_cur w) as [h|] eqn:Eh; [|by apply Hspawn].
    destruct (f_programs w !! h) as [p|] eqn:Eph; [|by apply Hspawn].
    destruct (g_alive p); [|by apply Hspawn]. injection Hs as <-.
    apply (finv_state _ k (FCall r FStart m) (FSend h) I Ek); [|done|done]. intros g [[= <-]|?]; [by apply Hcur|done].
  - destruct (f_calls w !! k) as [[r [|g|g|] m]|] eqn:Ek; try done.
    destruct (f_programs w !! g) as [p|] eqn:Ep; [|done].
    assert (g < length (f_programs w)) as Hg by (by eapply lookup_lt_Some).
    assert (g_write p = WDone \/ g_write p <> WDone) as [E|E] by (destruct (g_write p); first [by left|by right]).
    { rewrite E in Hs. injection Hs as <-. by apply finv_fend. }
    assert ((if (N.of_nat (length (g_queue p)) <? CHANNEL)%N
             then Some (set_c (set_g w g (with_queue p (g_queue p ++ [k]))) k (FCall r (FWait g) m)) else None) = Some w') as Hs'
      by (by destruct (g_write p)).
    destruct (_ <? _)%N; [|done]. injection Hs' as <-.
    assert (finv (set_g w g (with_queue p (g_queue p ++ [k])))) as I1.
    { eapply finv_prog; [done|exact Ep|..]; cbn; eauto.
      - intros j [[Hj|Hj%elem_of_list_singleton]%elem_of_app|Hj]; [by eapply Hq; [|left]| |by eapply Hq; [|right]].
        subst. by eapply lookup_lt_Some.
      - intros j c Hj _ _ [?|?]; [left; apply elem_of_app; by left|by right].
      - done. }
    apply (finv_state _ k (FCall r (FSend g) m) (FWait g) I1 Ek); cbn.
    + intros h [?|[= <-]]; [done|]. by rewrite insert_length.
    + intros h q [= <-] H _. rewrite list_lookup_insert in H by done. injection H as <-. left. cbn. set_solver.
    + done.
  - destruct (f_programs w !! g) as [p|] eqn:Ep; [|done].
    assert (g < length (f_programs w)) as Hg by (by eapply lookup_lt_Some).
    destruct (g_write p) eqn:Ew; try done. destruct (g_queue p) as [|k q] eqn:Eq.
    { destruct (has_senders w g); [done|]. injection Hs as <-.
      eapply finv_prog; [done|exact Ep|..]; cbn; eauto; try done. intros j [Hj|?]; [|done]. by eapply Hq; [|left]. }
    destruct (f_calls w !! k) as [c|] eqn:Ek; [|done].
    destruct (g_running p) eqn:Erun; injection Hs as <-.
    + set (id := s_id (fc_req c)).
      set (w1 := tell_opt w (g_pending p !! id) Lost).
      assert (finv w1) as I1 by (apply finv_tell_opt; [done|by left]).
      assert (f_programs w1 = f_programs w) as E1 by (subst w1; by destruct (g_pending p !! id)).
      replace (tell_opt _ _ _) with (set_g w1 g (with_pending (with_write (with_queue p q) (WWrite k))
        (<[id := k]> (g_pending p)) (g_put p ++ [k]))) by (subst w1; by destruct (g_pending p !! id)).
      pose proof I1 as [_ _ Hpend1 Hcov1 _ _ _ Hq1 _ _ _ _].
      assert (exists c1, f_calls w1 !! k = Some c1 /\ s_id (fc_req c1) = id) as (c1 & Hc1 & Hid1).
      { subst w1. destruct (g_pending p !! id) as [j|]; [|by exists c]. cbn. destruct (decide (k = j)) as [->|].
        - rewrite list_lookup_alter, Ek. eexists. split; [done|]. by rewrite mail_req.
        - rewrite list_lookup_alter_ne by done. by exists c. }
      eapply finv_prog; [done|by rewrite E1|..]; cbn.
      * intros j [Hj|[= <-]]; [|by eapply lookup_lt_Some]. eapply Hq1; [by rewrite E1|]. left. rewrite Eq. by right.
      * intros j d Hd Hst Hno [Hj|Hj].
        -- rewrite Eq in Hj. apply elem_of_cons in Hj as [->|Hj]; [|by left]. right.
           rewrite Hc1 in Hd. injection Hd as <-. rewrite Hid1. by rewrite lookup_insert.
        -- right. rewrite lookup_insert_ne; [done|]. intros E. subst id.
           (* the one overwritten has lost its channel *)
           subst w1. rewrite <- E in Hj. rewrite E in *. rewrite <- E in *. rewrite Hj in Hd. cbn in Hd.
           rewrite list_lookup_alter in Hd. destruct (f_calls w !! j) as [d0|]; [|done]. injection Hd as <-.
           by apply (mail_some Lost d0).
      * intros id' j Hj. rewrite lookup_insert_Some in Hj. destruct Hj as [[<- <-]|[_ Hj]].
        -- exists c1. split; [done|]. split; [done|]. set_solver.
        -- destruct (Hpend1 g p id' j) as (d & ? & ? & ?); [by rewrite E1|done|]. exists d. split; [done|]. split; [done|]. set_solver.
      * rewrite Erun. split; [done|]. intros E. apply (Hrd _ _ Ep) in E. congruence.
      * by rewrite Erun.
      * done.
      * done.
      * done.
      * set_solver.
    + rewrite tell_set_g. assert (finv (tell w k (Told None (Err (str "signature fallback process closed"))))) as I1
        by (apply finv_tell_own; [done|right; by eexists]).
      pose proof I1 as [_ _ Hpend1 Hcov1 _ _ _ Hq1 _ _ _ _].
      eapply finv_prog; [done|exact Ep|..]; cbn [with_write with_queue g_queue g_write g_pending g_put g_running g_read g_lines g_nread]; eauto; try done.
      * intros j [Hj|?]; [|done]. eapply Hq1; [exact Ep|]. left. rewrite Eq. by right.
      * intros j d Hd Hst Hno [Hj|Hj]; [|by right]. rewrite Eq in Hj. apply elem_of_cons in Hj as [->|Hj]; [|by left].
        rewrite (tell_get _ _ _ _ Ek) in Hd. injection Hd as <-. exfalso. revert Hno. by apply mail_some.
  - destruct (f_programs w !! g) as [p|] eqn:Ep; [|done].
    destruct (g_write p) eqn:Ew; try done. destruct (g_in p); [done|].
    destruct (f_calls w !! k) as [c|] eqn:Ek; [|done]. injection Hs as <-.
    set (id := s_id (fc_req c)).
    assert (g < length (f_programs w)) as Hg by (by eapply lookup_lt_Some).
    assert (finv (set_g w g (with_write p WExit))) as I1.
    { eapply finv_prog; [done|exact Ep|..]; cbn; eauto; try done. intros j [Hj|?]; [|done]. by eapply Hq; [|left]. }
    destruct (g_pending p !! id) as [j|] eqn:Ej; cbn [tell_opt].
    + set (m := Told None _). assert (own m) as Hm by (right; by eexists).
      apply (finv_tell_own _ j m) in I1; [|done]. rewrite tell_set_g in *.
      destruct (Hpend _ _ _ _ Ep Ej) as (d & Hd & _).
      eapply finv_unpend in I1; [|by apply set_get|exact Ej|by apply tell_get|by apply mail_some|reflexivity].
      rewrite set_set in I1 by done. exact I1.
    + assert (with_pending (with_write p WExit) (delete id (g_pending p)) (g_put p) = with_write p WExit) as ->; [|done].
      rewrite delete_notin by done. by destruct p.
  - destruct (f_programs w !! g) as [p|] eqn:Ep; [|done]. destruct (g_write p) eqn:Ew; try done. injection Hs as <-.
    apply finv_forget. eapply finv_prog; [done|exact Ep|..]; cbn; eauto; try done.
    intros j [Hj|?]; [|done]. by eapply Hq; [|left].
  - destruct (f_programs w !! g) as [p|] eqn:Ep; [|done]. destruct (g_write p) eqn:Ew; try done. injection Hs as <-.
    change (tell_if (set_g w g (with_write (with_queue p []) WDone)) (fun k _ => bool_decide (k ∈ g_queue p)) Lost)
      with (set_g (tell_if w (fun k _ => bool_decide (k ∈ g_queue p)) Lost) g (with_write (with_queue p []) WDone)).
    assert (finv (tell_if w (fun k _ => bool_decide (k ∈ g_queue p)) Lost)) as I1 by (apply finv_tell_if; [done|by left]).
    pose proof I1 as [_ _ Hpend1 Hcov1 _ _ _ Hq1 _ _ _ _].
    eapply finv_prog; [done|exact Ep|..]; cbn [with_write with_queue g_queue g_write g_pending g_put g_running g_read g_lines g_nread]; eauto; try done.
    + intros j [Hj|?]; [|done]. by apply elem_of_nil in Hj.
    + intros j d Hd Hst Hno [Hj|?]; [|by right]. cbn in Hd. rewrite list_lookup_imap in Hd.
      destruct (f_calls w !! j) as [d0|]; [|done]. cbn in Hd. rewrite bool_decide_true in Hd by done. injection Hd as <-.
      by destruct (mail_some Lost d0).
  - destruct (f_programs w !! g) as [p|] eqn:Ep; [|done]. destruct (g_read p) eqn:Er; try done.
    destruct (g_lines p !! g_nread p) as [l|] eqn:El; [injection Hs as <-; by apply finv_read_line|].
    destruct (g_out p); [done|]. injection Hs as <-. eapply finv_prog; [done|exact Ep|..]; cbn; eauto.
    split; [|done]. intros E. apply (Hrd _ _ Ep) in E. congruence.
  - destruct (f_programs w !! g) as [p|] eqn:Ep; [|done]. destruct (g_read p) eqn:Er; try done. injection Hs as <-.
    apply finv_forget. eapply finv_prog; [done|exact Ep|..]; cbn; eauto.
    split; [|done]. intros E. apply (Hrd _ _ Ep) in E. congruence.
  - destruct (f_programs w !! g) as [p|] eqn:Ep; [|done]. destruct (g_read p) eqn:Er; try done. injection Hs as <-.
    set (m := Told None _). set (P := fun _ _ => bool_decide _).
    change (finv (set_g (tell_if w P m) g (with_pending (with_read p (g_nread p) LDone false) ∅ (g_put p)))).
    assert (finv (tell_if w P m)) as I1 by (apply finv_tell_if; [done|right; by eexists]).
    pose proof I1 as [_ _ Hpend1 Hcov1 _ _ _ Hq1 _ _ _ _].
    eapply finv_prog; [done|exact Ep|..]; cbn [with_pending with_read g_queue g_write g_pending g_put g_running g_read g_lines g_nread]; eauto; try done.
    intros j d Hd Hst Hno [?|Hj]; [by left|]. cbn in Hd. rewrite list_lookup_imap in Hd.
    destruct (f_calls w !! j) as [d0|]; [|done]. cbn in Hd. unfold P in Hd.
    destruct (bool_decide_reflect (g_pending p !! s_id (fc_req d0) = Some j)) as [E|E]; injection Hd as <-.
    + by destruct (mail_some m d0).
    + done.
  - destruct (f_calls w !! k) as [[r [|g|g|] [|s x|]]|] eqn:Ek; try done; injection Hs as <-; apply finv_fend; try done.
    intros c s' r' H [= <- <-]. rewrite Ek in H. by injection H as <-.
  - injection Hs as <-. by apply finv_call.
  - destruct (f_calls w !! k) as [[r [] m]|] eqn:Ek; try done; injection Hs as <-; by apply finv_fend.
  - destruct (f_programs w !! g) as [p|] eqn:Ep; [|done]. destruct (g_write p) eqn:Ew; try done. destruct (g_in p); [|done].
    injection Hs as <-. eapply finv_prog; [done|exact Ep|..]; cbn; eauto; try done.
    intros j [Hj|?]; [|done]. by eapply Hq; [|left].
  - destruct (f_programs w !! g) as [p|] eqn:Ep; [|done]. destruct (g_out p); [|done].
    injection Hs as <-. eapply finv_prog; [done|exact Ep|..]; cbn; eauto. by eexists.
  - destruct (f_programs w !! g) as [p|] eqn:Ep; [|done].
    injection Hs as <-. eapply finv_prog; [done|exact Ep|..]; cbn; eauto.
  - destruct (f_programs w !! g) as [p|] eqn:Ep; [|done].
    injection Hs as <-. eapply finv_prog; [done|exact Ep|..]; cbn; eauto.
  - destruct (f_programs w !! g) as [p|] eqn:Ep; [|done].
    injection Hs as <-. eapply finv_prog; [done|exact Ep|..]; cbn; eauto.
Qed.

Lemma finv_run es w w' : finv w -> frun w es = Some w' -> finv w'.
Proof.
  revert w. induction es as [|e es IH]; intros w I H; cbn in H; [by injection H as <-|].
  destruct (fstep w e) as [w1|] eqn:E; [|done]. eapply IH; [|done]. by eapply finv_step.
Qed.
Lemma finv_fnew : finv fnew.
Proof. by split. Qed.

Lemma verdict_says l id r b : verdict l = (Some (id, Some r), b) -> says l id r.
Proof.
  destruct l as [|i [s|] [e|]]; cbn; try done.
  - intros [= -> <- _]. left. by eexists.
  - destruct (from_b64std s) as [sig|e] eqn:E.
    + destruct (Nat.eqb_spec (length sig) 64) as [Hl|Hl]; intros [= -> <- _].
      * by exists s.
      * right. exists s. split; [done|]. intros sig' [H1 H2]. congruence.
    + intros [= -> <- _]. right. exists s. split; [done|]. intros sig' [H1 H2]. congruence.
  - intros [= -> <- _]. left. by eexists.
Qed.

(** ** The theorems *)

(** A call that ends with a signature was given it by the program its request was written to, in
    a line with the id of the request.  An error is that of such a line or of the two tasks. *)
Theorem C36_own_answer :
  forall es w k c src r,
    frun fnew es = Some w -> f_calls w !! k = Some c -> fc_st c = FEnd (Answered src r) ->
    match src with
    | Some (g, n) => put_to w k g /\ exists l, printed w g n l /\ says l (s_id (fc_req c)) r
    | None => exists e, r = Err e
    end.
Proof.
  intros es w k c src r H Hk Hst. pose proof (finv_run _ _ _ finv_fnew H) as I.
  pose proof (v_end _ I _ _ _ _ Hk Hst) as Hm. destruct src as [[g n]|]; [|by eapply (v_self _ I)].
  destruct (v_told _ I _ _ _ _ Hk Hm) as (p & l & Hp & Hl & Hn & Hput & b & Hv). cbn in *.
  split; [by exists p|]. exists l. split; [by exists p|]. by eapply verdict_says.
Qed.
Print Assumptions C36_own_answer.

(** A line answers at most one call. *)
Theorem C36_at_most_one :
  forall es w k1 k2 s r1 r2,
    frun fnew es = Some w -> over w k1 (Answered (Some s) r1) -> over w k2 (Answered (Some s) r2) -> k1 = k2.
Proof.
  intros es w k1 k2 s r1 r2 H (c1 & H1 & S1) (c2 & H2 & S2). pose proof (finv_run _ _ _ finv_fnew H) as I.
  eapply (v_once _ I); [exact H1|exact H2|by eapply (v_end _ I)|by eapply (v_end _ I)].
Qed.
Print Assumptions C36_at_most_one.

(** What [k] waits for, when nothing happens by itself any more. *)
(** Its request was written to a program that still could answer. *)
Definition unanswered (w : fworld) (k g : nat) : Prop :=
  exists p c, f_programs w !! g = Some p /\ f_calls w !! k = Some c /\ fc_st c = FWait g
    /\ k ∈ g_put p /\ g_out p = true /\ length (g_lines p) <= g_nread p /\ g_read p = LRun.
(** A program is not reading what is written to it. *)
Definition unread (w : fworld) (k g : nat) : Prop :=
  exists p c j, f_programs w !! g = Some p /\ f_calls w !! k = Some c /\ (fc_st c = FSend g \/ fc_st c = FWait g)
    /\ g_write p = WWrite j /\ g_in p = true.

(** When nothing happens by itself any more, a call is over, or waits for the program. *)
Theorem C36_waits_for_program_only :
  forall es w k c,
    frun fnew es = Some w -> quiet w -> f_calls w !! k = Some c ->
    (exists o, fc_st c = FEnd o) \/ exists g, unanswered w k g \/ unread w k g.
Proof.
  intros es w k c H Hqt Hk. pose proof (finv_run _ _ _ finv_fnew H) as I.
  assert (forall g p, f_programs w !! g = Some p -> (exists j, g_write p = WWrite j /\ g_in p = true)
    \/ g_write p = WIdle /\ g_queue p = [] \/ g_write p = WDone) as Hw.
  { intros g p Hp. destruct (g_write p) as [|j| | |] eqn:Ew.
    - right. left. split; [done|]. destruct (g_queue p) as [|j q] eqn:Eq; [done|].
      pose proof (Hqt (Take g) Logic.I) as Hs. cbn [fstep] in Hs. rewrite Hp, Ew, Eq in Hs.
      destruct (f_calls w !! j) as [d|] eqn:Ej.
      + by destruct (g_running p).
      + apply lookup_ge_None in Ej. pose proof (v_queue _ I g p j Hp) as Hj. rewrite Eq in Hj.
        assert (j < length (f_calls w)) by (apply Hj; left; left). lia.
    - left. exists j. split; [done|]. destruct (g_in p) eqn:Ei; [done|].
      pose proof (Hqt (WFail g) Logic.I) as Hs. cbn [fstep] in Hs. rewrite Hp, Ew, Ei in Hs.
      destruct (f_calls w !! j) as [d|] eqn:Ej; [done|]. apply lookup_ge_None in Ej.
      pose proof (v_queue _ I g p j Hp (or_intror Ew)). lia.
    - pose proof (Hqt (WForget g) Logic.I) as Hs. cbn [fstep] in Hs. by rewrite Hp, Ew in Hs.
    - pose proof (Hqt (WEnd g) Logic.I) as Hs. cbn [fstep] in Hs. by rewrite Hp, Ew in Hs.
    - auto. }
  destruct (fc_st c) as [|g|g|o] eqn:Est; [| | |by eauto].
  - exfalso. pose proof (Hqt (Get k false) Logic.I) as Hs. cbn [fstep] in Hs. rewrite Hk in Hs.
    destruct c as [r st m]. cbn in Est. subst st. destruct (f_cur w) as [h|]; [|done].
    destruct (f_programs w !! h) as [p|]; [|done]. by destruct (g_alive p).
  - right. exists g. right. pose proof (v_gen _ I _ _ _ Hk (or_introl Est)) as Hg. apply lookup_lt_is_Some in Hg as [p Hp].
    pose proof (Hqt (Push k) Logic.I) as Hs. cbn [fstep] in Hs. rewrite Hk in Hs.
    destruct c as [r st m]. cbn in Est. subst st. rewrite Hp in Hs.
    destruct (Hw g p Hp) as [(j & Ej & Ei)|[[E Eq]|E]].
    + exists p, (FCall r (FSend g) m), j. auto.
    + rewrite E, Eq in Hs. done.
    + by rewrite E in Hs.
  - right. exists g. pose proof (v_gen _ I _ _ _ Hk (or_intror Est)) as Hg. apply lookup_lt_is_Some in Hg as [p Hp].
    destruct (fc_mail c) as [|s r|] eqn:Em.
    2,3: pose proof (Hqt (Poll k) Logic.I) as Hs; cbn [fstep] in Hs; rewrite Hk in Hs; destruct c as [r0 st m]; cbn in Est, Em; by subst.
    destruct (v_cover _ I g p k c Hp Hk Est Em) as [Hin|Hin].
    + right. destruct (Hw g p Hp) as [(j & Ej & Ei)|[[E Eq]|E]].
      * exists p, c, j. auto.
      * rewrite Eq in Hin. by apply elem_of_nil in Hin.
      * rewrite (v_done _ I g p Hp E) in Hin. by apply elem_of_nil in Hin.
    + left. destruct (v_pend _ I g p _ _ Hp Hin) as (_ & _ & _ & Hput). exists p, c.
      assert (g_read p = LRun) as Er.
      { destruct (g_read p) eqn:Er; [done| | |].
        - pose proof (Hqt (LForget g) Logic.I) as Hs. cbn [fstep] in Hs. by rewrite Hp, Er in Hs.
        - pose proof (Hqt (Drain g) Logic.I) as Hs. cbn [fstep] in Hs. by rewrite Hp, Er in Hs.
        - apply (v_read _ I g p Hp) in Er. rewrite (v_empty _ I g p Hp Er) in Hin. by rewrite lookup_empty in Hin. }
      pose proof (Hqt (Read g) Logic.I) as Hs. cbn [fstep] in Hs. rewrite Hp, Er in Hs.
      destruct (g_lines p !! g_nread p) as [l|] eqn:El; [done|]. apply lookup_ge_None in El.
      destruct (g_out p) eqn:Eo; [|done]. auto 10.
Qed.
Print Assumptions C36_waits_for_program_only.

(** So no call is left when the programs have gone. *)
Theorem C36_gone :
  forall es w,
    frun fnew es = Some w -> quiet w ->
    (forall g p, f_programs w !! g = Some p -> g_in p = false /\ g_out p = false) ->
    forall k c, f_calls w !! k = Some c -> exists o, over w k o.
Proof.
  intros es w H Hqt Hgone k c Hk. destruct (C36_waits_for_program_only _ _ _ _ H Hqt Hk) as [[o Ho]|(g & Hg)]; [by exists o, c|].
  destruct Hg as [(p & d & Hp & _ & _ & _ & Ho & _)|(p & d & j & Hp & _ & _ & _ & Hi)]; destruct (Hgone g p Hp); congruence.
Qed.
Print Assumptions C36_gone.

(** And from any state, only so many events can happen by themselves. *)
Definition wc (c : fcall) : nat := match fc_st c with FStart => 20 | FSend _ => 4 | FWait _ => 1 | FEnd _ => 0 end.
Definition wg (p : program) : nat :=
  2 * length (g_queue p) + (length (g_lines p) - g_nread p)
  + (match g_write p with WIdle => 3 | WWrite _ => 4 | WExit => 2 | WDrop => 1 | WDone => 0 end)
  + (match g_read p with LRun => 3 | LExit => 2 | LDrain => 1 | LDone => 0 end).
Definition effort (w : fworld) : nat := sum_list_with wc (f_calls w) + sum_list_with wg (f_programs w).

Lemma sum_insert {A} (f : A -> nat) l i x y : l !! i = Some x -> sum_list_with f (<[i := y]> l) + f x = sum_list_with f l + f y.
Proof.
  revert i. induction l as [|a l IH]; intros [|i] H; cbn in *; try done; [injection H as ->; lia|].
  pose proof (IH i H). unfold insert in *. lia.
Qed.
Lemma sum_alter {A} (f : A -> nat) g l i : (forall x, f (g x) = f x) -> sum_list_with f (alter g i l) = sum_list_with f l.
Proof. intros H. revert i. induction l as [|a l IH]; intros [|i]; cbn; [done..|by rewrite H|]. f_equal. apply IH. Qed.
Lemma sum_imap {A} (f : A -> nat) g l : (forall i x, f (g i x) = f x) -> sum_list_with f (imap g l) = sum_list_with f l.
Proof.
  intros H. revert g H. induction l as [|a l IH]; intros g H; [done|]. cbn. rewrite H. f_equal. apply (IH (fun i => g (S i))). intros i x. apply H.
Qed.
Lemma sum_snoc {A} (f : A -> nat) l x : sum_list_with f (l ++ [x]) = sum_list_with f l + f x.
Proof. rewrite sum_list_with_app. cbn. lia. Qed.

Lemma wc_mail m c : wc (mail_to m c) = wc c.
Proof. unfold wc. by rewrite mail_st. Qed.
Lemma effort_tell w k m : effort (tell w k m) = effort w.
Proof. unfold effort. cbn. by rewrite (sum_alter wc) by apply wc_mail. Qed.
Lemma effort_tell_opt w k m : effort (tell_opt w k m) = effort w.
Proof. destruct k; [apply effort_tell|done]. Qed.
Lemma effort_tell_if w P m : effort (tell_if w P m) = effort w.
Proof. unfold effort. cbn. rewrite (sum_imap wc); [done|]. intros i x. destruct (P i x); [apply wc_mail|done]. Qed.
Lemma effort_forget w g : effort (forget w g) = effort w.
Proof. unfold forget. case_bool_decide; [|done]. unfold effort. cbn. by rewrite (sum_alter wg). Qed.
Lemma effort_g w g p q : f_programs w !! g = Some p -> effort (set_g w g q) + wg p = effort w + wg q.
Proof. intros H. unfold effort, set_g, set_c, set_calls. cbn [f_calls f_programs]. pose proof (sum_insert wg _ _ _ q H). lia. Qed.
Lemma effort_c w k c d : f_calls w !! k = Some c -> effort (set_c w k d) + wc c = effort w + wc d.
Proof. intros H. unfold effort, set_g, set_c, set_calls. cbn [f_calls f_programs]. pose proof (sum_insert wc _ _ _ d H). lia. Qed.
Lemma effort_fend w k c o : f_calls w !! k = Some c -> effort (fend w k o) + wc c = effort w.
Proof.
  intros H. assert (fend w k o = set_c w k (FCall (fc_req c) (FEnd o) (fc_mail c))) as ->.
  { unfold fend, set_c, set_calls. f_equal. apply list_eq. intros i. destruct (decide (i = k)) as [->|].
    - rewrite list_lookup_alter, H. cbn. rewrite list_lookup_insert; [done|]. by eapply lookup_lt_Some.
    - rewrite list_lookup_alter_ne, list_lookup_insert_ne by done. done. }
  pose proof (effort_c w k c (FCall (fc_req c) (FEnd o) (fc_mail c)) H) as E. cbn [wc fc_st] in E. lia.
Qed.

Lemma effort_step w e w' : by_itself e -> fstep w e = Some w' -> effort w' < effort w.
Proof.
  intros Hb Hs. destruct e; try done; cbn [fstep] in Hs.
  - destruct (f_calls w !! k) as [[r [] m]|] eqn:Ek; try done.
    assert (effort w' + 10 <= effort w); [|lia].
    assert (Some (if can
         then set_c (FWorld (Some (length (f_programs w)))
                 (f_programs match f_cur w with Some h => forget w h | None => w end ++ [new_program])
                 (f_calls match f_cur w with Some h => forget w h | None => w end)) k
                (FCall r (FSend (length (f_programs w))) m)
         else fend w k NoSigner) = Some w' -> effort w' + 10 <= effort w) as Hspawn.
    { intros [= <-]. destruct can; [|pose proof (effort_fend _ _ _ NoSigner Ek) as E; cbn [wc fc_st] in E; lia].
      set (w0 := match f_cur w with Some h => forget w h | None => w end).
      assert (effort w0 = effort w) as E0 by (subst w0; destruct (f_cur w); [by rewrite effort_forget|done]).
      assert (f_calls w0 = f_calls w) as Ec by (subst w0; destruct (f_cur w); [by rewrite forget_calls|done]).
      set (w1 := FWorld _ _ _). assert (effort w1 = effort w + 6) as E1.
      { rewrite <- E0. unfold effort, w1. cbn [f_programs f_calls]. rewrite sum_snoc. cbn. lia. }
      pose proof (effort_c w1 k (FCall r FStart m) (FCall r (FSend (length (f_programs w))) m)) as E.
      cbn [w1 f_calls] in E. rewrite Ec in E. specialize (E Ek). cbn [wc fc_st] in E. lia. }
    destruct (f_cur w) as [h|] eqn:Eh; [|by apply Hspawn].
    destruct (f_programs w !! h) as [p|] eqn:Eph; [|by apply Hspawn].
    destruct (g_alive p); [|by apply Hspawn]. injection Hs as <-.
    pose proof (effort_c w k _ (FCall r (FSend h) m) Ek) as E. cbn [wc fc_st] in E. lia.
  - destruct (f_calls w !! k) as [[r [|g|g|] m]|] eqn:Ek; try done.
    destruct (f_programs w !! g) as [p|] eqn:Ep; [|done].
    assert (g_write p = WDone \/ g_write p <> WDone) as [E|E] by (destruct (g_write p); first [by left|by right]).
    { rewrite E in Hs. injection Hs as <-. pose proof (effort_fend _ _ _ NoTask Ek) as E'. cbn [wc fc_st] in E'. lia. }
    assert ((if (N.of_nat (length (g_queue p)) <? CHANNEL)%N
             then Some (set_c (set_g w g (with_queue p (g_queue p ++ [k]))) k (FCall r (FWait g) m)) else None) = Some w') as Hs'
      by (by destruct (g_write p)).
    destruct (_ <? _)%N; [|done]. injection Hs' as <-.
    pose proof (effort_g w g p (with_queue p (g_queue p ++ [k])) Ep) as E1.
    pose proof (effort_c (set_g w g (with_queue p (g_queue p ++ [k]))) k _ (FCall r (FWait g) m) Ek) as E2.
    cbn [wc fc_st] in E2. unfold wg in E1. cbn [with_queue g_queue g_lines g_nread g_write g_read] in E1. rewrite app_length in E1. cbn [length] in E1. lia.
  - destruct (f_programs w !! g) as [p|] eqn:Ep; [|done].
    destruct (g_write p) eqn:Ew; try done. destruct (g_queue p) as [|k q] eqn:Eq.
    { destruct (has_senders w g); [done|]. injection Hs as <-. pose proof (effort_g w g p (with_write p WExit) Ep) as E.
      unfold wg in E. cbn [with_pending with_read with_write with_queue g_queue g_lines g_nread g_write g_read length] in E. rewrite Ew, Eq in E. cbn [length] in E. lia. }
    destruct (f_calls w !! k) as [c|] eqn:Ek; [|done].
    destruct (g_running p) eqn:Erun; injection Hs as <-.
    + rewrite effort_tell_opt. set (p' := with_pending _ _ _). pose proof (effort_g w g p p' Ep) as E.
      unfold wg in E. subst p'. cbn [with_pending with_write with_queue g_queue g_lines g_nread g_write g_read] in E. rewrite Ew, Eq in E. cbn [length] in E. lia.
    + rewrite effort_tell. set (p' := with_write _ _). pose proof (effort_g w g p p' Ep) as E.
      unfold wg in E. subst p'. cbn [with_write with_queue g_queue g_lines g_nread g_write g_read] in E. rewrite Ew, Eq in E. cbn [length] in E. lia.
  - destruct (f_programs w !! g) as [p|] eqn:Ep; [|done].
    destruct (g_write p) eqn:Ew; try done. destruct (g_in p); [done|].
    destruct (f_calls w !! k) as [c|] eqn:Ek; [|done]. injection Hs as <-.
    rewrite effort_tell_opt. set (p' := with_pending _ _ _). pose proof (effort_g w g p p' Ep) as E.
    unfold wg in E. subst p'. cbn [with_pending with_write with_queue g_queue g_lines g_nread g_write g_read] in E. rewrite Ew in E. lia.
  - destruct (f_programs w !! g) as [p|] eqn:Ep; [|done]. destruct (g_write p) eqn:Ew; try done. injection Hs as <-.
    rewrite effort_forget. pose proof (effort_g w g p (with_write p WDrop) Ep) as E. unfold wg in E. cbn [with_pending with_read with_write with_queue g_queue g_lines g_nread g_write g_read length] in E. rewrite Ew in E. lia.
  - destruct (f_programs w !! g) as [p|] eqn:Ep; [|done]. destruct (g_write p) eqn:Ew; try done. injection Hs as <-.
    rewrite effort_tell_if. pose proof (effort_g w g p (with_write (with_queue p []) WDone) Ep) as E. unfold wg in E. cbn [with_pending with_read with_write with_queue g_queue g_lines g_nread g_write g_read length] in E. rewrite Ew in E. lia.
  - destruct (f_programs w !! g) as [p|] eqn:Ep; [|done]. destruct (g_read p) eqn:Er; try done.
    destruct (g_lines p !! g_nread p) as [l|] eqn:El.
    + apply lookup_lt_Some in El. injection Hs as <-.
      assert (forall p', g_queue p' = g_queue p -> g_lines p' = g_lines p -> g_nread p' = S (g_nread p) -> g_write p' = g_write p ->
        g_read p' = LRun \/ g_read p' = LExit -> effort (set_g w g p') < effort w) as Hx.
      { intros p' E1 E2 E3 E4 E5. pose proof (effort_g w g p p' Ep) as E. unfold wg in E. rewrite E1, E2, E3, E4, Er in E.
        destruct E5 as [E5|E5]; rewrite E5 in E; lia. }
      unfold read_line. destruct (verdict l) as [[[id r]|] more]; [|apply Hx; cbn; auto].
      destruct (g_pending p !! id); [|apply Hx; cbn; auto].
      rewrite effort_tell. apply Hx; cbn; try done. destruct more; auto.
    + destruct (g_out p); [done|]. injection Hs as <-.
      pose proof (effort_g w g p (with_read p (g_nread p) LExit (g_running p)) Ep) as E. unfold wg in E. cbn [with_pending with_read with_write with_queue g_queue g_lines g_nread g_write g_read length] in E. rewrite Er in E. lia.
  - destruct (f_programs w !! g) as [p|] eqn:Ep; [|done]. destruct (g_read p) eqn:Er; try done. injection Hs as <-.
    rewrite effort_forget. pose proof (effort_g w g p (with_read p (g_nread p) LDrain (g_running p)) Ep) as E. unfold wg in E. cbn [with_pending with_read with_write with_queue g_queue g_lines g_nread g_write g_read length] in E. rewrite Er in E. lia.
  - destruct (f_programs w !! g) as [p|] eqn:Ep; [|done]. destruct (g_read p) eqn:Er; try done. injection Hs as <-.
    rewrite effort_tell_if. set (p' := with_pending _ _ _). pose proof (effort_g w g p p' Ep) as E. unfold wg in E. subst p'. cbn [with_pending with_read with_write with_queue g_queue g_lines g_nread g_write g_read length] in E. rewrite Er in E. lia.
  - destruct (f_calls w !! k) as [[r [|g|g|] [|s x|]]|] eqn:Ek; try done; injection Hs as <-;
      pose proof (effort_fend _ _ _ (Answered s x) Ek) as E1 || pose proof (effort_fend _ _ _ NoTask Ek) as E1; cbn [wc fc_st] in E1; lia.
Qed.

Theorem C36_comes_to_rest :
  forall w, exists n, forall es, Forall by_itself es -> is_Some (frun w es) -> length es <= n.
Proof.
  intros w. exists (effort w). intros es. revert w. induction es as [|e es IH]; intros w Hb [w' H]; [cbn; lia|].
  cbn in H. destruct (fstep w e) as [w1|] eqn:E; [|done]. inversion Hb; subst.
  pose proof (effort_step _ _ _ ltac:(eassumption) E). specialize (IH w1 ltac:(done) (ex_intro _ _ H)). cbn. lia.
Qed.
Print Assumptions C36_comes_to_rest.

(** A program that printed something that is not an answer is killed (and the next call starts
    another); at any time at most one program was not told to end. *)
Record kinv (cur : option nat) (ps : list program) : Prop := {
  k_others : forall g p, ps !! g = Some p -> cur <> Some g -> g_killed p = true;
  k_left : forall g p, ps !! g = Some p -> g_read p = LDrain \/ g_read p = LDone -> cur <> Some g;
  k_fine : forall g p n, ps !! g = Some p -> g_read p = LRun -> n < g_nread p -> g_lines p !! n <> Some Garbage;
  k_nread : forall g p, ps !! g = Some p -> g_nread p <= length (g_lines p)
}.
Notation kinv' w := (kinv (f_cur w) (f_programs w)).

Lemma kinv_prog w g p p' : kinv' w -> f_programs w !! g = Some p ->
  g_killed p' = g_killed p ->
  (g_read p' = LDrain \/ g_read p' = LDone -> f_cur w <> Some g) ->
  (forall n, g_read p' = LRun -> n < g_nread p' -> g_lines p' !! n <> Some Garbage) ->
  g_nread p' <= length (g_lines p') -> kinv' (set_g w g p').
Proof.
  intros [H1 H2 H3 H4] Hp E1 E2 E3 E4.
  assert (forall h q, <[g := p']> (f_programs w) !! h = Some q -> h = g /\ q = p' \/ f_programs w !! h = Some q) as Hx.
  { intros h q H. destruct (decide (h = g)) as [->|Hne].
    - rewrite list_lookup_insert in H by (by eapply lookup_lt_Some). injection H as <-. auto.
    - rewrite list_lookup_insert_ne in H by done. auto. }
  split; cbn [set_g f_cur f_programs].
  - intros h q H Hc. destruct (Hx _ _ H) as [[-> ->]|?]; [rewrite E1; by eapply H1|by eapply H1].
  - intros h q H. destruct (Hx _ _ H) as [[-> ->]|?]; [done|by eapply H2].
  - intros h q n H. destruct (Hx _ _ H) as [[-> ->]|?]; [by apply E3|by eapply H3].
  - intros h q H. destruct (Hx _ _ H) as [[-> ->]|?]; [done|by eapply H4].
Qed.

Lemma kinv_forget w g : kinv' w -> kinv' (forget w g).
Proof.
  intros I. unfold forget. case_bool_decide as E; [|done]. destruct I as [H1 H2 H3 H4]. cbn [f_cur f_programs].
  assert (forall h q, alter (fun p => Program (g_alive p) true (g_in p) (g_out p) (g_lines p) (g_nread p)
      (g_queue p) (g_pending p) (g_running p) (g_write p) (g_read p) (g_put p)) g (f_programs w) !! h = Some q ->
      exists p, f_programs w !! h = Some p /\ g_read q = g_read p /\ g_nread q = g_nread p /\ g_lines q = g_lines p
        /\ (h = g /\ g_killed q = true \/ h <> g /\ g_killed q = g_killed p)) as Hx.
  { intros h q H. destruct (decide (h = g)) as [->|].
    - rewrite list_lookup_alter in H. destruct (f_programs w !! g) as [p|]; [|done]. injection H as <-. exists p. cbn. auto 10.
    - rewrite list_lookup_alter_ne in H by done. exists q. auto 10. }
  split.
  - intros h q H _. destruct (Hx _ _ H) as (p & Hp & _ & _ & _ & [[_ E1]|[Hne ->]]); [done|]. eapply H1; [done|]. congruence.
  - done.
  - intros h q n H. destruct (Hx _ _ H) as (p & Hp & -> & -> & -> & _). by eapply H3.
  - intros h q H. destruct (Hx _ _ H) as (p & Hp & _ & -> & -> & _). by eapply H4.
Qed.

Lemma forget_cur w g : f_cur (forget w g) <> Some g.
Proof. unfold forget. by case_bool_decide. Qed.

Lemma kinv_step w e w' : finv w -> kinv' w -> fstep w e = Some w' -> kinv' w'.
Proof.
  intros V I Hs. pose proof I as [H1 H2 H3 H4].
  assert (forall g p p', f_programs w !! g = Some p -> g_killed p' = g_killed p -> g_read p' = g_read p -> g_nread p' = g_nread p ->
    g_lines p' = g_lines p -> kinv' (set_g w g p')) as Hsame.
  { intros g p p' Hp Ek Er En El. eapply kinv_prog; [done|done|done|..]; rewrite ?Er, ?En, ?El; eauto. }
  destruct e; cbn [fstep] in Hs.
  - destruct (f_calls w !! k) as [[r [] m]|] eqn:Ek; try done.
    assert (Some (if can
         then set_c (FWorld (Some (length (f_programs w)))
                 (f_programs match f_cur w with Some h => forget w h | None => w end ++ [new_program])
                 (f_calls match f_cur w with Some h => forget w h | None => w end)) k
                (FCall r (FSend (length (f_programs w))) m)
         else fend w k NoSigner) = Some w' -> kinv' w') as Hspawn.
    { intros [= <-]. destruct can; [|done].
      set (w0 := match f_cur w with Some h => forget w h | None => w end).
      assert (kinv' w0) as I0 by (pose proof (fun h => kinv_forget w h I); subst w0; destruct (f_cur w) eqn:Ec; rewrite ?Ec; done).
      assert (length (f_programs w0) = length (f_programs w)) as El by (subst w0; destruct (f_cur w); [by rewrite forget_length|done]).
      assert (forall g, f_cur w0 <> Some g) as Ec.
      { subst w0. destruct (f_cur w) as [h|] eqn:Eh; [|by rewrite Eh]. intros g. unfold forget. by rewrite bool_decide_true. }
      clearbody w0. destruct I0 as [K1 K2 K3 K4]. cbn [set_c set_calls f_cur f_programs].
      assert (forall h q, (f_programs w0 ++ [new_program]) !! h = Some q -> f_programs w0 !! h = Some q /\ h < length (f_programs w)
        \/ h = length (f_programs w) /\ q = new_program) as Hx.
      { intros h q [H|[Hl H]]%lookup_app_Some; [left; split; [done|]; rewrite <- El; by eapply lookup_lt_Some|]. right.
        destruct (h - length (f_programs w0)) eqn:E; [|done]. injection H as <-. split; [lia|done]. }
      split.
      - intros h q H Hne. destruct (Hx _ _ H) as [[? _]|[-> ->]]; [by eapply K1|done].
      - intros h q H Hrd. destruct (Hx _ _ H) as [[? ?]|[-> ->]]; [intros [= E]; lia|]. by destruct Hrd.
      - intros h q n H Hrd Hn. destruct (Hx _ _ H) as [[? _]|[-> ->]]; [by eapply K3|cbn in Hn; lia].
      - intros h q H. destruct (Hx _ _ H) as [[? _]|[-> ->]]; [by eapply K4|done]. }
    destruct (f_cur w) as [h|] eqn:Eh; [|by apply Hspawn].
    destruct (f_programs w !! h) as [p|] eqn:Eph; [|by apply Hspawn].
    destruct (g_alive p); [|by apply Hspawn]. injection Hs as <-. cbn. by rewrite Eh.
  - destruct (f_calls w !! k) as [[r [|g|g|] m]|] eqn:Ek; try done.
    destruct (f_programs w !! g) as [p|] eqn:Ep; [|done].
    assert (g_write p = WDone \/ g_write p <> WDone) as [E|E] by (destruct (g_write p); first [by left|by right]).
    { rewrite E in Hs. by injection Hs as <-. }
    assert ((if (N.of_nat (length (g_queue p)) <? CHANNEL)%N
             then Some (set_c (set_g w g (with_queue p (g_queue p ++ [k]))) k (FCall r (FWait g) m)) else None) = Some w') as Hs'
      by (by destruct (g_write p)).
    destruct (_ <? _)%N; [|done]. injection Hs' as <-. by apply (Hsame g p).
  - destruct (f_programs w !! g) as [p|] eqn:Ep; [|done].
    destruct (g_write p) eqn:Ew; try done. destruct (g_queue p) as [|k q] eqn:Eq.
    { destruct (has_senders w g); [done|]. injection Hs as <-. by apply (Hsame g p). }
    destruct (f_calls w !! k) as [c|] eqn:Ek; [|done].
    destruct (g_running p) eqn:Erun; injection Hs as <-; [|by apply (Hsame g p)].
    destruct (g_pending p !! _); by apply (Hsame g p).
  - destruct (f_programs w !! g) as [p|] eqn:Ep; [|done].
    destruct (g_write p) eqn:Ew; try done. destruct (g_in p); [done|].
    destruct (f_calls w !! k) as [c|] eqn:Ek; [|done]. injection Hs as <-.
    destruct (g_pending p !! _); by apply (Hsame g p).
  - destruct (f_programs w !! g) as [p|] eqn:Ep; [|done]. destruct (g_write p) eqn:Ew; try done. injection Hs as <-.
    apply kinv_forget. by apply (Hsame g p).
  - destruct (f_programs w !! g) as [p|] eqn:Ep; [|done]. destruct (g_write p) eqn:Ew; try done. injection Hs as <-.
    by apply (Hsame g p).
  - destruct (f_programs w !! g) as [p|] eqn:Ep; [|done]. destruct (g_read p) eqn:Er; try done.
    destruct (g_lines p !! g_nread p) as [l|] eqn:El.
    + injection Hs as <-. assert (g_nread p < length (g_lines p)) as Hlt by (by eapply lookup_lt_Some).
      assert (forall p', g_killed p' = g_killed p -> g_lines p' = g_lines p -> g_nread p' = S (g_nread p) ->
        g_read p' = LExit \/ g_read p' = LRun /\ l <> Garbage -> kinv' (set_g w g p')) as Hx.
      { intros p' E1 E2 E3 E4. eapply kinv_prog; [done|exact Ep|done|..]; rewrite ?E2, ?E3; [intros HH; exfalso; destruct E4 as [E4|[E4 _]], HH; congruence| |lia].
        intros n Hr Hn Hg. destruct E4 as [?|[_ Hl]]; [congruence|]. destruct (decide (n = g_nread p)) as [->|].
        - rewrite El in Hg. by injection Hg as ->.
        - eapply H3; [exact Ep|done| |exact Hg]. lia. }
      unfold read_line. destruct (verdict l) as [[[id r]|] more] eqn:Ev.
      * assert (l <> Garbage) by (by intros ->).
        destruct (g_pending p !! id); [|apply Hx; cbn; auto].
        change (kinv' (set_g w g (with_read (with_pending p (delete id (g_pending p)) (g_put p)) (S (g_nread p))
          (if more then LRun else LExit) (g_running p)))). apply Hx; try done. cbn. destruct more; auto.
      * apply Hx; cbn; auto.
    + destruct (g_out p); [done|]. injection Hs as <-. eapply kinv_prog; [done|exact Ep|done|..]; cbn; [by intros []|done|by eapply H4].
  - destruct (f_programs w !! g) as [p|] eqn:Ep; [|done]. destruct (g_read p) eqn:Er; try done. injection Hs as <-.
    (* forgotten and [LDrain] come at once *)
    set (p' := with_read p (g_nread p) LDrain (g_running p)).
    assert (kinv' (set_g (forget w g) g (match f_programs (forget w g) !! g with Some q => with_read q (g_nread q) LDrain (g_running q) | None => p' end))) as K.
    { assert (is_Some (f_programs (forget w g) !! g)) as [q Hq].
      { apply lookup_lt_is_Some. rewrite forget_length. by eapply lookup_lt_Some. }
      rewrite Hq. pose proof (kinv_forget w g I) as [_ _ _ Hn]. eapply kinv_prog; [by apply kinv_forget|exact Hq|done|..]; cbn.
      - intros _. apply forget_cur.
      - done.
      - by eapply Hn. }
    replace (forget (set_g w g p') g) with (set_g (forget w g) g (match f_programs (forget w g) !! g with Some q => with_read q (g_nread q) LDrain (g_running q) | None => p' end)); [exact K|].
    unfold forget. cbn [set_g f_cur f_programs f_calls]. case_bool_decide as E.
    + unfold set_g. cbn [f_cur f_programs f_calls]. f_equal. rewrite list_lookup_alter, Ep. cbn.
      apply list_eq. intros i. assert (g < length (f_programs w)) by (by eapply lookup_lt_Some).
      destruct (decide (i = g)) as [->|].
      * rewrite list_lookup_insert by (by rewrite alter_length). rewrite list_lookup_alter, list_lookup_insert by done. done.
      * rewrite list_lookup_insert_ne, !list_lookup_alter_ne, list_lookup_insert_ne by done. done.
    + rewrite Ep. done.
  - destruct (f_programs w !! g) as [p|] eqn:Ep; [|done]. destruct (g_read p) eqn:Er; try done. injection Hs as <-.
    set (m := Told None _). set (P := fun _ _ => bool_decide _).
    change (kinv' (set_g w g (with_pending (with_read p (g_nread p) LDone false) ∅ (g_put p)))).
    eapply kinv_prog; [done|exact Ep|done|..].
    + intros _. eapply H2; [exact Ep|]. by left.
    + done.
    + by eapply (H4 g p).
  - destruct (f_calls w !! k) as [[r [|g|g|] [|s x|]]|] eqn:Ek; try done; by injection Hs as <-.
  - by injection Hs as <-.
  - destruct (f_calls w !! k) as [[r [] m]|] eqn:Ek; try done; by injection Hs as <-.
  - destruct (f_programs w !! g) as [p|] eqn:Ep; [|done]. destruct (g_write p) eqn:Ew; try done. destruct (g_in p); [|done].
    injection Hs as <-. by apply (Hsame g p).
  - destruct (f_programs w !! g) as [p|] eqn:Ep; [|done]. destruct (g_out p); [|done].
    injection Hs as <-. eapply kinv_prog; [done|exact Ep|done|..]; cbn.
    + by eapply H2.
    + intros n Hr Hn. pose proof (H4 _ _ Ep). rewrite lookup_app_l by lia. by eapply H3.
    + pose proof (H4 _ _ Ep). rewrite app_length. lia.
  - destruct (f_programs w !! g) as [p|] eqn:Ep; [|done]. injection Hs as <-. by apply (Hsame g p).
  - destruct (f_programs w !! g) as [p|] eqn:Ep; [|done]. injection Hs as <-. by apply (Hsame g p).
  - destruct (f_programs w !! g) as [p|] eqn:Ep; [|done]. injection Hs as <-. by apply (Hsame g p).
Qed.

Lemma kinv_run es w w' : finv w -> kinv' w -> frun w es = Some w' -> kinv' w'.
Proof.
  revert w. induction es as [|e es IH]; intros w V I H; cbn in H; [by injection H as <-|].
  destruct (fstep w e) as [w1|] eqn:E; [|done]. eapply IH; [by eapply finv_step|by eapply kinv_step|done].
Qed.

Theorem C36_garbage_kills :
  forall es w g n p,
    frun fnew es = Some w -> quiet w -> printed w g n Garbage -> f_programs w !! g = Some p -> g_killed p = true.
Proof.
  intros es w g n p H Hqt (q & Hq & Hl & Hn) Hp. rewrite Hp in Hq. injection Hq as <-.
  assert (kinv' w) as [K1 K2 K3 K4] by (eapply kinv_run; [apply finv_fnew| |done]; by split).
  eapply K1; [done|]. eapply K2; [done|]. destruct (g_read p) eqn:Er; [by destruct (K3 g p n)| |by left|by right].
  pose proof (Hqt (LForget g) Logic.I) as Hs. cbn [fstep] in Hs. by rewrite Hp, Er in Hs.
Qed.
Print Assumptions C36_garbage_kills.

Theorem C36_one_program :
  forall es w g1 g2 p1 p2,
    frun fnew es = Some w -> f_programs w !! g1 = Some p1 -> f_programs w !! g2 = Some p2 ->
    g_killed p1 = false -> g_killed p2 = false -> g1 = g2.
Proof.
  intros es w g1 g2 p1 p2 H H1 H2 K1 K2.
  assert (kinv' w) as [K _ _ _] by (eapply kinv_run; [apply finv_fnew| |done]; by split).
  assert (forall g p, f_programs w !! g = Some p -> g_killed p = false -> f_cur w = Some g) as Hc.
  { intros g p Hp Hk. destruct (decide (f_cur w = Some g)); [done|]. rewrite (K g p) in Hk; done. }
  pose proof (Hc _ _ H1 K1). pose proof (Hc _ _ H2 K2). congruence.
Qed.
Print Assumptions C36_one_program.

(** ** What does not hold *)

(** A program that does not answer is waited for: there is no time limit here. *)
Definition handed (r : sign_req) : list fevent := [Call r; Get 0 true; Push 0; Take 0; WOk 0].

Theorem C36_silent_refuted :
  forall r, exists w, frun fnew (handed r) = Some w /\ quiet w /\ unanswered w 0 0.
Proof.
  intros r. set (p := Program true false true true [] 0 [] (<[s_id r := 0]> ∅) true WIdle LRun [0]).
  exists (FWorld (Some 0) [p] [FCall r (FWait 0) NoMail]). split; [|split].
  - change (frun fnew (handed r)) with
      (frun (tell_opt (FWorld (Some 0) [Program true false true true [] 0 [] (<[s_id r := 0]> ∅) true (WWrite 0) LRun [0]]
        [FCall r (FWait 0) NoMail]) ((∅ : gmap bytes nat) !! s_id r) Lost) [WOk 0]).
    by rewrite lookup_empty.
  - intros e He. destruct e as [k ?|k|g|g|g|g|g|g|g|k|r'|k|g|g l|g|g|g]; try done; destruct k as [|[|k]] || destruct g as [|[|g]]; done.
  - exists p, (FCall r (FWait 0) NoMail). repeat split; try done. left.
Qed.
Print Assumptions C36_silent_refuted.

(** Two requests with the same id (ids are chosen by clients, on different connections): an honest
    program answers both requests in turn; the second call ends with the signature made for the
    first, and the first call with an error. *)
Definition both (r1 r2 : sign_req) (s1 s2 : bytes) : list fevent :=
  [Call r1; Call r2; Get 0 true; Get 1 true; Push 0; Push 1; Take 0; WOk 0; Take 0; WOk 0;
   Print 0 (Reply (s_id r1) (Some s1) None); Print 0 (Reply (s_id r2) (Some s2) None); Read 0; Read 0; Poll 0; Poll 1].

Definition outcomes (o : option fworld) : option (list fstate) := option_map (fun w => map fc_st (f_calls w)) o.

Lemma over_of w k o : map fc_st (f_calls w) !! k = Some (FEnd o) -> over w k o.
Proof. rewrite list_lookup_fmap. destruct (f_calls w !! k) as [c|] eqn:E; [|done]. intros [= H]. by exists c. Qed.

Theorem C36_same_id_refuted :
  exists r1 r2 s1 s2 sig1 sig2 w,
    s_id r1 = s_id r2 /\ s_data r1 <> s_data r2 /\ proper s1 sig1 /\ proper s2 sig2 /\ sig1 <> sig2
    /\ frun fnew (both r1 r2 s1 s2) = Some w
    /\ over w 0 NoTask /\ over w 1 (Answered (Some (0, 0)) (Ok sig1)).
Proof.
  set (r1 := SignReq (str "1") (replicate 32 x01) (str "pay one")).
  set (r2 := SignReq (str "1") (replicate 32 x01) (str "pay all")).
  set (s1 := to_b64std (replicate 64 x11)). set (s2 := to_b64std (replicate 64 x22)).
  assert (outcomes (frun fnew (both r1 r2 s1 s2)) = Some [FEnd NoTask; FEnd (Answered (Some (0, 0)) (Ok (replicate 64 x11)))]) as E
    by (vm_compute; reflexivity).
  destruct (frun fnew (both r1 r2 s1 s2)) as [w|] eqn:Ew; [|done]. injection E as E.
  exists r1, r2, s1, s2, (replicate 64 x11), (replicate 64 x22), w.
  split; [done|]. split; [done|]. split; [by vm_compute|]. split; [by vm_compute|]. split; [done|]. split; [done|].
  split; apply over_of; by rewrite E.
Qed.
Print Assumptions C36_same_id_refuted.

(** Three calls: one answered, one refused by the program, one waiting when the program prints
    garbage; a fourth call gets a new program. *)
Example C36_ex :
  let r i := SignReq (str i) (replicate 32 x01) (str "data") in
  let s := to_b64std (replicate 64 x11) in
  outcomes (frun fnew [Call (r "a"%string); Call (r "b"%string); Call (r "c"%string); Get 0 true; Get 2 true; Get 1 false; Push 2; Push 0; Push 1;
    Take 0; WOk 0; Take 0; Print 0 (Reply (str "a") (Some s) None); WOk 0; Take 0; Read 0; WOk 0; Poll 0;
    Print 0 (Reply (str "c") None (Some (str "no"))); Print 0 Garbage; Read 0; Read 0; LForget 0; Call (r "d"%string); Get 3 true;
    Drain 0; Poll 1; Poll 2; Push 3; Take 1; WOk 1; Print 1 (Reply (str "d") (Some s) None); Read 1; Poll 3])
  = Some [FEnd (Answered (Some (0, 0)) (Ok (replicate 64 x11))); FEnd (Answered None (Err (str "fallback executable closed")));
      FEnd (Answered (Some (0, 1)) (Err (str "no"))); FEnd (Answered (Some (1, 0)) (Ok (replicate 64 x11)))].
Proof. vm_compute; reflexivity. Qed.
