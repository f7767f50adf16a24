(** * PropertiesClient: calls of a client (C37) *)

From Verif Require Import Base Types Client.
From Verif Require Import Msgpack Codec.

(** ** C37: a client call returns the answer to its own request *)

(** Vocabulary: what was received and asked for, in order; calls that have not ended; how the
    [k]-th call ended. *)
Definition received : list cevent -> list api := omap (fun e => match e with Incoming m => Some m | _ => None end).
Definition requests : list cevent -> list api := omap (fun e => match e with NewCall r => Some r | _ => None end).
Definition live (c : call) : bool := match c_st c with CEnd _ => false | _ => true end.
Definition ended (w : client) (k : nat) (o : outcome) : Prop :=
  exists c, k_calls w !! k = Some c /\ c_st c = CEnd o.
Definition underway (w : client) (k : nat) : Prop := exists c, k_calls w !! k = Some c /\ live c = true.

(** *** What an event does to the calls *)

Lemma lost_req c : c_req (lost_mail c) = c_req c.
Proof. by destruct c as [? ? []]. Qed.
Lemma lost_st c : c_st (lost_mail c) = c_st c.
Proof. by destruct c as [? ? []]. Qed.

Lemma lose_calls w k j :
  k_calls (lose w k) !! j = if decide (j = k) then lost_mail <$> k_calls w !! j else k_calls w !! j.
Proof.
  unfold lose. destruct (decide (j = k)) as [->|Hne].
  - destruct (k_calls w !! k) as [[req st []]|] eqn:E; cbn; rewrite ?E; try done.
    apply list_lookup_insert. by eapply lookup_lt_Some.
  - destruct (k_calls w !! k) as [[req st []]|] eqn:E; cbn; try done. by apply list_lookup_insert_ne.
Qed.
Lemma lose_pending w k : k_pending (lose w k) = k_pending w.
Proof. unfold lose. by destruct (k_calls w !! k) as [[? ? []]|]. Qed.

Lemma unregister_calls w id j :
  k_calls (unregister w id) !! j =
  if decide (k_pending w !! id = Some j) then lost_mail <$> k_calls w !! j else k_calls w !! j.
Proof.
  unfold unregister. destruct (k_pending w !! id) as [k|] eqn:E; [|by rewrite decide_False].
  rewrite lose_calls. cbn [set_pending k_calls].
  destruct (decide (j = k)) as [->|]; [by rewrite decide_True|rewrite decide_False; congruence].
Qed.
Lemma unregister_pending w id : k_pending (unregister w id) = delete id (k_pending w).
Proof.
  unfold unregister. destruct (k_pending w !! id) as [k|] eqn:E; [by rewrite lose_pending|].
  by rewrite delete_notin.
Qed.
Lemma set_calls w k c j c0 : k_calls w !! k = Some c0 ->
  k_calls (set_call w k c) !! j = if decide (j = k) then Some c else k_calls w !! j.
Proof.
  intros H. cbn. destruct (decide (j = k)) as [->|].
  - apply list_lookup_insert. by eapply lookup_lt_Some.
  - by apply list_lookup_insert_ne.
Qed.
Lemma unregister_rest w id : k_recv (unregister w id) = k_recv w /\ k_closed (unregister w id) = k_closed w
  /\ k_seen (unregister w id) = k_seen w.
Proof.
  unfold unregister, lose. destruct (k_pending w !! id); [|done]. cbn. by destruct (k_calls w !! n) as [[? ? []]|].
Qed.
Lemma finish_rest w k o : k_recv (finish w k o) = k_recv w /\ k_closed (finish w k o) = k_closed w
  /\ k_seen (finish w k o) = k_seen w.
Proof.
  unfold finish. destruct (k_calls w !! k) as [[req st ml]|]; [|done].
  by destruct (unregister_rest (set_call w k (Call req (CEnd o) ml)) (msg_id req)) as (-> & -> & ->).
Qed.

(** How one call may change: its mail is lost or a message that is received; its state. *)
Definition mail_change (w : client) (e : cevent) (k : nat) (c c' : call) : Prop :=
  c_mail c' = c_mail c \/ (c_mail c = MEmpty /\ (c_mail c' = MLost
    \/ exists m, e = Incoming m /\ msg_id m = msg_id (c_req c) /\ k_pending w !! msg_id m = Some k
        /\ k_recv w = RRun /\ c_mail c' = MGot (k_seen w) m)).
Definition end_fits (o : outcome) (ml : mail) : Prop :=
  match o with Answer n m => ml = MGot n m | Aborted => ml = MLost | TimedOut => ml = MEmpty | _ => True end.

(** What holds of pending calls. *)
Record pinv (w : client) : Prop := {
  p_sound : forall id k, k_pending w !! id = Some k ->
    exists c, k_calls w !! k = Some c /\ msg_id (c_req c) = id /\ live c = true /\ c_mail c = MEmpty;
  p_full : forall k c, k_calls w !! k = Some c -> live c = true -> c_mail c = MEmpty ->
    k_pending w !! msg_id (c_req c) = Some k
}.

Lemma finish_calls w k o c0 j : pinv w -> k_calls w !! k = Some c0 ->
  k_calls (finish w k o) !! j =
  if decide (j = k) then
    Some (if decide (k_pending w !! msg_id (c_req c0) = Some k)
          then lost_mail (Call (c_req c0) (CEnd o) (c_mail c0)) else Call (c_req c0) (CEnd o) (c_mail c0))
  else if decide (k_pending w !! msg_id (c_req c0) = Some j) then lost_mail <$> k_calls w !! j
  else k_calls w !! j.
Proof.
  intros I H. unfold finish. rewrite H. destruct c0 as [req st ml]. cbn [c_req c_mail].
  rewrite unregister_calls, (set_calls w k _ j _ H). cbn [set_call k_pending].
  destruct (decide (j = k)) as [->|]; [|done]. by destruct (decide _).
Qed.
Lemma finish_pending w k o c0 : k_calls w !! k = Some c0 ->
  k_pending (finish w k o) = delete (msg_id (c_req c0)) (k_pending w).
Proof. intros H. unfold finish. rewrite H. destruct c0 as [req st ml]. by rewrite unregister_pending. Qed.

Lemma pinv_finish w k o c0 : pinv w -> k_calls w !! k = Some c0 -> pinv (finish w k o).
Proof.
  intros [S F] H. split.
  - intros id j Hp. rewrite (finish_pending _ _ _ _ H) in Hp. apply lookup_delete_Some in Hp as [Hne Hp].
    destruct (S id j Hp) as (c & Hc & Hid & Hl & Hm). exists c. split; [|done].
    rewrite (finish_calls _ _ _ _ _ (Build_pinv _ S F) H).
    destruct (decide (j = k)) as [->|].
    + exfalso. rewrite H in Hc. injection Hc as ->. done.
    + rewrite decide_False; [done|]. intros E. destruct (S _ _ E) as (c' & Hc' & Hid' & _). congruence.
  - intros j c Hc Hl Hm. rewrite (finish_calls _ _ _ _ _ (Build_pinv _ S F) H) in Hc.
    rewrite (finish_pending _ _ _ _ H). destruct (decide (j = k)) as [->|].
    + exfalso. injection Hc as <-. destruct (decide _); [|done]. unfold live in Hl. by rewrite lost_st in Hl.
    + destruct (decide (k_pending w !! msg_id (c_req c0) = Some j)) as [E|E].
      * exfalso. destruct (k_calls w !! j) as [c1|]; [|done]. injection Hc as <-. by destruct c1 as [? ? []].
      * pose proof (F j c Hc Hl Hm) as Hp. rewrite lookup_delete_ne; [done|]. congruence.
Qed.

Lemma pinv_same w w' : k_pending w' = k_pending w -> k_calls w' = k_calls w -> pinv w -> pinv w'.
Proof. intros Ep Ec [S F]. split; by rewrite Ep, Ec. Qed.

Lemma pinv_set w k c c' : pinv w -> k_calls w !! k = Some c -> c_req c' = c_req c -> c_mail c' = c_mail c ->
  live c = true -> live c' = true -> pinv (set_call w k c').
Proof.
  intros [S F] H Er Em Hl Hl'. split.
  - intros id j Hp. destruct (S id j Hp) as (c1 & Hc & Hid & Hl1 & Hm).
    destruct (decide (j = k)) as [->|].
    + exists c'. rewrite (set_calls _ _ _ _ _ H), decide_True by done.
      rewrite H in Hc. injection Hc as ->. rewrite Er, Em. done.
    + exists c1. by rewrite (set_calls _ _ _ _ _ H), decide_False.
  - intros j c1 Hc Hl1 Hm. rewrite (set_calls _ _ _ _ _ H) in Hc. destruct (decide (j = k)) as [->|].
    + injection Hc as <-. rewrite Er. apply F; [done|done|congruence].
    + by apply F.
Qed.

Lemma pinv_step w e : pinv w -> pinv (cstep w e).
Proof.
  intros I. destruct e as [req|k|k ok|m|k|k|k| | | | |]; cbn [cstep].
  - set (w1 := Client (k_pending w) (k_calls w ++ [Call req CSend MEmpty]) (k_recv w) (k_closed w) (k_seen w)).
    destruct I as [S F].
    assert (forall j c, k_calls w !! j = Some c -> k_calls w1 !! j = Some c) as Hold.
    { intros j c H. unfold w1. cbn. rewrite lookup_app_l; [done|]. by eapply lookup_lt_Some. }
    assert (k_pending w1 = k_pending w) as Ep by done.
    assert (k_calls w1 !! length (k_calls w) = Some (Call req CSend MEmpty)) as Hnew.
    { unfold w1. cbn. by rewrite lookup_app_r, Nat.sub_diag by lia. }
    assert (forall j c, k_calls w1 !! j = Some c -> k_calls w !! j = Some c \/ (j = length (k_calls w) /\ c = Call req CSend MEmpty)) as Hinv.
    { intros j c H. unfold w1 in H. cbn in H. apply lookup_app_Some in H as [H|[Hle H]]; [auto|]. right.
      destruct (j - length (k_calls w)) eqn:E; [|done]. cbn in H. injection H as <-. split; [lia|done]. }
    clearbody w1. unfold register. split.
    + intros id j Hp. cbn [set_pending k_pending k_calls] in *. apply lookup_insert_Some in Hp as [[<- <-]|[Hne Hp]].
      * exists (Call req CSend MEmpty). rewrite unregister_calls, decide_False; [done|].
        rewrite Ep. intros E. destruct (S _ _ E) as (c & Hc & _). apply lookup_lt_Some in Hc. lia.
      * rewrite unregister_pending, Ep in Hp. apply lookup_delete_Some in Hp as [_ Hp].
        destruct (S id j Hp) as (c & Hc & Hid & Hl & Hm). exists c. split; [|done].
        rewrite unregister_calls, decide_False; [by apply Hold|]. rewrite Ep. intros E.
        destruct (S _ _ E) as (c' & Hc' & Hid' & _). congruence.
    + intros j c Hc Hl Hm. cbn [set_pending k_pending k_calls] in *. rewrite unregister_calls, Ep in Hc.
      destruct (decide (k_pending w !! msg_id req = Some j)) as [E|E].
      * exfalso. destruct (k_calls w1 !! j) as [c1|]; [|done]. injection Hc as <-. by destruct c1 as [? ? []].
      * apply Hinv in Hc as [Hc|[-> ->]]; [|apply lookup_insert].
        pose proof (F j c Hc Hl Hm) as Hp. rewrite lookup_insert_ne by congruence.
        rewrite unregister_pending, Ep, lookup_delete_ne; [done|congruence].
  - destruct (k_calls w !! k) as [[req [] ml]|] eqn:E; try done.
    destruct (k_closed w); [by eapply pinv_finish|by eapply pinv_set].
  - destruct (k_calls w !! k) as [[req [] ml]|] eqn:E; try done.
    destruct ok; [by eapply pinv_set|by eapply pinv_finish].
  - destruct (k_recv w); try (by apply (pinv_same w)).
    destruct (k_pending w !! msg_id m) as [k|] eqn:Ep; [|by apply (pinv_same w)].
    destruct I as [S F]. destruct (S _ _ Ep) as (c & Hc & Hid & Hl & Hm). rewrite Hc.
    destruct c as [req st ml]. cbn in Hid, Hm. subst ml. split; cbn [set_call set_pending k_pending k_calls].
    + intros id j Hp. apply lookup_delete_Some in Hp as [Hne Hp].
      destruct (S id j Hp) as (c1 & Hc1 & Hid1 & Hl1 & Hm1). exists c1. split; [|done].
      rewrite list_lookup_insert_ne; [done|]. intros ->. rewrite Hc in Hc1. injection Hc1 as <-. cbn in Hid1. congruence.
    + intros j c1 Hc1 Hl1 Hm1. destruct (decide (j = k)) as [->|].
      * rewrite list_lookup_insert in Hc1 by (by eapply lookup_lt_Some). by injection Hc1 as <-.
      * rewrite list_lookup_insert_ne in Hc1 by done. pose proof (F j c1 Hc1 Hl1 Hm1) as Hp.
        rewrite lookup_delete_ne; [done|congruence].
  - destruct (k_calls w !! k) as [[req [] []]|] eqn:E; try done; by eapply pinv_finish.
  - destruct (k_calls w !! k) as [[req [] []]|] eqn:E; try done; by eapply pinv_finish.
  - destruct (k_calls w !! k) as [[req [] ml]|] eqn:E; try done; by eapply pinv_finish.
  - destruct (k_recv w); try done. by apply (pinv_same w).
  - destruct (k_recv w); try done. by apply (pinv_same w).
  - destruct (k_recv w); try done. destruct I as [S F]. split; [done|].
    intros j c Hc Hl Hm. exfalso. unfold clear in Hc. cbn in Hc. rewrite list_lookup_imap in Hc.
    destruct (k_calls w !! j) as [c1|] eqn:E; [|done]. cbn in Hc.
    destruct (bool_decide_reflect (k_pending w !! msg_id (c_req c1) = Some j)) as [Hp|Hp].
    + injection Hc as <-. by destruct c1 as [? ? []].
    + injection Hc as <-. apply Hp. by apply F.
  - by apply (pinv_same w).
  - destruct (k_recv w); try done; by apply (pinv_same w).
Qed.

Lemma pinv_run evs : pinv (crun new_client evs).
Proof.
  induction evs as [|e evs IH] using rev_ind; [by split|]. unfold crun. rewrite fold_left_app. by apply pinv_step.
Qed.

(** One event and one call. *)
Definition call_change (w : client) (e : cevent) (k : nat) (c c' : call) : Prop :=
  c_req c' = c_req c /\ mail_change w e k c c'
  /\ (c_st c' = c_st c \/ (live c = true /\ (live c' = true \/ exists o, c_st c' = CEnd o /\
        match o with TimedOut => True | _ => end_fits o (c_mail c) end))).

Lemma change_refl w e k c : call_change w e k c c.
Proof. split; [done|]. split; [by left|by left]. Qed.
Lemma change_lost w e k c : call_change w e k c (lost_mail c).
Proof.
  destruct c as [req st ml]. split; [by destruct ml|]. split; [|left; by destruct ml].
  destruct ml; [right; split; [done|by left]|by left|by left].
Qed.

Lemma finish_change w e k o c0 : pinv w -> k_calls w !! k = Some c0 -> live c0 = true ->
  match o with TimedOut => True | _ => end_fits o (c_mail c0) end ->
  forall j c, k_calls w !! j = Some c -> exists c', k_calls (finish w k o) !! j = Some c' /\ call_change w e j c c'.
Proof.
  intros I H Hl Ho j c Hc. rewrite (finish_calls _ _ _ _ _ I H).
  destruct (decide (j = k)) as [->|].
  - rewrite H in Hc. injection Hc as <-. eexists. split; [done|].
    assert (forall ml, mail_change w e k c0 (Call (c_req c0) (CEnd o) ml) ->
      call_change w e k c0 (Call (c_req c0) (CEnd o) ml)) as Hx.
    { intros ml Hm. split; [done|]. split; [done|]. right. split; [done|]. right. exists o. done. }
    destruct (decide _); [|apply Hx; by left].
    destruct c0 as [req st []]; unfold lost_mail; cbn [c_mail c_req c_st]; apply Hx; [right; split; [done|by left]|by left..].
  - destruct (decide _); rewrite Hc; [exists (lost_mail c)|exists c]; (split; [done|]); [apply change_lost|apply change_refl].
Qed.

Lemma set_change w e k c0 c1 : k_calls w !! k = Some c0 -> call_change w e k c0 c1 ->
  forall j c, k_calls w !! j = Some c -> exists c', k_calls (set_call w k c1) !! j = Some c' /\ call_change w e j c c'.
Proof.
  intros H Hch j c Hc. rewrite (set_calls _ _ _ _ _ H). destruct (decide (j = k)) as [->|].
  - exists c1. split; [done|]. congruence.
  - exists c. split; [done|apply change_refl].
Qed.

Lemma change_step w e : pinv w -> forall j c, k_calls w !! j = Some c ->
  exists c', k_calls (cstep w e) !! j = Some c' /\ call_change w e j c c'.
Proof.
  intros I.
  assert (forall j c, k_calls w !! j = Some c -> exists c', k_calls w !! j = Some c' /\ call_change w e j c c') as Hid.
  { intros j c Hc. exists c. split; [done|apply change_refl]. }
  destruct e as [req|k|k ok|m|k|k|k| | | | |]; cbn [cstep].
  - intros j c Hc. unfold register. cbn [set_pending k_calls]. rewrite unregister_calls. cbn [k_pending k_calls].
    rewrite lookup_app_l by (by eapply lookup_lt_Some). rewrite Hc. cbn.
    destruct (decide _); eexists; (split; [done|]); [apply change_lost|apply change_refl].
  - destruct (k_calls w !! k) as [[req [] ml]|] eqn:E; try done.
    destruct (k_closed w); [by eapply finish_change|]. eapply set_change; [done|].
    split; [done|]. split; [by left|]. right. auto.
  - destruct (k_calls w !! k) as [[req [] ml]|] eqn:E; try done.
    destruct ok; [|by eapply finish_change]. eapply set_change; [done|].
    split; [done|]. split; [by left|]. right. auto.
  - intros j c Hc. destruct (k_recv w) eqn:Er; try (by exists c; split; [|apply change_refl]).
    destruct (k_pending w !! msg_id m) as [k|] eqn:Ep; [|by exists c; split; [|apply change_refl]].
    destruct (p_sound _ I _ _ Ep) as (c0 & Hc0 & Hid0 & Hl & Hm). rewrite Hc0.
    destruct c0 as [req st ml]. cbn in Hid0, Hm. subst ml. cbn [set_call set_pending k_calls].
    destruct (decide (j = k)) as [->|].
    + exists (Call req st (MGot (k_seen w) m)). split; [apply list_lookup_insert; by eapply lookup_lt_Some|].
      rewrite Hc0 in Hc. injection Hc as <-. split; [done|]. split; [|by left].
      right. split; [done|]. right. exists m. done.
    + exists c. rewrite list_lookup_insert_ne by done. split; [done|apply change_refl].
  - destruct (k_calls w !! k) as [[req [] []]|] eqn:E; try done; by eapply finish_change.
  - destruct (k_calls w !! k) as [[req [] []]|] eqn:E; try done; by eapply finish_change.
  - destruct (k_calls w !! k) as [[req [] ml]|] eqn:E; try done; by eapply finish_change.
  - by destruct (k_recv w).
  - by destruct (k_recv w).
  - destruct (k_recv w); try done. intros j c Hc. unfold clear. cbn [set_recv k_calls k_pending].
    rewrite list_lookup_imap, Hc. cbn. destruct (bool_decide _); eexists; (split; [done|]); [apply change_lost|apply change_refl].
  - done.
  - by destruct (k_recv w).
Qed.

Lemma length_finish w k o : length (k_calls (finish w k o)) = length (k_calls w).
Proof.
  unfold finish. destruct (k_calls w !! k) as [[? ? ?]|]; [|done]. unfold unregister, lose.
  destruct (k_pending _ !! _) as [j|]; cbn; [|apply insert_length].
  destruct (_ !! j) as [[? ? []]|]; cbn; by rewrite ?insert_length.
Qed.

Lemma rest_step w e :
  length (k_calls (cstep w e)) = length (k_calls w) + match e with NewCall _ => 1 | _ => 0 end
  /\ k_seen (cstep w e) = k_seen w + match e with Incoming _ => 1 | _ => 0 end.
Proof.
  destruct e as [req|k|k ok|m|k|k|k| | | | |]; cbn [cstep]; rewrite ?Nat.add_0_r.
  - unfold register. cbn [set_pending k_calls k_seen]. destruct (unregister_rest
      (Client (k_pending w) (k_calls w ++ [Call req CSend MEmpty]) (k_recv w) (k_closed w) (k_seen w)) (msg_id req)) as (_ & _ & ->).
    split; [|done]. unfold unregister, lose. cbn. destruct (k_pending w !! _) as [j|]; cbn; [|by rewrite app_length].
    destruct (_ !! j) as [[? ? []]|]; cbn; by rewrite ?insert_length, ?app_length.
  - destruct (k_calls w !! k) as [[req [] ml]|] eqn:E; try done.
    destruct (k_closed w); [|cbn; by rewrite insert_length]. split; [apply length_finish|apply finish_rest].
  - destruct (k_calls w !! k) as [[req [] ml]|] eqn:E; try done.
    destruct ok; [cbn; by rewrite insert_length|]. split; [apply length_finish|apply finish_rest].
  - destruct (k_recv w); try (split; [done|cbn; lia]).
    destruct (k_pending w !! msg_id m) as [k|]; [|split; [done|cbn; lia]].
    destruct (k_calls w !! k) as [[? ? []]|]; cbn; rewrite ?insert_length; split; (done || lia).
  - destruct (k_calls w !! k) as [[req [] []]|] eqn:E; try done; (split; [apply length_finish|apply finish_rest]).
  - destruct (k_calls w !! k) as [[req [] []]|] eqn:E; try done; (split; [apply length_finish|apply finish_rest]).
  - destruct (k_calls w !! k) as [[req [] ml]|] eqn:E; try done; (split; [apply length_finish|apply finish_rest]).
  - by destruct (k_recv w).
  - by destruct (k_recv w).
  - destruct (k_recv w); try done. cbn. by rewrite imap_length.
  - done.
  - by destruct (k_recv w).
Qed.

Lemma new_step w req : pinv w -> k_calls (cstep w (NewCall req)) !! length (k_calls w) = Some (Call req CSend MEmpty).
Proof.
  intros I. cbn [cstep]. unfold register. cbn [set_pending k_calls]. rewrite unregister_calls.
  cbn [k_pending k_calls]. rewrite decide_False.
  - rewrite lookup_app_r, Nat.sub_diag by lia. done.
  - intros E. destruct (p_sound _ I _ _ E) as (c & Hc & _). apply lookup_lt_Some in Hc. lia.
Qed.

(** *** Histories *)

Record hinv (evs : list cevent) (w : client) : Prop := {
  h_seen : k_seen w = length (received evs);
  h_len : length (k_calls w) = length (requests evs);
  h_call : forall k c, k_calls w !! k = Some c ->
    exists before after, evs = before ++ NewCall (c_req c) :: after /\ length (requests before) = k
      /\ forall n m, c_mail c = MGot n m ->
           received evs !! n = Some m /\ msg_id m = msg_id (c_req c) /\ length (received before) <= n;
  h_end : forall k c n m, k_calls w !! k = Some c -> c_st c = CEnd (Answer n m) -> c_mail c = MGot n m;
  h_once : forall k c k' c' n m m', k_calls w !! k = Some c -> k_calls w !! k' = Some c' ->
    c_mail c = MGot n m -> c_mail c' = MGot n m' -> k = k'
}.

Lemma received_app a b : received (a ++ b) = received a ++ received b.
Proof. apply omap_app. Qed.
Lemma requests_app a b : requests (a ++ b) = requests a ++ requests b.
Proof. apply omap_app. Qed.

(** Calls after an event come from calls before it, but for a new one. *)
Lemma step_inv w e : pinv w -> forall k c', k_calls (cstep w e) !! k = Some c' ->
  (exists c, k_calls w !! k = Some c /\ call_change w e k c c')
  \/ exists req, e = NewCall req /\ k = length (k_calls w) /\ c' = Call req CSend MEmpty.
Proof.
  intros I k c' H. destruct (k_calls w !! k) as [c|] eqn:E.
  - left. exists c. split; [done|]. destruct (change_step w e I k c E) as (c1 & H1 & H2). congruence.
  - right. apply lookup_lt_Some in H as Hlt. apply lookup_ge_None in E. destruct (rest_step w e) as [Hl _].
    destruct e; try (exfalso; lia). exists req. assert (k = length (k_calls w)) as -> by lia.
    split; [done|]. split; [done|]. rewrite (new_step w req I) in H. by injection H.
Qed.

Lemma hinv_step evs w e : pinv w -> hinv evs w -> hinv (evs ++ [e]) (cstep w e).
Proof.
  intros I [H1 H2 H3 H4 H5]. destruct (rest_step w e) as [Hl Hs].
  assert (forall n m, received evs !! n = Some m -> received (evs ++ [e]) !! n = Some m) as Hr.
  { intros n m H. rewrite received_app. rewrite lookup_app_l; [done|]. by eapply lookup_lt_Some. }
  assert (forall k c n m, k_calls w !! k = Some c -> c_mail c = MGot n m -> n < k_seen w) as Hlt.
  { intros k c n m Hc Hm. destruct (H3 k c Hc) as (b & a & _ & _ & H). destruct (H n m Hm) as [Hn _].
    apply lookup_lt_Some in Hn. lia. }
  split.
  - rewrite Hs, H1, received_app, app_length. by destruct e.
  - rewrite Hl, H2, requests_app, app_length. by destruct e.
  - intros k c' Hc'. apply step_inv in Hc' as [(c & Hc & Er & Hm & _)|(req & -> & -> & ->)]; [|..|done].
    + destruct (H3 k c Hc) as (b & a & Ev & Hk & Hx). exists b, (a ++ [e]). rewrite Er.
      split; [rewrite Ev at 1; by rewrite <- app_assoc|]. split; [done|]. intros n m Hg.
      destruct Hm as [Hm|[_ [Hm|(m' & -> & Hid & _ & _ & Hm)]]].
      * rewrite Hm in Hg. destruct (Hx n m Hg) as (Ha & Hb & Hd). auto.
      * congruence.
      * rewrite Hm in Hg. injection Hg as <- <-. rewrite received_app, H1, lookup_app_r, Nat.sub_diag by lia.
        split; [done|]. split; [done|]. rewrite Ev, received_app, app_length. lia.
    + exists evs, []. split; [done|]. split; [done|]. done.
  - intros k c' n m Hc' He. apply step_inv in Hc' as [(c & Hc & Er & Hm & Hst)|(req & -> & -> & ->)]; [|..|done]; [|done].
    assert (c_mail c = MGot n m) as E.
    { destruct Hst as [Hst|(Hlive & [Hlive'|(o & Ho & Hfit)])].
      - eapply H4; [done|congruence].
      - unfold live in Hlive'. by rewrite He in Hlive'.
      - rewrite He in Ho. injection Ho as <-. done. }
    destruct Hm as [Hm|[Hm _]]; congruence.
  - intros k c1 k' c2 n m m' Hc1 Hc2 Hm1 Hm2.
    apply step_inv in Hc1 as [(c & Hc & Er & Hm & _)|(req & -> & -> & ->)]; [| |done]; [|done].
    apply step_inv in Hc2 as [(c' & Hc' & Er' & Hm' & _)|(req & -> & -> & ->)]; [| |done]; [|done].
    destruct Hm as [Hm|[He [Hm|(x & -> & Hid & Hp & _ & Hm)]]]; [|congruence|].
    + rewrite Hm in Hm1. destruct Hm' as [Hm'|[He [Hm'|(x & -> & Hid & _ & _ & Hm')]]]; [|congruence|].
      * rewrite Hm' in Hm2. by eapply H5.
      * pose proof (Hlt _ _ _ _ Hc Hm1). rewrite Hm' in Hm2. injection Hm2 as <- <-. lia.
    + rewrite Hm in Hm1. injection Hm1 as <- <-.
      destruct Hm' as [Hm'|[He' [Hm'|(y & Ey & Hid' & Hp' & _ & Hm')]]]; [|congruence|].
      * rewrite Hm' in Hm2. pose proof (Hlt _ _ _ _ Hc' Hm2). lia.
      * injection Ey as <-.
        congruence.
Qed.

Lemma crun_snoc w evs e : crun w (evs ++ [e]) = cstep (crun w evs) e.
Proof. unfold crun. by rewrite fold_left_app. Qed.
Lemma crun_app w a b : crun w (a ++ b) = crun (crun w a) b.
Proof. apply fold_left_app. Qed.

Lemma hinv_run evs : hinv evs (crun new_client evs).
Proof.
  induction evs as [|e evs IH] using rev_ind; [by split|]. rewrite crun_snoc.
  apply hinv_step; [apply pinv_run|done].
Qed.

(** Whatever the calls, the order of messages and the schedule: a call that returns a message
    returns one that was received after the call was made and carries its own id ... *)
Theorem C37_own_answer :
  forall evs k n m, ended (crun new_client evs) k (Answer n m) ->
    exists before req after, evs = before ++ NewCall req :: after /\ length (requests before) = k
      /\ received evs !! n = Some m /\ length (received before) <= n /\ msg_id m = msg_id req.
Proof.
  intros evs k n m (c & Hc & He). pose proof (hinv_run evs) as H.
  pose proof (h_end _ _ H _ _ _ _ Hc He) as Hm.
  destruct (h_call _ _ H k c Hc) as (b & a & Ev & Hk & Hx). destruct (Hx n m Hm) as (H1 & H2 & H3).
  exists b, (c_req c), a. done.
Qed.
Print Assumptions C37_own_answer.

(** ... and no message is returned by two calls. *)
Theorem C37_at_most_once :
  forall evs k k' n m m', ended (crun new_client evs) k (Answer n m) ->
    ended (crun new_client evs) k' (Answer n m') -> k = k'.
Proof.
  intros evs k k' n m m' (c & Hc & He) (c' & Hc' & He'). pose proof (hinv_run evs) as H.
  eapply (h_once _ _ H); [exact Hc|exact Hc'|by eapply (h_end _ _ H)|by eapply (h_end _ _ H)].
Qed.
Print Assumptions C37_at_most_once.

(** Nothing remains of a call in the client: what is registered are calls under way. *)
Theorem C37_nothing_remains :
  forall evs,
    (forall id k, k_pending (crun new_client evs) !! id = Some k -> underway (crun new_client evs) k)
    /\ ((forall k, ~ underway (crun new_client evs) k) -> k_pending (crun new_client evs) = ∅).
Proof.
  intros evs. pose proof (pinv_run evs) as [S F].
  assert (forall id k, k_pending (crun new_client evs) !! id = Some k -> underway (crun new_client evs) k) as H.
  { intros id k Hp. destruct (S id k Hp) as (c & Hc & _ & Hl & _). by exists c. }
  split; [done|]. intros Hn. apply map_empty. intros id.
  destruct (_ !! id) as [k|] eqn:E; [|done]. by destruct (Hn k (H _ _ E)).
Qed.
Print Assumptions C37_nothing_remains.

(** A call that has ended stays ended the same way. *)
Lemma end_stays w e k c o : pinv w -> k_calls w !! k = Some c -> c_st c = CEnd o ->
  exists c', k_calls (cstep w e) !! k = Some c' /\ c_st c' = CEnd o.
Proof.
  intros I Hc He. destruct (change_step w e I k c Hc) as (c' & Hc' & _ & _ & Hst). exists c'. split; [done|].
  destruct Hst as [Hst|[Hl _]]; [congruence|]. unfold live in Hl. by rewrite He in Hl.
Qed.

(** The answer is delivered.  [distinct]: no two calls use the same id (they are random). *)
Definition distinct (evs : list cevent) : Prop := NoDup (msg_id <$> requests evs).

Lemma mail_stays w e k c n m : pinv w -> k_calls w !! k = Some c -> c_mail c = MGot n m ->
  exists c', k_calls (cstep w e) !! k = Some c' /\ c_mail c' = MGot n m
    /\ (c_st c' = c_st c \/ live c' = true \/ exists o, c_st c' = CEnd o /\ o ∈ [Answer n m; NotSent; Abandoned]).
Proof.
  intros I Hc Hm. destruct c as [req st ml]. cbn in Hm. subst ml.
  assert (forall j o c0, k_calls w !! j = Some c0 ->
    (j = k -> o ∈ [Answer n m; NotSent; Abandoned]) -> live c0 = true ->
    exists c', k_calls (finish w j o) !! k = Some c' /\ c_mail c' = MGot n m
      /\ (c_st c' = st \/ live c' = true \/ exists o, c_st c' = CEnd o /\ o ∈ [Answer n m; NotSent; Abandoned])) as Hfin.
  { intros j o c0 Hj Ho Hl. rewrite (finish_calls _ _ _ _ _ I Hj). destruct (decide (k = j)) as [<-|].
    - rewrite Hc in Hj. injection Hj as <-. eexists. split; [done|]. cbn [c_req c_mail].
      destruct (decide _); cbn; (split; [done|]); right; right; exists o; split; auto.
    - rewrite Hc. destruct (decide _); eexists; (split; [done|]); (split; [done|]); by left. }
  assert (forall j c1 c0, k_calls w !! j = Some c0 -> live c0 = true -> (j = k -> c_mail c1 = MGot n m /\ live c1 = true) ->
    exists c', k_calls (set_call w j c1) !! k = Some c' /\ c_mail c' = MGot n m
      /\ (c_st c' = st \/ live c' = true \/ exists o, c_st c' = CEnd o /\ o ∈ [Answer n m; NotSent; Abandoned])) as Hset.
  { intros j c1 c0 Hj Hl H1. rewrite (set_calls _ _ _ _ _ Hj). destruct (decide (k = j)) as [<-|].
    - destruct (H1 eq_refl). eexists. split; [done|]. auto.
    - eexists. split; [exact Hc|]. split; [done|]. by left. }
  assert (exists c', k_calls w !! k = Some c' /\ c_mail c' = MGot n m
      /\ (c_st c' = st \/ live c' = true \/ exists o, c_st c' = CEnd o /\ o ∈ [Answer n m; NotSent; Abandoned])) as Hid.
  { eexists. split; [exact Hc|]. split; [done|]. by left. }
  destruct e as [r|j|j ok|x|j|j|j| | | | |]; cbn [cstep c_st].
  - unfold register. cbn [set_pending k_calls]. rewrite unregister_calls. cbn [k_pending k_calls].
    rewrite lookup_app_l by (by eapply lookup_lt_Some). rewrite Hc.
    destruct (decide _); eexists; (split; [done|]); (split; [done|]); by left.
  - destruct (k_calls w !! j) as [[r [] ml]|] eqn:E; try done. destruct (k_closed w).
    + eapply Hfin; [done| |done]. intros ->. set_solver.
    + eapply Hset; [done|done|]. intros ->. split; [|done]. rewrite Hc in E. by injection E as -> -> <-.
  - destruct (k_calls w !! j) as [[r [] ml]|] eqn:E; try done. destruct ok.
    + eapply Hset; [done|done|]. intros ->. split; [|done]. rewrite Hc in E. by injection E as -> -> <-.
    + eapply Hfin; [done| |done]. intros ->. set_solver.
  - destruct (k_recv w); try done. destruct (k_pending w !! msg_id x) as [j|] eqn:Ep; [|done].
    destruct (p_sound _ I _ _ Ep) as (c0 & Hc0 & _ & Hl & Hm0). rewrite Hc0.
    destruct c0 as [r s ml]. cbn in Hm0. subst ml. cbn [set_call set_pending k_calls].
    rewrite list_lookup_insert_ne; [done|]. intros ->. congruence.
  - destruct (k_calls w !! j) as [[r [] []]|] eqn:E; try done; (eapply Hfin; [done| |done]);
      intros ->; rewrite Hc in E; try discriminate E. injection E as -> -> <- <-. set_solver.
  - destruct (k_calls w !! j) as [[r [] []]|] eqn:E; try done; (eapply Hfin; [done| |done]);
      intros ->; rewrite Hc in E; try discriminate E. injection E as -> -> <- <-. set_solver.
  - destruct (k_calls w !! j) as [[r [] ml]|] eqn:E; try done; (eapply Hfin; [done| |done]); intros ->; set_solver.
  - by destruct (k_recv w).
  - by destruct (k_recv w).
  - destruct (k_recv w); try done. unfold clear. cbn [set_recv k_calls k_pending]. rewrite list_lookup_imap, Hc.
    cbn. destruct (bool_decide _); eexists; (split; [done|]); (split; [done|]); by left.
  - done.
  - by destruct (k_recv w).
Qed.

Lemma pinv_crun w evs : pinv w -> pinv (crun w evs).
Proof. revert w. induction evs as [|e evs IH]; intros w I; [done|]. cbn. apply IH. by apply pinv_step. Qed.

Lemma run_mail w evs k c n m : pinv w -> k_calls w !! k = Some c -> c_mail c = MGot n m ->
  (live c = true \/ exists o, c_st c = CEnd o /\ o ∈ [Answer n m; NotSent; Abandoned]) ->
  exists c', k_calls (crun w evs) !! k = Some c' /\ c_mail c' = MGot n m
    /\ (live c' = true \/ exists o, c_st c' = CEnd o /\ o ∈ [Answer n m; NotSent; Abandoned]).
Proof.
  revert w c. induction evs as [|e evs IH]; intros w c I Hc Hm Hst; [by exists c|]. cbn.
  destruct (mail_stays w e k c n m I Hc Hm) as (c' & Hc' & Hm' & Hst').
  eapply (IH (cstep w e) c'); [by apply pinv_step|done|done|].
  destruct Hst' as [E|[E|E]]; [|by left|by right]. unfold live. rewrite E. exact Hst.
Qed.

Lemma distinct_index evs k k' c c' : distinct evs ->
  k_calls (crun new_client evs) !! k = Some c -> k_calls (crun new_client evs) !! k' = Some c' ->
  msg_id (c_req c) = msg_id (c_req c') -> k = k'.
Proof.
  intros Hd Hc Hc' E. pose proof (hinv_run evs) as H.
  assert (forall k c, k_calls (crun new_client evs) !! k = Some c -> requests evs !! k = Some (c_req c)) as Hr.
  { intros j d Hj. destruct (h_call _ _ H j d Hj) as (b & a & -> & <- & _).
    rewrite requests_app, lookup_app_r, Nat.sub_diag by lia. done. }
  eapply (NoDup_lookup _ _ _ (msg_id (c_req c)) Hd).
  - rewrite list_lookup_fmap, (Hr _ _ Hc). done.
  - rewrite list_lookup_fmap, (Hr _ _ Hc'). by rewrite E.
Qed.

Lemma delivered :
  forall evs k c m, let w := crun new_client evs in
    k_calls w !! k = Some c -> live c = true -> c_mail c = MEmpty ->
    k_recv w = RRun -> msg_id m = msg_id (c_req c) ->
    forall more, let w' := crun (cstep w (Incoming m)) more in
    (underway w' k \/ exists o, ended w' k o /\ o ∈ [Answer (length (received evs)) m; NotSent; Abandoned])
    /\ (forall c', k_calls w' !! k = Some c' -> c_st c' = CWait ->
          ended (cstep w' (Poll k)) k (Answer (length (received evs)) m)).
Proof.
  intros evs k c m w Hc Hl Hm Hr Hid more w'. pose proof (pinv_run evs) as I. fold w in I.
  rewrite <- (h_seen _ _ (hinv_run evs)). fold w.
  pose proof (p_full _ I k c Hc Hl Hm) as Hp.
  assert (k_calls (cstep w (Incoming m)) !! k = Some (Call (c_req c) (c_st c) (MGot (k_seen w) m))) as H1.
  { cbn [cstep]. rewrite Hr, Hid, Hp, Hc. destruct c as [req st ml]. cbn in Hm. subst ml.
    cbn. apply list_lookup_insert. by eapply lookup_lt_Some. }
  pose proof (pinv_step w (Incoming m) I) as I1.
  destruct (run_mail _ more k _ (k_seen w) m I1 H1 eq_refl) as (c' & Hc' & Hm' & Hst').
  { left. unfold live in *. by destruct (c_st c). }
  fold w' in Hc'. split.
  - destruct Hst' as [Hst'|(o & Ho & Hin)]; [left; by exists c'|right]. exists o. split; [by exists c'|done].
  - intros c2 Hc2 Hw. rewrite Hc' in Hc2. injection Hc2 as <-. destruct c' as [req st ml]. cbn in Hm', Hw. subst.
    cbn [cstep]. rewrite Hc'. eexists. split; [|].
    + rewrite (finish_calls w' k (Answer (k_seen w) m) _ k (pinv_crun _ more I1) Hc'). by rewrite decide_True.
    + destruct (decide _); cbn; reflexivity.
Qed.

(** A call under way is registered to be answered until its answer comes, if all ids differ and
    the connection has not ended. *)
Lemma recv_run w e : k_recv (cstep w e) = RRun -> k_recv w = RRun.
Proof.
  assert (forall k o, k_recv (finish w k o) = k_recv w) as Hf by (intros; apply finish_rest).
  destruct e as [r|j|j ok|x|j|j|j| | | | |]; cbn [cstep].
  - unfold register. cbn [set_pending k_recv]. by destruct (unregister_rest
      (Client (k_pending w) (k_calls w ++ [Call r CSend MEmpty]) (k_recv w) (k_closed w) (k_seen w)) (msg_id r)) as (-> & _).
  - destruct (k_calls w !! j) as [[r [] ml]|]; try done. destruct (k_closed w); [by rewrite Hf|done].
  - destruct (k_calls w !! j) as [[r [] ml]|]; try done. destruct ok; [done|by rewrite Hf].
  - by destruct (k_recv w).
  - destruct (k_calls w !! j) as [[r [] []]|]; try done; by rewrite Hf.
  - destruct (k_calls w !! j) as [[r [] []]|]; try done; by rewrite Hf.
  - destruct (k_calls w !! j) as [[r [] ml]|]; try done; by rewrite Hf.
  - destruct (k_recv w) eqn:E; cbn; congruence.
  - destruct (k_recv w) eqn:E; cbn; congruence.
  - destruct (k_recv w) eqn:E; cbn; congruence.
  - done.
  - destruct (k_recv w) eqn:E; cbn; congruence.
Qed.

Lemma registered :
  forall evs k c, distinct evs -> k_recv (crun new_client evs) = RRun ->
    k_calls (crun new_client evs) !! k = Some c -> live c = true -> c_mail c <> MLost.
Proof.
  intros evs k c Hd Hclear.
  assert (forall k c, k_calls (crun new_client evs) !! k = Some c -> c_mail c = MLost -> live c = false) as H.
  2: { intros Hc Hl Hm. by rewrite (H k c Hc Hm) in Hl. }
  clear k c. induction evs as [|e evs IH] using rev_ind; [done|].
  assert (distinct evs) as Hd'.
  { unfold distinct in *. rewrite requests_app, fmap_app in Hd. by apply NoDup_app in Hd as [? _]. }
  rewrite crun_snoc in Hclear. pose proof (recv_run _ _ Hclear) as Hrun. specialize (IH Hd' Hrun).
  intros k c Hc Hm. rewrite crun_snoc in Hc.
  pose proof (pinv_run evs) as I.
  destruct (step_inv _ _ I _ _ Hc) as [(c0 & Hc0 & Er & Hch & Hst)|(req & -> & -> & ->)]; [|done].
  assert (c_mail c0 = MLost \/ c_mail c0 <> MLost) as [E|E] by (destruct (c_mail c0); auto).
  - pose proof (IH k c0 Hc0 E) as Hl. unfold live in *. destruct Hst as [->|[? _]]; [done|congruence].
  - (* the mail was lost in this step *)
    destruct (live c) eqn:Hl; [exfalso|done].
    assert (c_mail c0 = MEmpty) as Em by (destruct Hch as [?|[? _]]; congruence).
    assert (live c0 = true) as Hl0.
    { unfold live in *. destruct Hst as [Hst|[? _]]; [by rewrite Hst in Hl|done]. }
    set (w := crun new_client evs) in *.
    assert (forall j o c1, k_calls w !! j = Some c1 -> live c1 = true -> k_calls (finish w j o) !! k = Some c -> False) as Hfin.
    { intros j o c1 Hj Hl1 Hf. rewrite (finish_calls _ _ _ _ _ I Hj) in Hf. destruct (decide (k = j)) as [<-|Hne].
      - injection Hf as <-. destruct (decide _); unfold live in Hl; [by rewrite lost_st in Hl|done].
      - destruct (decide (k_pending w !! msg_id (c_req c1) = Some k)) as [Ep|Ep].
        + destruct (p_sound _ I _ _ Ep) as (c2 & Hc2 & Hid2 & _). apply Hne.
          by eapply (distinct_index evs k j c2 c1).
        + rewrite Hc0 in Hf. injection Hf as <-. congruence. }
    assert (forall j c1 c2, k_calls w !! j = Some c1 -> c_mail c2 = c_mail c1 -> k_calls (set_call w j c2) !! k = Some c -> False) as Hset.
    { intros j c1 c2 Hj E2 Hs. rewrite (set_calls _ _ _ _ _ Hj) in Hs. destruct (decide (k = j)) as [<-|Hne].
      - injection Hs as <-. congruence.
      - rewrite Hc0 in Hs. injection Hs as <-. congruence. }
    assert (k_calls w !! k = Some c -> False) as Hid by (intros Hx; congruence).
    destruct e as [r|j|j ok|x|j|j|j| | | | |]; cbn [cstep] in Hc.
    + unfold register in Hc. cbn [set_pending k_calls] in Hc. rewrite unregister_calls in Hc. cbn [k_pending k_calls] in Hc.
      rewrite lookup_app_l in Hc by (by eapply lookup_lt_Some).
      destruct (decide (k_pending w !! msg_id r = Some k)) as [Ep|Ep]; [|auto].
      destruct (p_sound _ I _ _ Ep) as (c2 & Hc2 & Hid2 & _).
      assert (k_calls (crun new_client (evs ++ [NewCall r])) !! length (k_calls w) = Some (Call r CSend MEmpty)) as Hnew
        by (rewrite crun_snoc; by apply new_step).
      destruct (change_step w (NewCall r) I k c2 Hc2) as (c3 & Hc3 & Er3 & _).
      assert (k_calls (crun new_client (evs ++ [NewCall r])) !! k = Some c3) as Hc4 by (by rewrite crun_snoc).
      assert (k = length (k_calls w)) as ->.
      { eapply (distinct_index _ _ _ _ _ Hd Hc4 Hnew). cbn. congruence. }
      apply lookup_lt_Some in Hc2. lia.
    + destruct (k_calls w !! j) as [[r [] ml]|] eqn:Ej; try (by auto). destruct (k_closed w); [eapply Hfin; [exact Ej|done|exact Hc]|refine (Hset _ _ _ Ej _ Hc); done].
    + destruct (k_calls w !! j) as [[r [] ml]|] eqn:Ej; try (by auto). destruct ok; [refine (Hset _ _ _ Ej _ Hc); done|eapply Hfin; [exact Ej|done|exact Hc]].
    + destruct (k_recv w); try (by auto). destruct (k_pending w !! msg_id x) as [j|] eqn:Ep; [|by auto].
      destruct (p_sound _ I _ _ Ep) as (c2 & Hc2 & _ & _ & Hm2). rewrite Hc2 in Hc. destruct c2 as [r s ml]. cbn in Hm2. subst ml.
      cbn in Hc. destruct (decide (k = j)) as [<-|].
      * rewrite list_lookup_insert in Hc by (by eapply lookup_lt_Some). injection Hc as <-. done.
      * rewrite list_lookup_insert_ne in Hc by done. auto.
    + destruct (k_calls w !! j) as [[r [] []]|] eqn:Ej; try (by auto); (eapply Hfin; [exact Ej|done|exact Hc]).
    + destruct (k_calls w !! j) as [[r [] []]|] eqn:Ej; try (by auto); (eapply Hfin; [exact Ej|done|exact Hc]).
    + destruct (k_calls w !! j) as [[r [] ml]|] eqn:Ej; try (by auto); (eapply Hfin; [exact Ej|done|exact Hc]).
    + by destruct (k_recv w).
    + by destruct (k_recv w).
    + rewrite Hrun in Hc. auto.
    + done.
    + by destruct (k_recv w).
Qed.

(** The first message with its id that is received while a call is under way, ids being distinct,
    is what the call returns: it has no other end, unless its own sending fails or its caller drops
    it, and returns the message as soon as it waits and looks. *)
Theorem C37_delivered :
  forall evs k c m, let w := crun new_client evs in
    distinct evs -> k_recv w = RRun ->
    k_calls w !! k = Some c -> live c = true -> (forall n x, c_mail c <> MGot n x) ->
    msg_id m = msg_id (c_req c) ->
    forall more, let w' := crun (cstep w (Incoming m)) more in
    (underway w' k \/ exists o, ended w' k o /\ o ∈ [Answer (length (received evs)) m; NotSent; Abandoned])
    /\ (forall c', k_calls w' !! k = Some c' -> c_st c' = CWait ->
          ended (cstep w' (Poll k)) k (Answer (length (received evs)) m)).
Proof.
  intros evs k c m w Hd Hr Hc Hl Hm Hid more w'. eapply delivered; try done.
  pose proof (registered evs k c Hd Hr Hc Hl). destruct (c_mail c) eqn:E; [done|by destruct (Hm n m0)|done].
Qed.
Print Assumptions C37_delivered.

(** When the receiving task ends, and with it the connection, every call ends by itself: one that
    waits as soon as it looks, one that was sending as soon as that ends, one that was not yet
    sending when it tries; and those that had no answer get an error. *)
Record einv (w : client) : Prop := {
  e_closed : k_recv w ∈ [RClear; REnded] -> k_closed w = true;
  e_mail : k_recv w = REnded -> forall k c, k_calls w !! k = Some c -> c_st c ∈ [CSending; CWait] -> c_mail c <> MEmpty
}.

Lemma einv_step w e : pinv w -> einv w -> einv (cstep w e).
Proof.
  intros I [H1 H2].
  assert (forall k c c1, k_calls w !! k = Some c -> c_mail c1 = c_mail c -> k_closed w = false \/ c_st c ∈ [CSending; CWait] ->
    einv (set_call w k c1)) as Hset.
  { intros k c c1 Hk Em Hcl. split; [done|]. cbn [set_call k_recv]. intros Hr j c' Hc' Hst.
    rewrite (set_calls _ _ _ _ _ Hk) in Hc'. destruct (decide (j = k)) as [->|]; [|by eapply H2].
    injection Hc' as <-. rewrite Em. destruct Hcl as [Hcl|Hcl]; [|by eapply H2].
    rewrite H1 in Hcl; [done|]. rewrite Hr. set_solver. }
  assert (forall k o c, k_calls w !! k = Some c -> einv (finish w k o)) as Hfin.
  { intros k o c Hk. destruct (finish_rest w k o) as (Er & Ec & _). split; rewrite Er, ?Ec; [done|].
    intros Hr j c' Hc' Hst. rewrite (finish_calls _ _ _ _ _ I Hk) in Hc'. destruct (decide (j = k)) as [->|].
    - injection Hc' as <-. destruct (decide _); rewrite ?lost_st in Hst; cbn in Hst; set_solver.
    - destruct (decide _).
      + destruct (k_calls w !! j) as [c2|] eqn:E; [|done]. injection Hc' as <-. by destruct c2 as [? ? []].
      + by eapply H2. }
  destruct e as [r|j|j ok|x|j|j|j| | | | |]; cbn [cstep].
  - unfold register.
    destruct (unregister_rest (Client (k_pending w) (k_calls w ++ [Call r CSend MEmpty]) (k_recv w) (k_closed w) (k_seen w)) (msg_id r)) as (Er & Ec & _).
    split; cbn [set_pending k_recv k_closed k_calls]; rewrite ?Er, ?Ec; [done|].
    intros Hr k c Hc Hst. rewrite unregister_calls in Hc. cbn [k_pending k_calls] in Hc.
    assert (forall c, (k_calls w ++ [Call r CSend MEmpty]) !! k = Some c -> c_st c ∈ [CSending; CWait] -> c_mail c <> MEmpty) as Hx.
    { intros c0 [H|[_ H]]%lookup_app_Some Hst0; [by eapply H2|].
      destruct (k - length (k_calls w)); [|done]. injection H as <-. cbn in Hst0. set_solver. }
    destruct (decide _); [|by apply Hx]. destruct (_ !! k) as [c2|]; [|done]. injection Hc as <-. by destruct c2 as [? ? []].
  - destruct (k_calls w !! j) as [[r [] ml]|] eqn:E; try done. destruct (k_closed w) eqn:Ec; [by eapply Hfin|].
    eapply Hset; [done|done|]. by left.
  - destruct (k_calls w !! j) as [[r [] ml]|] eqn:E; try done. destruct ok; [|by eapply Hfin].
    eapply Hset; [done|done|]. right. cbn. set_solver.
  - destruct (k_recv w) eqn:Er; [|by split..].
    destruct (k_pending w !! msg_id x) as [k|]; [|by split].
    destruct (k_calls w !! k) as [[? ? []]|]; by split.
  - destruct (k_calls w !! j) as [[r [] []]|] eqn:E; try done; by eapply Hfin.
  - destruct (k_calls w !! j) as [[r [] []]|] eqn:E; try done; by eapply Hfin.
  - destruct (k_calls w !! j) as [[r [] ml]|] eqn:E; try done; by eapply Hfin.
  - destruct (k_recv w) eqn:Er; try (by split; rewrite Er). split; cbn; [set_solver|done].
  - destruct (k_recv w) eqn:Er; try (by split; rewrite Er). by split.
  - destruct (k_recv w) eqn:Er; try (by split; rewrite Er). split; cbn; [intros _; apply H1; set_solver|].
    intros _ k c Hc Hst. rewrite list_lookup_imap in Hc.
    destruct (k_calls w !! k) as [c1|] eqn:E; [|done]. cbn in Hc.
    destruct (bool_decide_reflect (k_pending w !! msg_id (c_req c1) = Some k)) as [Hp|Hp]; injection Hc as <-.
    + by destruct c1 as [? ? []].
    + intros Hm. apply Hp. apply (p_full _ I); [done| |done]. unfold live. destruct (c_st c1); set_solver.
  - split; [done|]. cbn. done.
  - destruct (k_recv w) eqn:Er; try (by split; rewrite Er); split; cbn; (set_solver || done).
Qed.

Lemma einv_run evs : einv (crun new_client evs).
Proof.
  induction evs as [|e evs IH] using rev_ind; [split; cbn; [set_solver|done]|]. rewrite crun_snoc.
  apply einv_step; [apply pinv_run|done].
Qed.

Lemma ended_finish w k o c : pinv w -> k_calls w !! k = Some c -> ended (finish w k o) k o.
Proof.
  intros I H. eexists. rewrite (finish_calls _ _ _ _ _ I H), decide_True by done. split; [done|].
  destruct (decide _); rewrite ?lost_st; done.
Qed.

Definition is_end (w : client) (k : nat) : Prop := exists o, ended w k o.
Definition got_none (c : call) : Prop := forall n m, c_mail c <> MGot n m.

Theorem C37_ends_with_connection :
  forall evs k c, let w := crun new_client evs in
    k_recv w = REnded -> k_calls w !! k = Some c -> live c = true ->
    match c_st c with
    | CSend => ended (cstep w (Begin k)) k NotSent
    | CSending => ended (cstep w (Sent k false)) k NotSent
        /\ is_end (crun w [Sent k true; Poll k]) k
        /\ (got_none c -> ended (crun w [Sent k true; Poll k]) k Aborted)
    | CWait => is_end (cstep w (Poll k)) k /\ (got_none c -> ended (cstep w (Poll k)) k Aborted)
    | CEnd _ => True
    end.
Proof.
  intros evs k c w Hr Hc Hl. pose proof (pinv_run evs) as I. fold w in I. destruct (einv_run evs) as [H1 H2]. fold w in H1, H2.
  pose proof (H2 Hr k c Hc) as Hm. destruct c as [req st ml]. cbn [c_st c_mail] in *.
  destruct st.
  - cbn [cstep]. rewrite Hc, H1 by (rewrite Hr; set_solver). by eapply ended_finish.
  - split; [cbn [cstep]; rewrite Hc; by eapply ended_finish|].
    assert (crun w [Sent k true] = set_call w k (Call req CWait ml)) as E by (cbn; by rewrite Hc).
    assert (pinv (set_call w k (Call req CWait ml))) as I' by (by eapply pinv_set).
    change [Sent k true; Poll k] with ([Sent k true] ++ [Poll k]). rewrite crun_snoc, E.
    assert (k_calls (set_call w k (Call req CWait ml)) !! k = Some (Call req CWait ml)) as Hk
      by (by rewrite (set_calls _ _ _ _ _ Hc), decide_True).
    cbn [cstep]. rewrite Hk. destruct ml as [|n m|]; [exfalso; by apply Hm; [set_solver|]| |].
    + split; [eexists; by eapply ended_finish|]. intros Hn. by destruct (Hn n m).
    + split; [eexists; by eapply ended_finish|]. intros _. by eapply ended_finish.
  - cbn [cstep]. rewrite Hc. destruct ml as [|n m|]; [exfalso; by apply Hm; [set_solver|]| |].
    + split; [eexists; by eapply ended_finish|]. intros Hn. by destruct (Hn n m).
    + split; [eexists; by eapply ended_finish|]. intros _. by eapply ended_finish.
  - done.
Qed.
Print Assumptions C37_ends_with_connection.

(** Time running out ends a call that waits. *)
Theorem C37_times_out :
  forall evs k c, let w := crun new_client evs in
    k_calls w !! k = Some c -> c_st c = CWait ->
    is_end (cstep w (Timeout k)) k /\ (c_mail c = MEmpty -> ended (cstep w (Timeout k)) k TimedOut).
Proof.
  intros evs k c w Hc Hst. pose proof (pinv_run evs) as I. fold w in I. destruct c as [req st ml]. cbn in *. subst.
  rewrite Hc. destruct ml; (split; [eexists; by eapply ended_finish|]); intros E; try done. by eapply ended_finish.
Qed.
Print Assumptions C37_times_out.

(** The time limit does not cover the sending: as long as the peer does not read, a call does not
    end, however much time passes. *)
Theorem C37_sending_untimed_refuted :
  forall req : api, exists evs, forall ts, (forall e, e ∈ ts -> exists k, e = Timeout k) ->
    underway (crun new_client (evs ++ ts)) 0.
Proof.
  intros req. exists [NewCall req; Begin 0]. intros ts Ht. rewrite crun_app.
  set (w := crun new_client _).
  assert (k_calls w = [Call req CSending MEmpty]) as Hw.
  { unfold w, crun, new_client. cbn [fold_left cstep]. unfold register, unregister. cbn [k_pending].
    by rewrite lookup_empty. }
  clearbody w. exists (Call req CSending MEmpty). split; [|done].
  assert (k_calls (crun w ts) = [Call req CSending MEmpty]) as ->; [|done].
  revert w Hw. induction ts as [|e ts IH]; intros w Hw; [done|]. cbn.
  destruct (Ht e) as [k ->]; [left|]. apply IH; [intros e' He; apply Ht; by right|].
  cbn [cstep]. rewrite Hw. destruct k as [|k]; [done|]. by destruct k.
Qed.
Print Assumptions C37_sending_untimed_refuted.

(** Two calls with the same id: both requests sent, both answered, neither call gets an answer. *)
Theorem C37_same_id_refuted :
  forall req m : api, msg_id m = msg_id req ->
    let evs := [NewCall req; NewCall req; Begin 0; Begin 1; Sent 0 true; Sent 1 true; Poll 0;
      Incoming m; Incoming m; Poll 1] in
    ended (crun new_client evs) 0 Aborted /\ ended (crun new_client evs) 1 Aborted.
Proof.
  intros req m Hid evs.
  assert (crun new_client evs = Client ∅ [Call req (CEnd Aborted) MLost; Call req (CEnd Aborted) MLost] RRun false 2) as ->.
  { set (id := msg_id req) in *.
    assert (cstep new_client (NewCall req) = Client (<[id := 0]> ∅) [Call req CSend MEmpty] RRun false 0) as E1.
    { cbn [cstep]. unfold register, unregister, new_client. cbn [k_pending set_pending]. by rewrite lookup_empty. }
    assert (cstep (Client (<[id := 0]> ∅) [Call req CSend MEmpty] RRun false 0) (NewCall req)
      = Client (<[id := 1]> ∅) [Call req CSend MLost; Call req CSend MEmpty] RRun false 0) as E2.
    { cbn [cstep]. unfold register, unregister. cbn [k_pending set_pending]. fold id. rewrite lookup_insert.
      unfold lose, set_pending. cbn [k_calls app lookup list_lookup set_call k_pending].
      rewrite delete_insert by done. done. }
    assert (cstep (Client (<[id := 1]> ∅) [Call req CWait MLost; Call req CWait MEmpty] RRun false 0) (Poll 0)
      = Client ∅ [Call req (CEnd Aborted) MLost; Call req CWait MLost] RRun false 0) as E3.
    { cbn [cstep k_calls lookup list_lookup]. unfold finish. cbn [k_calls lookup list_lookup].
      unfold unregister, set_call. cbn [k_pending]. fold id. rewrite lookup_insert.
      unfold lose, set_pending. cbn [k_calls k_pending insert list_insert lookup list_lookup set_call].
      rewrite delete_insert by done. done. }
    unfold evs, crun. cbn [fold_left]. rewrite E1, E2.
    change (cstep (cstep (cstep (cstep (Client (<[id := 1]> ∅) [Call req CSend MLost; Call req CSend MEmpty] RRun false 0)
      (Begin 0)) (Begin 1)) (Sent 0 true)) (Sent 1 true))
      with (Client (<[id := 1]> ∅) [Call req CWait MLost; Call req CWait MEmpty] RRun false 0).
    rewrite E3. done. }
  split; eexists; by split.
Qed.
Print Assumptions C37_same_id_refuted.

(** If the receiving task panics (on a frame that is too short, [C24_short_frame_refuted], or
    because the sender was lost, [C31_abandoned_refuted]) waiting calls are not told: only time
    or its caller ends a call that had no answer. *)
Theorem C37_panic_untold :
  forall evs k c, let w := crun new_client evs in
    k_recv w = RPanicked -> k_calls w !! k = Some c -> c_st c = CWait -> c_mail c = MEmpty ->
    forall e, e <> Timeout k -> e <> Abandon k ->
      (forall req, e = NewCall req -> msg_id req <> msg_id (c_req c)) ->
      (forall j c', e ∈ [Begin j; Sent j false; Poll j; Timeout j; Abandon j] -> k_calls w !! j = Some c' ->
         j <> k -> msg_id (c_req c') <> msg_id (c_req c)) ->
    k_calls (cstep w e) !! k = Some c /\ k_recv (cstep w e) = RPanicked.
Proof.
  intros evs k c w Hr Hc Hst Hm e Ht Ha Hnew Hoth. pose proof (pinv_run evs) as I. fold w in I.
  assert (live c = true) as Hl by (unfold live; by rewrite Hst).
  pose proof (p_full _ I k c Hc Hl Hm) as Hp.
  assert (forall j o c', k_calls w !! j = Some c' -> j <> k -> msg_id (c_req c') <> msg_id (c_req c) ->
    k_calls (finish w j o) !! k = Some c /\ k_recv (finish w j o) = RPanicked) as Hfin.
  { intros j o c' Hj Hne Hid. destruct (finish_rest w j o) as (-> & _). split; [|done].
    rewrite (finish_calls _ _ _ _ _ I Hj), decide_False by done. rewrite decide_False; [done|].
    intros E. destruct (p_sound _ I _ _ E) as (c2 & Hc2 & Hid2 & _). congruence. }
  assert (forall j c1 c', k_calls w !! j = Some c1 -> j <> k -> k_calls (set_call w j c') !! k = Some c
    /\ k_recv (set_call w j c') = RPanicked) as Hset.
  { intros j c1 c' Hj Hne. split; [|done]. by rewrite (set_calls _ _ _ _ _ Hj), decide_False. }
  destruct c as [req0 st0 ml0]. cbn [c_st c_mail c_req] in *. subst st0 ml0.
  destruct e as [r|j|j ok|x|j|j|j| | | | |]; cbn [cstep].
  - unfold register. cbn [set_pending k_recv k_calls].
    destruct (unregister_rest (Client (k_pending w) (k_calls w ++ [Call r CSend MEmpty]) (k_recv w) (k_closed w) (k_seen w)) (msg_id r)) as (-> & _).
    split; [|done]. rewrite unregister_calls. cbn [k_pending k_calls].
    rewrite lookup_app_l by (by eapply lookup_lt_Some). rewrite decide_False; [done|].
    intros E. destruct (p_sound _ I _ _ E) as (c2 & Hc2 & Hid2 & _). rewrite Hc in Hc2. injection Hc2 as <-.
    by eapply Hnew.
  - destruct (k_calls w !! j) as [[r [] ml]|] eqn:E; try done.
    assert (j <> k) by congruence.
    destruct (k_closed w); [|by eapply Hset]. eapply Hfin; [done|done|]. eapply (Hoth j); [set_solver|done|done].
  - destruct (k_calls w !! j) as [[r [] ml]|] eqn:E; try done. assert (j <> k) by congruence.
    destruct ok; [by eapply Hset|]. eapply Hfin; [done|done|]. eapply (Hoth j); [set_solver|done|done].
  - by rewrite Hr.
  - destruct (k_calls w !! j) as [[r [] []]|] eqn:E; try done; (assert (j <> k) by congruence);
      (eapply Hfin; [done|done|]); (eapply (Hoth j); [set_solver|done|done]).
  - assert (j <> k) by congruence.
    destruct (k_calls w !! j) as [[r [] []]|] eqn:E; try done;
      (eapply Hfin; [done|done|]); (eapply (Hoth j); [set_solver|done|done]).
  - assert (j <> k) by congruence.
    destruct (k_calls w !! j) as [[r [] ml]|] eqn:E; try done;
      (eapply Hfin; [done|done|]); (eapply (Hoth j); [set_solver|done|done]).
  - by rewrite Hr.
  - by rewrite Hr.
  - by rewrite Hr.
  - done.
  - by rewrite Hr.
Qed.
Print Assumptions C37_panic_untold.

(** Kinds of messages, as named on the wire: [resHello] answers [reqHello], and so on. *)
Definition kind (m : api) : bytes := match wapi m with MMap ((_, MStr k) :: _) => k | _ => [] end.
Definition suits (req res : api) : Prop := exists x, kind req = str "req" ++ x /\ kind res = str "res" ++ x.

(** What a caller gets is of the kind it asked for, or an error: the server's if it sent one.  And a message of that kind
    is what it gets. *)
Theorem C37_result :
  forall req o,
    (forall r, result_of req o = Ok r <-> exists n, o = Answer n r /\ suits req r)
    /\ (forall n id e, o = Answer n (ResError id e) -> result_of req o = Err e).
Proof.
  assert (forall req m, answers req m = true <-> suits req m) as Hs.
  { intros req m. split.
    - destruct req, m; try done; intros _; by eexists.
    - intros (x & H1 & H2). assert (drop 3 (kind req) = drop 3 (kind m)) as E by (by rewrite H1, H2).
      assert (take 3 (kind req) = str "req") as E1 by (by rewrite H1). assert (take 3 (kind m) = str "res") as E2 by (by rewrite H2). clear x H1 H2.
      destruct req; try done; destruct m; done. }
  intros req o. split.
  - intros r. split.
    + destruct o as [n m| | | |]; try done. cbn. intros H.
      assert (m = r /\ answers req m = true) as [-> Ha] by (destruct m; try done; destruct (answers req _) eqn:E; try done; by injection H as <-).
      exists n. by rewrite <- Hs.
    + intros (n & -> & H). apply Hs in H. cbn. rewrite H. destruct r; try done. by destruct req.
  - by intros n id e ->.
Qed.
Print Assumptions C37_result.

Example C37_result_ex : suits (ReqNewCert (str "1") (str "t")) (ResNewCert (str "1") (str "t") (CertInfo [] (str "sni") []))
  /\ ~ suits (ReqBox (str "1") [] [] None []) (ResBoxSign (str "1") [] []).
Proof. split; [by eexists|]. intros (x & H1 & H2). apply (f_equal (drop 3)) in H1, H2. rewrite <- H1 in H2 || idtac. cbn in H1, H2. congruence. Qed.

(** Three calls, answered out of order; the third is abandoned and its answer comes to nothing. *)
Example C37_ex :
  let req i := ReqListEntries (str i) in let res i := ResListEntries (str i) [] in
  let evs := [NewCall (req "a"%string); NewCall (req "b"%string); Begin 0; NewCall (req "c"%string); Begin 1; Sent 0 true; Begin 2;
    Sent 2 true; Sent 1 true; Incoming (res "b"%string); Abandon 2; Incoming (res "c"%string); Incoming (res "a"%string); Poll 0; Poll 1;
    RecvEnd; Shutdown; Clear] in
  ended (crun new_client evs) 0 (Answer 2 (res "a"%string)) /\ ended (crun new_client evs) 1 (Answer 0 (res "b"%string))
  /\ ended (crun new_client evs) 2 Abandoned.
Proof. cbv zeta. split; [|split]; eexists; by vm_compute. Qed.
