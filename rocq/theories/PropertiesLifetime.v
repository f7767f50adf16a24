(** * PropertiesLifetime: when a connection is let go (C70) *)

From Verif Require Import Base Lifetime.

(** ** The words *)

(** What ends a connection: the client's shutdown function, bytes that are no message, the end of a process. *)
Definition ends (e : levent) : Prop :=
  match e with
  | LShutdown | LServeBad | LServePanic | LGetBad | LGetPanic | LKillClient | LKillServer => True
  | _ => False
  end.

(** After [es] the connection is [l]. *)
Definition after (es : list levent) (l : life) : Prop := lruns lnew es = Some l.

(** Nothing is left of it on the client's side, on the server's side. *)
Definition client_free (l : life) : Prop := l_ctask l = Gone /\ l_handles l = 0.
Definition server_free (l : life) : Prop := l_stask l = Gone.

(** How often something happened. *)
Definition count (P : levent -> bool) (es : list levent) : nat := length (List.filter P es).
Definition calls (e : levent) : bool := match e with LCall => true | _ => false end.
Definition serves (e : levent) : bool := match e with LServe => true | _ => false end.
Definition answers (e : levent) : bool := match e with LAnswer => true | _ => false end.
Definition clones (e : levent) : bool := match e with LClone => true | _ => false end.
Definition drops (e : levent) : bool := match e with LDrop => true | _ => false end.
Definition gets (e : levent) : bool := match e with LGet => true | _ => false end.

(** Every step is one that comes by itself. *)
Fixpoint by_itself (l : life) (es : list levent) : Prop :=
  match es with
  | [] => True
  | e :: es => due l e = true /\ match lstep l e with Some l => by_itself l es | None => False end
  end.

(** Nothing more comes by itself. *)
Definition at_rest (l : life) : Prop := forall e, due l e = false.

(** ** Lemmas *)

Lemma lruns_app l es es' : lruns l (es ++ es') = match lruns l es with Some l => lruns l es' | None => None end.
Proof. revert l. induction es as [|e es IH]; intros l; [done|]. cbn. by destruct (lstep l e). Qed.

Lemma after_inv (P : list levent -> life -> Prop) :
  P [] lnew ->
  (forall es l e l', after es l -> P es l -> lstep l e = Some l' -> P (es ++ [e]) l') ->
  forall es l, after es l -> P es l.
Proof.
  intros H0 Hs es. induction es as [|e es IH] using rev_ind; intros l H.
  - injection H as <-. done.
  - unfold after in H. rewrite lruns_app in H. destruct (lruns lnew es) as [l1|] eqn:E; [|done].
    cbn in H. destruct (lstep l1 e) as [l2|] eqn:E2; [|done]. injection H as <-. eapply Hs; [exact E|by apply IH|exact E2].
Qed.

Ltac steps := repeat match goal with
  | H : Some _ = Some _ |- _ => injection H as ?; subst
  | H : None = Some _ |- _ => discriminate H
  | H : context [match ?x with _ => _ end] |- _ => destruct x eqn:?
  end.

Lemma filter_snoc (P : levent -> bool) es e : List.filter P (es ++ [e]) = List.filter P es ++ (if P e then [e] else []).
Proof. rewrite List.filter_app. cbn. by destruct (P e). Qed.

Lemma count_snoc P es e : count P (es ++ [e]) = count P es + (if P e then 1 else 0).
Proof. unfold count. rewrite filter_snoc, app_length. by destruct (P e). Qed.

Definition endsb (e : levent) : bool :=
  match e with
  | LShutdown | LServeBad | LServePanic | LGetBad | LGetPanic | LKillClient | LKillServer => true
  | _ => false
  end.

Lemma endsb_true e : endsb e = true <-> ends e.
Proof. by destruct e. Qed.

Lemma ended_true es : existsb endsb es = true <-> exists e, In e es /\ ends e.
Proof. rewrite existsb_exists. split; intros (e & He & H); exists e; (split; [done|]); by apply endsb_true. Qed.

Lemma ended_false es : existsb endsb es = false <-> forall e, In e es -> ~ ends e.
Proof.
  split.
  - intros H e He Hend. assert (existsb endsb es = true) by (apply ended_true; by exists e). congruence.
  - intros H. destruct (existsb endsb es) eqn:E; [|done]. apply ended_true in E as (e & He & Hend). by destruct (H e He).
Qed.

(** Who has let go has shut down; the end has a cause. *)
Definition sound (es : list levent) (l : life) : Prop :=
  let b := existsb endsb es in
  (l_stask l = Gone -> l_sshut l = true /\ l_work l = 0)
  /\ (l_sshut l = true -> l_stask l = Gone)
  /\ (l_ctask l = Gone -> l_handles l = 0 -> l_cshut l = true)
  /\ (b = false -> l_ctask l = Reading /\ l_stask l = Reading /\ l_cshut l = false)
  /\ (b = true -> l_ctask l = Reading -> l_stask l = Reading -> l_cshut l = true).

Lemma is_sound es l : after es l -> sound es l.
Proof.
  revert es l. apply (after_inv sound).
  { unfold sound, lnew. cbn. by repeat split. }
  intros es [h ct cs up st wk ss dn] e l' _ (A & B & D & F & G) H.
  unfold sound in *. rewrite existsb_app. cbn [existsb].
  cbn [l_stask l_sshut l_work l_ctask l_handles l_cshut] in *.
  destruct (existsb endsb es); destruct e; cbn [lstep] in H; steps;
    cbn [endsb orb l_stask l_sshut l_work l_ctask l_handles l_cshut] in *; intuition (try congruence; try lia).
  all: try (rewrite ?orb_true_iff, ?Nat.eqb_eq; tauto).
Qed.

(** ** The theorems *)

(** Until something ends it, a connection is open: both sides go on reading, the client can send. *)
Theorem C70_open :
  forall es l, after es l -> (forall e, In e es -> ~ ends e) ->
    l_ctask l = Reading /\ l_stask l = Reading /\ l_cshut l = false.
Proof. intros es l H He. apply is_sound in H as (_ & _ & _ & F & _). apply F. by apply ended_false. Qed.
Print Assumptions C70_open.

(** As long as it has a handle, the client can send requests and shut down, and its requests reach the server. *)
Theorem C70_usable :
  forall es l, after es l -> (forall e, In e es -> ~ ends e) ->
    l_handles l + count drops es = 1 + count clones es
    /\ (forall e, e = LCall \/ e = LShutdown -> (exists l', lstep l e = Some l') <-> 0 < l_handles l)
    /\ (count serves es < count calls es <-> exists l', lstep l LServe = Some l')
    /\ (count gets es < count answers es <-> exists l', lstep l LGet = Some l')
    /\ (count answers es < count serves es <-> exists l', lstep l LAnswer = Some l').
Proof.
  intros es l H He. destruct (C70_open es l H He) as (Hc & Hs & Hcs).
  assert (l_handles l + count drops es = 1 + count clones es
    /\ count serves es + l_up l = count calls es /\ count answers es + l_work l = count serves es
    /\ count gets es + l_down l = count answers es) as (I1 & I2 & I3 & I4).
  { clear Hc Hs Hcs. revert es l H He. apply (after_inv (fun es l => (forall e, In e es -> ~ ends e) ->
      l_handles l + count drops es = 1 + count clones es
      /\ count serves es + l_up l = count calls es /\ count answers es + l_work l = count serves es
      /\ count gets es + l_down l = count answers es)); [done|].
    intros es l e l' Ha IH E Hon.
    assert (~ ends e) as He by (apply Hon, in_app_iff; right; by left).
    assert (forall e, In e es -> ~ ends e) as Hes by (intros e' H'; apply Hon, in_app_iff; by left).
    destruct (IH Hes) as (I1 & I2 & I3 & I4). destruct (C70_open es l Ha Hes) as (Hc & Hs & Hcs).
    rewrite !count_snoc. destruct l as [h ct cs up st wk ss dn]. cbn [l_handles l_up l_work l_down l_ctask l_stask l_cshut] in *.
    subst. destruct e; try (by destruct He); cbn [lstep] in E; steps;
      cbn [l_handles l_up l_work l_down calls serves answers gets clones drops] in *; repeat split; try lia. }
  destruct l as [h ct cs up st wk ss dn]. cbn [l_handles l_up l_work l_down l_ctask l_stask l_cshut] in *. subst ct st cs.
  split; [done|]. split; [|split; [|split]].
  - intros e [-> | ->]; cbn; destruct h; cbn; split; intros Hx; try lia; try (by destruct Hx); by eexists.
  - cbn. destruct up; split; intros Hx; try lia; try (by destruct Hx); by eexists.
  - cbn. destruct dn; split; intros Hx; try lia; try (by destruct Hx); by eexists.
  - cbn. destruct wk; split; intros Hx; try lia; try (by destruct Hx); by eexists.
Qed.
Print Assumptions C70_usable.

(** One would expect that a connection is let go when the client drops its last handle.  It is not: from then on,
    whatever happens, both sides keep it until bytes come that are no message, or a process ends. *)
Theorem C70_dropped_refuted :
  (exists es l, after es l /\ (forall e, In e es -> ~ ends e) /\ l_handles l = 0)
  /\ forall es l es' l',
       after es l -> (forall e, In e es -> ~ ends e) -> l_handles l = 0 ->
       lruns l es' = Some l' ->
       (forall e, In e es' -> ~ In e [LServeBad; LServePanic; LGetBad; LGetPanic; LKillClient; LKillServer]) ->
       ~ client_free l' /\ ~ server_free l' /\ l_cshut l' = false /\ l_sshut l' = false.
Proof.
  split.
  { exists [LCall; LServe; LAnswer; LGet; LDrop]. eexists. split; [reflexivity|]. split; [|done].
    by apply ended_false. }
  intros es l es' l' H He Hh Hr Hno.
  destruct (C70_open es l H He) as (Hc & Hs & Hcs). destruct (is_sound es l H) as (_ & B & _).
  assert (l_sshut l = false) as Hss. { destruct (l_sshut l); [|done]. rewrite B in Hs; done. }
  clear H He B. revert l Hh Hc Hs Hcs Hss Hr.
  induction es' as [|e es' IH]; intros l Hh Hc Hs Hcs Hss Hr.
  { injection Hr as <-. unfold client_free, server_free. rewrite Hc, Hs. repeat split; try done. by intros [? _]. }
  cbn in Hr. destruct (lstep l e) as [l1|] eqn:E; [|done].
  assert (~ In e [LServeBad; LServePanic; LGetBad; LGetPanic; LKillClient; LKillServer]) as He by (apply Hno; by left).
  destruct l as [h ct cs up st wk ss dn]. cbn [l_handles l_ctask l_cshut l_stask l_sshut] in *. subst.
  apply (IH (fun e' H' => Hno e' (or_intror H')) l1); [..|exact Hr]; clear IH Hr Hno;
    (destruct e; cbn [lstep] in E; steps; try done; exfalso; apply He; cbn; tauto).
Qed.
Print Assumptions C70_dropped_refuted.

(** Things come to rest by themselves, *)
Theorem C70_winds_down :
  forall es l, after es l -> exists es' l', by_itself l es' /\ lruns l es' = Some l' /\ at_rest l'.
Proof.
  intros _ l _.
  set (w := fun t => match t with Reading => 2 | Ending => 1 | Gone => 0 end).
  set (m := fun l => 3 * l_up l + 2 * l_work l + l_down l + w (l_ctask l) + w (l_stask l)).
  remember (m l) as n eqn:En. revert l En. induction (lt_wf n) as [n _ IH]. intros l ->.
  assert ((exists e, due l e = true) \/ at_rest l) as [[e He]|Hr].
  { destruct (existsb (due l) [LClone; LDrop; LCall; LShutdown; LServe; LServeBad; LServePanic; LServeEnd; LAnswer; LServerLeaves;
      LGet; LGetBad; LGetPanic; LGetEnd; LClientLeaves; LKillClient; LKillServer]) eqn:E.
    - apply existsb_exists in E as (e & _ & He). left. by exists e.
    - right. intros e. apply not_true_iff_false. intros He. apply not_true_iff_false in E. apply E. apply existsb_exists.
      exists e. split; [|done]. destruct e; cbn; tauto. }
  2: { exists [], l. done. }
  assert (exists l1, lstep l e = Some l1) as [l1 E1]. { unfold due in He. destruct (lstep l e); [by eexists|done]. }
  destruct (IH (m l1)) with (l := l1) as (es' & l' & Hb & Hr & Hrest); [|done|].
  { subst m. unfold due in He. rewrite E1 in He. destruct l as [h ct cs up st wk ss dn].
    destruct e; try done; cbn [lstep] in E1; steps; cbn [l_up l_work l_down l_ctask l_stask w] in *;
      unfold w; repeat match goal with |- context [match ?x with Reading => _ | _ => _ end] => destruct x end; cbn; try lia; congruence. }
  exists (e :: es'), l'. cbn. by rewrite E1.
Qed.
Print Assumptions C70_winds_down.

(** and when something has ended the connection and nothing more comes by itself, then both sides have let go, or the
    client's task is over and the client still holds a handle. *)
Theorem C70_let_go :
  forall es l, after es l -> (exists e, In e es /\ ends e) -> at_rest l ->
    l_ctask l = Gone /\ (server_free l \/ 0 < l_handles l).
Proof.
  intros es l H Hend Hrest. apply is_sound in H as (A & B & D & F & G). apply ended_true in Hend.
  specialize (G Hend). clear F Hend. destruct l as [h ct cs up st wk ss dn]. unfold at_rest, server_free in *.
  cbn [l_stask l_sshut l_work l_ctask l_handles l_cshut] in *.
  pose proof (Hrest LServe) as R1. pose proof (Hrest LServeEnd) as R2. pose proof (Hrest LServerLeaves) as R3.
  pose proof (Hrest LGet) as R4. pose proof (Hrest LGetEnd) as R5. pose proof (Hrest LClientLeaves) as R6.
  pose proof (Hrest LAnswer) as R7. clear Hrest. unfold due in *. cbn in *.
  destruct ct; [| by destruct h |].
  - exfalso. destruct dn; [|done]. destruct ss; [done|]. destruct wk; [|done]. destruct st; [|done|by destruct (A eq_refl)].
    destruct up; [|done]. by rewrite G in R2.
  - split; [done|]. destruct h as [|h]; [|right; lia]. left. rewrite D in * by done. destruct st; [|by destruct wk|done].
    by destruct up.
Qed.
Print Assumptions C70_let_go.

(** Exactly: when all handles are dropped and nothing more happens by itself, either side has let the
    connection go just when it was ended. *)
Theorem C70_exactly :
  forall es l, after es l -> at_rest l -> l_handles l = 0 ->
    (client_free l <-> exists e, In e es /\ ends e)
    /\ (server_free l <-> exists e, In e es /\ ends e).
Proof.
  intros es l H Hr Hh.
  assert ((exists e, In e es /\ ends e) -> client_free l /\ server_free l) as H1.
  { intros He. destruct (C70_let_go es l H He Hr) as [Hc [Hs|Hs]]; [done|lia]. }
  assert ((exists e, In e es /\ ends e) \/ forall e, In e es -> ~ ends e) as [He|He].
  { clear. induction es as [|e es IH]; [by right|].
    destruct (endsb e) eqn:E; [left; exists e; split; [by left|by apply endsb_true]|].
    destruct IH as [(e' & H1 & H2)|IH]; [left; exists e'; split; [by right|done]|].
    right. intros e' [<-|Hin]; [|by apply IH]. intros Hx. apply endsb_true in Hx. congruence. }
  - destruct (H1 He). split; split; done.
  - destruct (C70_open es l H He) as (Hc & Hs & _). unfold client_free, server_free. split; split.
    + rewrite Hc. by intros [? _].
    + intros (e & Hin & Hx). by destruct (He e Hin).
    + rewrite Hs. done.
    + intros (e & Hin & Hx). by destruct (He e Hin).
Qed.
Print Assumptions C70_exactly.

(** So nothing is kept for ever of a connection that has been ended and whose handles have been dropped. *)
Theorem C70_nothing_kept :
  forall es l, after es l -> (exists e, In e es /\ ends e) ->
    exists ds l1, ds = repeat LDrop (l_handles l) /\ lruns l ds = Some l1 /\ l_handles l1 = 0
    /\ exists es' l', by_itself l1 es' /\ lruns l1 es' = Some l' /\ client_free l' /\ server_free l'.
Proof.
  intros es l H He. eexists.
  assert (exists l1, lruns l (repeat LDrop (l_handles l)) = Some l1 /\ l_handles l1 = 0) as (l1 & H1 & Hh).
  { clear. remember (l_handles l) as n eqn:En. revert l En. induction n as [|n IH]; intros [h ct cs up st wk ss dn] En; cbn in En; subst h.
    { by eexists. }
    cbn [repeat lruns lstep]. destruct n as [|n]; [|by apply IH]. destruct ct; by eexists. }
  exists l1. split; [reflexivity|]. split; [exact H1|]. split; [exact Hh|].
  assert (after (es ++ repeat LDrop (l_handles l)) l1) as Ha.
  { unfold after. rewrite lruns_app. unfold after in H. by rewrite H. }
  destruct (C70_winds_down _ _ Ha) as (es' & l' & Hb & Hr & Hrest). exists es', l'. split; [done|]. split; [done|].
  assert (l_handles l' = 0) as Hh'.
  { clear -Hb Hr Hh. revert l1 Hb Hr Hh. induction es' as [|e es' IH]; intros l1 Hb Hr Hh; [by injection Hr as <-|].
    cbn in Hb, Hr. destruct Hb as [Hd Hb]. destruct (lstep l1 e) as [l2|] eqn:E; [|done]. apply (IH l2); [done|done|].
    unfold due in Hd. rewrite E in Hd. destruct l1 as [h ct cs up st wk ss dn]. cbn in Hh. subst h.
    destruct e; try done; cbn [lstep] in E; steps; done. }
  destruct (C70_let_go ((es ++ repeat LDrop (l_handles l)) ++ es') l') as [Hc Hs]; [| |done|].
  - unfold after. rewrite lruns_app. unfold after in Ha. by rewrite Ha.
  - destruct He as (e & He & Hend). exists e. split; [|done]. rewrite !in_app_iff. by do 2 left.
  - split; [done|]. destruct Hs as [Hs|Hs]; [done|lia].
Qed.
Print Assumptions C70_nothing_kept.

(** This comes after finitely many steps, at most three for every message not yet read and some for the two ends,
    whatever happens in between, as long as the client does not go on sending. *)
Theorem C70_soon :
  forall es l es' l',
    after es l -> lruns l es' = Some l' ->
    count (fun e => match e with
                    | LServe | LServeBad | LServePanic | LServeEnd | LAnswer | LServerLeaves
                    | LGet | LGetBad | LGetPanic | LGetEnd | LClientLeaves => true
                    | _ => false
                    end) es'
    <= 3 * (l_up l + count calls es') + 2 * l_work l + l_down l + 4.
Proof.
  intros es l es' l' _. 
  assert (forall es' l l', lruns l es' = Some l' ->
    let w := fun t => match t with Reading => 2 | Ending => 1 | Gone => 0 end in
    let m := fun l => 3 * l_up l + 2 * l_work l + l_down l + w (l_ctask l) + w (l_stask l) in
    count (fun e => match e with
                    | LServe | LServeBad | LServePanic | LServeEnd | LAnswer | LServerLeaves
                    | LGet | LGetBad | LGetPanic | LGetEnd | LClientLeaves => true
                    | _ => false
                    end) es' + m l' <= 3 * count calls es' + m l) as M.
  { clear. intros es. induction es as [|e es IH]; intros l l' H w m.
    { injection H as <-. unfold count. cbn. lia. }
    cbn in H. destruct (lstep l e) as [l1|] eqn:E; [|done]. specialize (IH l1 l' H). cbn zeta in IH. fold w in IH. fold m in IH.
    unfold count in *. cbn [List.filter].
    assert ((match e with
                    | LServe | LServeBad | LServePanic | LServeEnd | LAnswer | LServerLeaves
                    | LGet | LGetBad | LGetPanic | LGetEnd | LClientLeaves => 1
                    | _ => 0
                    end) + m l1 <= (if calls e then 3 else 0) + m l) as Hm.
    { subst m. destruct l as [h ct cs up st wk ss dn]. destruct e; cbn [lstep] in E; steps;
        cbn [calls l_up l_work l_down l_ctask l_stask w] in *; try (unfold w; repeat match goal with |- context [match ?x with Reading => _ | _ => _ end] => destruct x end; lia). }
    clearbody m w. destruct e; cbn [calls length] in *; lia. }
  intros H. specialize (M es' l l' H). cbn zeta in M.
  assert (forall t, match t with Reading => 2 | Ending => 1 | Gone => 0 end <= 2) as Hw by (intros []; lia).
  pose proof (Hw (l_ctask l)). pose proof (Hw (l_stask l)). unfold count in *. lia.
Qed.
Print Assumptions C70_soon.

(** A shutdown loses nothing: if nothing else ends the connection, then when nothing more comes by itself both
    sides have come to their end, every request sent has been handled and answered, and every answer has been read. *)
Theorem C70_shutdown :
  forall es l, after es l -> In LShutdown es -> (forall e, In e es -> ends e -> e = LShutdown) -> at_rest l ->
    l_ctask l = Gone /\ server_free l
    /\ count serves es = count calls es /\ count answers es = count calls es /\ count gets es = count calls es.
Proof.
  intros es l H Hs Hon Hrest.
  assert ((l_ctask l = Reading \/ l_stask l = Gone /\ l_down l = 0)
    /\ (l_stask l = Reading \/ l_cshut l = true /\ l_up l = 0)
    /\ count serves es + l_up l = count calls es /\ count answers es + l_work l = count serves es
    /\ count gets es + l_down l = count answers es) as (I1 & I2 & I3 & I4 & I5).
  { clear Hs Hrest. revert es l H Hon. apply (after_inv (fun es l => (forall e, In e es -> ends e -> e = LShutdown) ->
      (l_ctask l = Reading \/ l_stask l = Gone /\ l_down l = 0)
      /\ (l_stask l = Reading \/ l_cshut l = true /\ l_up l = 0)
      /\ count serves es + l_up l = count calls es /\ count answers es + l_work l = count serves es
      /\ count gets es + l_down l = count answers es)).
    { intros _. cbn. repeat split; auto. }
    intros es l e l' Ha IH E Hon.
    assert (ends e -> e = LShutdown) as He by (apply Hon, in_app_iff; right; by left).
    destruct IH as (I1 & I2 & I3 & I4 & I5). { intros e' H'. apply Hon, in_app_iff. by left. }
    apply is_sound in Ha as (A & B & _). rewrite !count_snoc.
    destruct l as [h ct cs up st wk ss dn]. cbn [l_up l_work l_down l_ctask l_stask l_cshut l_sshut] in *.
    destruct e; try (by specialize (He I)); cbn [lstep] in E; steps;
      cbn [l_up l_work l_down l_ctask l_stask l_cshut l_sshut calls serves answers gets] in *;
      try (by destruct I1 as [|[? ?]]); try (by destruct I2 as [|[? ?]]);
      intuition (try congruence; try lia); subst; lia. }
  assert (exists e, In e es /\ ends e) as Hend by (by exists LShutdown).
  destruct (C70_let_go es l H Hend Hrest) as [Hc _]. destruct I1 as [I1|[Hg Hd]]; [congruence|].
  assert (l_up l = 0) as Hu by (destruct I2 as [|[? ?]]; congruence).
  apply is_sound in H as (A & _). destruct (A Hg) as [_ Hw]. unfold server_free.
  repeat split; try done; lia.
Qed.
Print Assumptions C70_shutdown.

(** Any time is a time at which a process may end, and whoever reads may find in place of the next message what is none, or
    panic at it: a process that ended keeps nothing, a reader that found such a thing reads no more. *)
Theorem C70_any_time :
  forall es l, after es l ->
    (exists l', after (es ++ [LKillClient]) l' /\ client_free l')
    /\ (exists l', after (es ++ [LKillServer]) l' /\ server_free l')
    /\ (l_stask l = Reading -> 0 < l_up l ->
          (exists l', after (es ++ [LServeBad]) l' /\ l_stask l' <> Reading /\ l_work l' = l_work l)
          /\ exists l', after (es ++ [LServePanic]) l' /\ server_free l')
    /\ (l_ctask l = Reading -> 0 < l_down l ->
          (exists l', after (es ++ [LGetBad]) l' /\ l_ctask l' <> Reading)
          /\ exists l', after (es ++ [LGetPanic]) l' /\ l_ctask l' = Gone).
Proof.
  intros es l H. unfold after in *.
  assert (forall e, lruns lnew (es ++ [e]) = lstep l e) as E.
  { intros e. rewrite lruns_app, H. cbn. by destruct (lstep l e). }
  destruct l as [h ct cs up st wk ss dn]. cbn [l_stask l_up l_work l_ctask l_down].
  split; [|split; [|split]].
  - rewrite E. by eexists.
  - rewrite E. by eexists.
  - intros -> Hu. destruct up as [|up]; [lia|]. rewrite !E. split; by eexists.
  - intros -> Hd. destruct dn as [|dn]; [lia|]. rewrite !E. split; by eexists.
Qed.
Print Assumptions C70_any_time.

Example C70_any_time_ex :
  exists l, after [LCall; LCall; LServe; LAnswer] l
    /\ l_stask l = Reading /\ 0 < l_up l /\ l_ctask l = Reading /\ 0 < l_down l.
Proof. eexists. split; [reflexivity|]. cbn. lia || (repeat split; lia). Qed.

(** Two requests and a shutdown, one request still on its way and one in work. *)
Example C70_ex :
  exists l, after [LClone; LCall; LCall; LServe; LShutdown] l /\ l_up l = 1 /\ l_work l = 1
  /\ exists l', lruns l [LServe; LAnswer; LServeEnd; LAnswer; LServerLeaves; LGet; LGet; LGetEnd; LClientLeaves; LDrop; LDrop] = Some l'
       /\ at_rest l' /\ client_free l' /\ server_free l'.
Proof.
  eexists. split; [reflexivity|]. repeat split. eexists. split; [reflexivity|].
  repeat split. by intros [].
Qed.

(** The case left open by [C70_let_go]: the client reads what is no answer, and keeps its handle; the server cannot be
    sure to get rid of its answer.  Dropping the handle ends it. *)
Example C70_ex_held :
  exists l, after [LCall; LCall; LServe; LServe; LAnswer; LGetBad; LClientLeaves; LServeEnd] l
  /\ at_rest l /\ l_handles l = 1 /\ ~ server_free l
  /\ exists l', lruns l [LDrop; LAnswer; LServerLeaves] = Some l' /\ client_free l' /\ server_free l'.
Proof.
  eexists. split; [reflexivity|]. split; [by intros []|]. repeat split; [done|]. eexists. by repeat split.
Qed.

(** The last handle is dropped and nothing else happens: the connection stays. *)
Example C70_exactly_ex :
  exists l, after [LClone; LCall; LServe; LAnswer; LGet; LDrop; LDrop] l
  /\ at_rest l /\ l_handles l = 0 /\ ~ client_free l /\ ~ server_free l.
Proof.
  eexists. split; [reflexivity|]. split; [by intros []|]. split; [done|]. split; [by intros [H _]|done].
Qed.
