(** * C36, continued: which programs lair stops, and what it keeps of them *)

From Verif Require Import Base Base64 Fallback PropertiesFallback.

(** ** Vocabulary *)

(** A line that is an answer: an error, a signature of the right size, or neither of the two. *)
Definition in_order (l : line) : Prop :=
  exists id, (exists s e, l = Reply id s (Some e)) \/ (exists s sig, l = Reply id (Some s) None /\ proper s sig)
    \/ l = Reply id None None.
(** A program that runs, keeps its pipes open and printed only answers. *)
Definition behaves (p : program) : Prop :=
  g_alive p = true /\ g_in p = true /\ g_out p = true /\ Forall in_order (g_lines p).

(** ** The invariant *)

Definition task_fine (p : program) : Prop := (g_write p = WIdle \/ exists k, g_write p = WWrite k) /\ g_read p = LRun /\ g_killed p = false.
Record tinv (w : fworld) : Prop := {
  t_fine : forall g p, f_programs w !! g = Some p -> behaves p -> f_cur w = Some g /\ task_fine p;
  t_queue : forall g p, f_programs w !! g = Some p -> (N.of_nat (length (g_queue p)) <= 4096)%N;
  t_bad : forall k c g n r p l, f_calls w !! k = Some c -> fc_mail c = Told (Some (g, n)) r ->
    f_programs w !! g = Some p -> g_lines p !! n = Some l -> g_read p = LRun -> snd (verdict l) = true
}.

Lemma verdict_in_order l : in_order l -> exists id r, verdict l = (Some (id, r), true).
Proof.
  intros (id & [(s & e & ->)|[(s & sig & -> & Hs & Hl)| ->]]); cbn; [by destruct s; eauto| |by eauto].
  rewrite Hs, Hl. cbn. eauto.
Qed.

(** Nothing is told of a line that is not read yet. *)
Lemma told_read w k c g n r : finv w -> f_calls w !! k = Some c -> fc_mail c = Told (Some (g, n)) r ->
  exists p l, f_programs w !! g = Some p /\ g_lines p !! n = Some l /\ n < g_nread p.
Proof. intros V Hk Hm. destruct (v_told w V _ _ _ _ Hk Hm) as (p & l & ? & ? & ? & _). eauto. Qed.

(** Calls change, but nothing is told of a line. *)
Definition mails_kept (cs cs' : list fcall) : Prop :=
  forall k c', cs' !! k = Some c' -> forall s r, fc_mail c' = Told (Some s) r -> exists j c, cs !! j = Some c /\ fc_mail c = Told (Some s) r.

Lemma tinv_calls w cs : tinv w -> mails_kept (f_calls w) cs -> tinv (set_calls w cs).
Proof.
  intros [H1 H2 H3] Hk. split; cbn; [done|done|].
  intros k c g n r p l Hc Hm Hp. destruct (Hk k c Hc _ _ Hm) as (j & c0 & Hj & Hm0). by eapply H3.
Qed.

Lemma kept_alter cs f k : (forall c s r, fc_mail (f c) = Told (Some s) r -> fc_mail c = Told (Some s) r) -> mails_kept cs (alter f k cs).
Proof.
  intros Hf j c' Hc s r Hm. destruct (decide (j = k)) as [->|].
  - rewrite list_lookup_alter in Hc. destruct (cs !! k) as [c|] eqn:E; [|done]. injection Hc as <-. eauto.
  - rewrite list_lookup_alter_ne in Hc by done. eauto.
Qed.
Lemma kept_mail m c s r : own m -> fc_mail (mail_to m c) = Told (Some s) r -> fc_mail c = Told (Some s) r.
Proof. intros Hm. destruct c as [? ? []]; cbn; destruct Hm as [->|[e ->]]; naive_solver. Qed.
Lemma kept_tell w k m : own m -> mails_kept (f_calls w) (f_calls (tell w k m)).
Proof. intros Hm. apply kept_alter. intros c s r. by apply kept_mail. Qed.
Lemma kept_insert cs k c c0 : cs !! k = Some c0 -> fc_mail c = fc_mail c0 -> mails_kept cs (<[k := c]> cs).
Proof.
  intros Hk E j c' Hc s r Hm. destruct (decide (j = k)) as [->|].
  - rewrite list_lookup_insert in Hc by (by eapply lookup_lt_Some). injection Hc as <-. rewrite E in Hm. eauto.
  - rewrite list_lookup_insert_ne in Hc by done. eauto.
Qed.
Lemma kept_imap cs P m : own m -> mails_kept cs (imap (fun k c => if P k c : bool then mail_to m c else c) cs).
Proof.
  intros Hm j c' Hc s r Ht. rewrite list_lookup_imap in Hc. destruct (cs !! j) as [c|] eqn:E; [|done]. injection Hc as <-.
  exists j, c. split; [done|]. destruct (P j c); [by eapply kept_mail|done].
Qed.
Lemma tinv_tell w k m : tinv w -> own m -> tinv (tell w k m).
Proof. intros I Hm. apply tinv_calls; [done|]. by apply kept_tell. Qed.
Lemma tinv_tell_opt w k m : tinv w -> own m -> tinv (tell_opt w k m).
Proof. destruct k; [apply tinv_tell|done]. Qed.
Lemma tinv_fend w k o : tinv w -> tinv (fend w k o).
Proof. intros I. apply tinv_calls; [done|]. by apply kept_alter. Qed.

(** One program changes. *)
Lemma tinv_prog w g p p' : tinv w -> f_programs w !! g = Some p ->
  (behaves p' -> behaves p /\ task_fine p') ->
  (N.of_nat (length (g_queue p')) <= 4096)%N ->
  (g_read p' = LRun -> g_read p = LRun) ->
  (forall n l, g_lines p' !! n = Some l -> (exists k c r, f_calls w !! k = Some c /\ fc_mail c = Told (Some (g, n)) r) -> g_lines p !! n = Some l) ->
  tinv (set_g w g p').
Proof.
  intros [H1 H2 H3] Hp E1 E2 E3 E4.
  assert (forall h q, <[g := p']> (f_programs w) !! h = Some q -> h = g /\ q = p' \/ h <> g /\ f_programs w !! h = Some q) as Hx.
  { intros h q H. destruct (decide (h = g)) as [->|Hne].
    - rewrite list_lookup_insert in H by (by eapply lookup_lt_Some). injection H as <-. auto.
    - rewrite list_lookup_insert_ne in H by done. auto. }
  split; cbn [set_g f_cur f_programs f_calls].
  - intros h q H Hb. destruct (Hx _ _ H) as [[-> ->]|[_ ?]]; [|by eapply H1]. destruct (E1 Hb) as [Hb' Hf].
    split; [by eapply H1|done].
  - intros h q H. destruct (Hx _ _ H) as [[-> ->]|[_ ?]]; [done|by eapply H2].
  - intros k c h n r q l Hk Hm H Hl Hr. destruct (Hx _ _ H) as [[-> ->]|[_ ?]]; [|by eapply H3].
    eapply H3; [done|done|exact Hp| |by apply E3]. apply E4; [done|]. eauto.
Qed.

Lemma tinv_forget w g : tinv w -> (forall p, f_programs w !! g = Some p -> ~ behaves p) -> tinv (forget w g).
Proof.
  intros [H1 H2 H3] Hn. unfold forget. case_bool_decide as E; [|done].
  assert (forall h q, alter (fun p => Program (g_alive p) true (g_in p) (g_out p) (g_lines p) (g_nread p)
      (g_queue p) (g_pending p) (g_running p) (g_write p) (g_read p) (g_put p)) g (f_programs w) !! h = Some q ->
      exists p, f_programs w !! h = Some p /\ (behaves q -> behaves p) /\ g_queue q = g_queue p /\ g_read q = g_read p /\ g_lines q = g_lines p) as Hx.
  { intros h q H. destruct (decide (h = g)) as [->|].
    - rewrite list_lookup_alter in H. destruct (f_programs w !! g) as [p|]; [|done]. injection H as <-. exists p. auto.
    - rewrite list_lookup_alter_ne in H by done. exists q. auto. }
  split; cbn [f_cur f_programs f_calls].
  - intros h q H Hb. destruct (Hx _ _ H) as (p & Hp & Hbp & _). exfalso. specialize (Hbp Hb).
    destruct (H1 _ _ Hp Hbp) as [Hc _]. rewrite E in Hc. injection Hc as <-. by eapply Hn.
  - intros h q H. destruct (Hx _ _ H) as (p & Hp & _ & -> & _). by eapply H2.
  - intros k c h n r q l Hk Hm H. destruct (Hx _ _ H) as (p & Hp & _ & _ & -> & ->). by eapply H3.
Qed.

Lemma tinv_step w e w' : finv w -> kinv (f_cur w) (f_programs w) -> tinv w -> fstep w e = Some w' -> tinv w'.
Proof.
  intros V K I Hs. pose proof I as [H1 H2 H3].
  (* changes that touch neither pipes nor lines *)
  assert (forall g p p', f_programs w !! g = Some p -> g_alive p' = g_alive p -> g_in p' = g_in p -> g_out p' = g_out p ->
    g_lines p' = g_lines p -> (behaves p -> task_fine p -> task_fine p') ->
    (N.of_nat (length (g_queue p')) <= 4096)%N -> (g_read p' = LRun -> g_read p = LRun) -> tinv (set_g w g p')) as Hq.
  { intros g p p' Hp Ea Ei Eo El Hf Hqu Hr. eapply tinv_prog; [done|exact Hp| |done|done|by rewrite El].
    unfold behaves. rewrite Ea, Ei, Eo, El. intros Hb. split; [done|]. apply Hf; [done|]. by eapply H1. }
  destruct e; cbn [fstep] in Hs.
  - destruct (f_calls w !! k) as [[r [] m]|] eqn:Ek; try done.
    assert ((forall h p, f_cur w = Some h -> f_programs w !! h = Some p -> g_alive p = false) ->
      Some (if can
         then set_c (FWorld (Some (length (f_programs w)))
                 (f_programs match f_cur w with Some h => forget w h | None => w end ++ [new_program])
                 (f_calls match f_cur w with Some h => forget w h | None => w end)) k
                (FCall r (FSend (length (f_programs w))) m)
         else fend w k NoSigner) = Some w' -> tinv w') as Hspawn.
    { intros Hdead [= <-]. destruct can; [|by apply tinv_fend].
      set (w0 := match f_cur w with Some h => forget w h | None => w end).
      assert (tinv w0) as I0.
      { subst w0. destruct (f_cur w) as [h|] eqn:Ec; [|done]. apply tinv_forget; [done|].
        intros p Hp (Ha & _). by rewrite (Hdead h p) in Ha. }
      assert (length (f_programs w0) = length (f_programs w)) as El by (subst w0; destruct (f_cur w); [by rewrite forget_length|done]).
      assert (forall g, f_cur w0 <> Some g) as Ec.
      { subst w0. destruct (f_cur w) as [h|] eqn:Eh; [|by rewrite Eh]. intros g. unfold forget. by rewrite bool_decide_true. }
      assert (f_calls w0 = f_calls w) as Ecs by (subst w0; destruct (f_cur w); [by rewrite forget_calls|done]).
      assert (forall k c n r, f_calls w0 !! k = Some c -> fc_mail c <> Told (Some (length (f_programs w), n)) r) as Hnew.
      { intros k' c n r' Hc Hm. rewrite Ecs in Hc. destruct (told_read w _ _ _ _ _ V Hc Hm) as (p & l & Hp & _). apply lookup_lt_Some in Hp. lia. }
      rewrite <- Ecs in Ek.
      clearbody w0. apply tinv_calls; [|by eapply kept_insert; [exact Ek|]].
      destruct I0 as [J1 J2 J3].
      assert (forall h q, (f_programs w0 ++ [new_program]) !! h = Some q -> f_programs w0 !! h = Some q /\ h < length (f_programs w)
        \/ h = length (f_programs w) /\ q = new_program) as Hx.
      { intros h q [H|[Hl H]]%lookup_app_Some; [left; split; [done|]; rewrite <- El; by eapply lookup_lt_Some|]. right.
        destruct (h - length (f_programs w0)) eqn:E; [|done]. injection H as <-. split; [lia|done]. }
      split; cbn [f_cur f_programs f_calls].
      - intros h q H Hb. destruct (Hx _ _ H) as [[Hh _]|[-> ->]]; [|repeat split; by left].
        destruct (J1 _ _ Hh Hb) as [Hc _]. by destruct (Ec h).
      - intros h q H. destruct (Hx _ _ H) as [[? _]|[-> ->]]; [by eapply J2|done].
      - intros j c h n r' q l Hj Hm H. destruct (Hx _ _ H) as [[? _]|[-> ->]]; [by eapply J3|]. by destruct (Hnew _ _ _ _ Hj Hm). }
    destruct (f_cur w) as [h|] eqn:Eh; [|by apply Hspawn].
    destruct (f_programs w !! h) as [p|] eqn:Eph; [|apply Hspawn; [naive_solver|done]].
    destruct (g_alive p) eqn:Ea; [|apply Hspawn; [naive_solver|done]]. injection Hs as <-.
    apply tinv_calls; [done|]. by eapply kept_insert; [exact Ek|].
  - destruct (f_calls w !! k) as [[r [|g|g|] m]|] eqn:Ek; try done.
    destruct (f_programs w !! g) as [p|] eqn:Ep; [|done].
    assert (g_write p = WDone \/ g_write p <> WDone) as [E|E] by (destruct (g_write p); first [by left|by right]).
    { rewrite E in Hs. injection Hs as <-. by apply tinv_fend. }
    assert ((if (N.of_nat (length (g_queue p)) <? CHANNEL)%N
             then Some (set_c (set_g w g (with_queue p (g_queue p ++ [k]))) k (FCall r (FWait g) m)) else None) = Some w') as Hs'
      by (by destruct (g_write p)).
    destruct (_ <? _)%N eqn:Hlt; [|done]. injection Hs' as <-. apply N.ltb_lt in Hlt. change CHANNEL with 4096%N in Hlt.
    apply tinv_calls; [|by eapply kept_insert; [exact Ek|]].
    eapply Hq; try done. cbn. rewrite app_length. cbn. lia.
  - destruct (f_programs w !! g) as [p|] eqn:Ep; [|done].
    destruct (g_write p) eqn:Ew; try done. destruct (g_queue p) as [|k q] eqn:Eq.
    { destruct (has_senders w g) eqn:Eh; [done|]. injection Hs as <-.
      eapply Hq; [exact Ep|done|done|done|done| |cbn; rewrite Eq; done|done].
      intros Hb _. exfalso. destruct (H1 _ _ Ep Hb) as [Hc _]. unfold has_senders in Eh. by rewrite bool_decide_true in Eh. }
    pose proof (H2 _ _ Ep) as Hqq. rewrite Eq in Hqq. cbn [length] in Hqq.
    destruct (f_calls w !! k) as [c|] eqn:Ek; [|done].
    destruct (g_running p) eqn:Erun; injection Hs as <-.
    + apply tinv_tell_opt; [|by left]. eapply Hq; [exact Ep|done|done|done|done| |cbn; lia|done].
      intros _ (_ & Hr & Hk). split; [right; by exists k|done].
    + apply tinv_tell; [|right; eauto]. eapply Hq; [exact Ep|done|done|done|done| |cbn; lia|done].
      intros _ (_ & Hr & Hk). destruct V. apply (v_read _ _ Ep) in Erun. congruence.
  - destruct (f_programs w !! g) as [p|] eqn:Ep; [|done].
    destruct (g_write p) eqn:Ew; try done. destruct (g_in p) eqn:Ei; [done|].
    destruct (f_calls w !! k) as [c|] eqn:Ek; [|done]. injection Hs as <-.
    apply tinv_tell_opt; [|right; eauto]. eapply Hq; [exact Ep|done|done|done|done| |cbn; by eapply H2|done].
    intros (_ & Hb & _). congruence.
  - destruct (f_programs w !! g) as [p|] eqn:Ep; [|done]. destruct (g_write p) eqn:Ew; try done. injection Hs as <-.
    assert (~ behaves p) as Hnb by (intros Hb; destruct (H1 _ _ Ep Hb) as (_ & [HH|[k HH]] & _); congruence).
    apply tinv_forget.
    + eapply Hq; [exact Ep|done|done|done|done|done|cbn; by eapply H2|done].
    + intros q Hq'. cbn in Hq'. rewrite list_lookup_insert in Hq' by (by eapply lookup_lt_Some). by injection Hq' as <-.
  - destruct (f_programs w !! g) as [p|] eqn:Ep; [|done]. destruct (g_write p) eqn:Ew; try done. injection Hs as <-.
    apply tinv_calls; [|apply (kept_imap (f_calls w)); by left].
    eapply Hq; [exact Ep|done|done|done|done| |cbn; lia|done].
    intros _ ([HH|[k HH]] & _); congruence.
  - destruct (f_programs w !! g) as [p|] eqn:Ep; [|done]. destruct (g_read p) eqn:Er; try done.
    destruct (g_lines p !! g_nread p) as [l|] eqn:El.
    + injection Hs as <-. unfold read_line. pose proof (H2 _ _ Ep) as Hqu.
      assert (forall id r m, verdict l = (Some (id, r), m) \/ verdict l = (None, m) -> behaves p -> m = true /\ verdict l <> (None, m)) as Hgood.
      { intros id r m Hv (_ & _ & _ & Hls). apply (Forall_lookup_1 _ _ _ _ Hls) in El. apply verdict_in_order in El as (id' & r' & E).
        destruct Hv as [Hv|Hv]; rewrite E in Hv; [|done]. injection Hv as _ _ <-. by rewrite E. }
      destruct (verdict l) as [[[id r]|] more] eqn:Ev.
      * destruct (g_pending p !! id) as [k|] eqn:Epd.
        { assert (forall st, st = (if more then LRun else LExit) -> tinv (set_g w g (with_read (with_pending p (delete id (g_pending p)) (g_put p)) (S (g_nread p)) st (g_running p)))) as Hst.
          { intros st ->. eapply Hq; [exact Ep|done|done|done|done| |done|by rewrite Er].
            intros Hb (Hw & _ & Hkd). destruct (Hgood id r more (or_introl eq_refl) Hb) as [-> _]. done. }
          set (w1 := set_g w g _). assert (tinv w1) as I1 by (by apply Hst). 
          destruct r as [r|]; [|apply tinv_tell; [done|by left]].
          destruct I1 as [J1 J2 J3]. split; [exact J1|exact J2|].
          intros j c h n r' q l' Hj Hm Hh Hl' Hr'. cbn [tell set_calls f_calls f_programs] in *.
          assert (f_calls w1 !! j = Some c \/ (h = g /\ n = g_nread p)) as [Hj0|[-> ->]].
          { destruct (decide (j = k)) as [->|Hne].
            - rewrite list_lookup_alter in Hj. destruct (f_calls w1 !! k) as [d|] eqn:Ed; [|done]. injection Hj as <-.
              destruct (mail_mail (Told (Some (g, g_nread p)) r) d) as [E|[E En]]; [right; rewrite E in Hm; by injection Hm|].
              left. f_equal. destruct d as [? ? []]; done.
            - rewrite list_lookup_alter_ne in Hj by done. by left. }
          - by eapply J3.
          - subst w1. cbn [set_g f_programs] in Hh. rewrite list_lookup_insert in Hh by (by eapply lookup_lt_Some). injection Hh as <-.
            cbn in Hl', Hr'. rewrite El in Hl'. injection Hl' as <-. rewrite Ev. cbn. by destruct more. }
        eapply Hq; [exact Ep|done|done|done|done| |done|by rewrite Er]. intros Hb (Hw & _ & Hkd). done.
      * eapply Hq; [exact Ep|done|done|done|done| |done|by rewrite Er].
        intros Hb _. destruct (Hgood [] None more (or_intror eq_refl) Hb) as [-> HH]. done.
    + destruct (g_out p) eqn:Eo; [done|]. injection Hs as <-.
      eapply Hq; [exact Ep|done|done|done|done| |cbn; by eapply H2|by rewrite Er].
      intros (_ & _ & Hb & _). congruence.
  - destruct (f_programs w !! g) as [p|] eqn:Ep; [|done]. destruct (g_read p) eqn:Er; try done. injection Hs as <-.
    assert (~ behaves p) as Hnb by (intros Hb; destruct (H1 _ _ Ep Hb) as (_ & _ & HH & _); congruence).
    apply tinv_forget.
    + eapply Hq; [exact Ep|done|done|done|done|done|cbn; by eapply H2|done].
    + intros q Hq'. cbn in Hq'. rewrite list_lookup_insert in Hq' by (by eapply lookup_lt_Some). by injection Hq' as <-.
  - destruct (f_programs w !! g) as [p|] eqn:Ep; [|done]. destruct (g_read p) eqn:Er; try done. injection Hs as <-.
    apply tinv_calls; [|apply (kept_imap (f_calls w)); right; eauto].
    eapply Hq; [exact Ep|done|done|done|done| |cbn; by eapply H2|done].
    intros _ (_ & HH & _). congruence.
  - destruct (f_calls w !! k) as [[r [|g|g|] [|s x|]]|] eqn:Ek; try done; injection Hs as <-; by apply tinv_fend.
  - injection Hs as <-. apply tinv_calls; [done|]. intros j c [Hj|[_ Hj]]%lookup_app_Some s r' Hm; [eauto|].
    destruct (j - length (f_calls w)); [|done]. by injection Hj as <-.
  - destruct (f_calls w !! k) as [[r [] m]|] eqn:Ek; try done; injection Hs as <-; by apply tinv_fend.
  - destruct (f_programs w !! g) as [p|] eqn:Ep; [|done]. destruct (g_write p) eqn:Ew; try done. destruct (g_in p); [|done].
    injection Hs as <-. eapply Hq; [exact Ep|done|done|done|done| |cbn; by eapply H2|done].
    intros _ (_ & Hr & Hk). split; [by left|done].
  - destruct (f_programs w !! g) as [p|] eqn:Ep; [|done]. destruct (g_out p) eqn:Eo; [|done].
    injection Hs as <-. eapply tinv_prog; [done|exact Ep| |cbn; by eapply H2|done|].
    + intros (Ha & Hi & _ & Hl). cbn in Ha, Hi, Hl. apply Forall_app in Hl as [Hl _].
      assert (behaves p) as Hb by done. split; [done|]. destruct (H1 _ _ Ep Hb) as [_ Hf]. done.
    + cbn. intros n l' Hl (k & c & r & Hk & Hm). destruct (told_read w _ _ _ _ _ V Hk Hm) as (q & l2 & Hq2 & Hl2 & _).
      rewrite Ep in Hq2. injection Hq2 as <-. rewrite lookup_app_l in Hl by (by eapply lookup_lt_Some). done.
  - destruct (f_programs w !! g) as [p|] eqn:Ep; [|done]. injection Hs as <-.
    eapply tinv_prog; [done|exact Ep| |cbn; by eapply H2|done|done]. by intros (_ & Hb & _).
  - destruct (f_programs w !! g) as [p|] eqn:Ep; [|done]. injection Hs as <-.
    eapply tinv_prog; [done|exact Ep| |cbn; by eapply H2|done|done]. by intros (_ & _ & Hb & _).
  - destruct (f_programs w !! g) as [p|] eqn:Ep; [|done]. injection Hs as <-.
    eapply tinv_prog; [done|exact Ep| |cbn; by eapply H2|done|done]. by intros (Hb & _).
Qed.

Lemma tinv_run es w : frun fnew es = Some w -> finv w /\ kinv (f_cur w) (f_programs w) /\ tinv w.
Proof.
  assert (forall w0, finv w0 -> kinv (f_cur w0) (f_programs w0) -> tinv w0 -> forall es, frun w0 es = Some w ->
    finv w /\ kinv (f_cur w) (f_programs w) /\ tinv w) as Hx.
  { intros w0 V K I es'. revert w0 V K I. induction es' as [|e es' IH]; intros w0 V K I H; cbn in H; [injection H as <-; done|].
    destruct (fstep w0 e) as [w1|] eqn:E; [|done].
    eapply IH; [by eapply finv_step|by eapply kinv_step|by eapply tinv_step|done]. }
  intros H. eapply Hx; [apply finv_fnew|by split|by split|done].
Qed.

(** ** C36 *)

(** A program that runs, keeps its pipes open and prints nothing but answers is never stopped,
    however long it goes without requests; it is the one the next call is handed to. *)
Theorem C36_well_behaved_kept :
  forall es w g p,
    frun fnew es = Some w -> f_programs w !! g = Some p -> behaves p ->
    g_killed p = false /\ f_cur w = Some g.
Proof.
  intros es w g p H Hp Hb. apply tinv_run in H as (_ & _ & I). destruct (t_fine w I g p Hp Hb) as (Hc & _ & _ & Hk). done.
Qed.
Print Assumptions C36_well_behaved_kept.

(** A program that answered a request with something that should be a signature and is not is
    stopped. *)
Theorem C36_bad_signature_kills :
  forall es w k g n r id s p,
    frun fnew es = Some w -> quiet w -> over w k (Answered (Some (g, n)) r) ->
    printed w g n (Reply id (Some s) None) -> (forall sig, ~ proper s sig) ->
    f_programs w !! g = Some p -> g_killed p = true.
Proof.
  intros es w k g n r id s p H Hqt (c & Hk & Hst) (q & Hq & Hl & Hn) Hbad Hp. rewrite Hp in Hq. injection Hq as <-.
  apply tinv_run in H as (V & K & I). destruct K as [K1 K2 K3 K4].
  eapply K1; [done|]. eapply K2; [done|]. destruct (g_read p) eqn:Er; [| |by left|by right].
  - exfalso. pose proof (v_end w V _ _ _ _ Hk Hst) as Hm. pose proof (t_bad w I _ _ _ _ _ _ _ Hk Hm Hp Hl Er) as Hv.
    cbn in Hv. destruct (from_b64std s) as [sig|] eqn:Es; [|done]. destruct (Nat.eqb_spec (length sig) 64) as [E|E]; [|done].
    by apply (Hbad sig).
  - pose proof (Hqt (LForget g) Logic.I) as Hs. cbn [fstep] in Hs. by rewrite Hp, Er in Hs.
Qed.
Print Assumptions C36_bad_signature_kills.

(** No more than 4096 requests wait to be written to a program, whatever clients do. *)
Theorem C36_queue_bounded :
  forall es w g p,
    frun fnew es = Some w -> f_programs w !! g = Some p -> (N.of_nat (length (g_queue p)) <= 4096)%N.
Proof. intros es w g p H Hp. apply tinv_run in H as (_ & _ & I). by eapply t_queue. Qed.
Print Assumptions C36_queue_bounded.

(** When a program is gone and so are the calls handed to it, nothing is kept of it: both tasks
    that served it have ended, with nothing queued and nobody listed as waiting. *)
Theorem C36_nothing_left :
  forall es w g p,
    frun fnew es = Some w -> quiet w -> f_programs w !! g = Some p ->
    g_in p = false -> g_out p = false ->
    (forall k c, f_calls w !! k = Some c -> exists o, fc_st c = FEnd o) ->
    f_cur w <> Some g -> 
    g_write p = WDone /\ g_read p = LDone /\ g_queue p = [] /\ g_pending p = ∅ /\ g_killed p = true.
Proof.
  intros es w g p H Hqt Hp Hi Ho Hc Hcur. apply tinv_run in H as (V & K & I).
  assert (g_read p = LDone) as Hr.
  { destruct (g_read p) eqn:Er; [| | |done].
    - pose proof (Hqt (Read g) Logic.I) as Hs. cbn [fstep] in Hs. rewrite Hp, Er, Ho in Hs. by destruct (g_lines p !! g_nread p).
    - pose proof (Hqt (LForget g) Logic.I) as Hs. cbn [fstep] in Hs. by rewrite Hp, Er in Hs.
    - pose proof (Hqt (Drain g) Logic.I) as Hs. cbn [fstep] in Hs. by rewrite Hp, Er in Hs. }
  assert (g_write p = WDone) as Hw.
  { destruct (g_write p) eqn:Ew; [| | | |done].
    - pose proof (Hqt (Take g) Logic.I) as Hs. cbn [fstep] in Hs. rewrite Hp, Ew in Hs. destruct (g_queue p) as [|k q] eqn:Eq.
      + assert (has_senders w g = false) as E; [|by rewrite E in Hs].
        unfold has_senders. rewrite bool_decide_false by done. cbn. apply not_true_is_false. intros (c & Hin & Hh)%existsb_exists.
        apply elem_of_list_In, elem_of_list_lookup in Hin as (k & Hk). destruct (Hc _ _ Hk) as [o Ho']. unfold holds in Hh. by rewrite Ho' in Hh.
      + assert (k < length (f_calls w)) as Hk by (eapply (v_queue w V g p); [done|]; left; rewrite Eq; by left).
        apply lookup_lt_is_Some in Hk as [c Hk]. rewrite Hk in Hs. by destruct (g_running p).
    - pose proof (Hqt (WFail g) Logic.I) as Hs. cbn [fstep] in Hs. rewrite Hp, Ew, Hi in Hs.
      assert (k < length (f_calls w)) as Hk by (eapply (v_queue w V g p); [done|]; by right).
      apply lookup_lt_is_Some in Hk as [c Hk]. by rewrite Hk in Hs.
    - pose proof (Hqt (WForget g) Logic.I) as Hs. cbn [fstep] in Hs. by rewrite Hp, Ew in Hs.
    - pose proof (Hqt (WEnd g) Logic.I) as Hs. cbn [fstep] in Hs. by rewrite Hp, Ew in Hs. }
  split; [done|]. split; [done|]. split; [by eapply v_done|]. split; [eapply v_empty; [done..|]; by eapply v_read|].
  destruct K as [K1 _ _ _]. by eapply K1.
Qed.
Print Assumptions C36_nothing_left.

(** One program answers, answers with neither of the two, and answers late: it is kept.  Then it
    sends something that is no signature: it is stopped, and once it is gone nothing is left. *)
Example C36_kept_case :
  let r i := SignReq (str i) (replicate 32 x01) (str "data") in
  let s := to_b64std (replicate 64 x11) in
  let es := [Call (r "a"%string); Call (r "b"%string); Get 0 true; Get 1 true; Push 0; Push 1; Take 0; WOk 0; Take 0; WOk 0;
    Print 0 (Reply (str "a") (Some s) None); Print 0 (Reply (str "b") None None); Print 0 (Reply (str "b") (Some s) None);
    Read 0; Read 0; Read 0; Poll 0; Poll 1] in
  let es' := [Call (r "c"%string); Get 2 true; Push 2; Take 0; WOk 0; Print 0 (Reply (str "c") (Some (str "AAAA")) None);
    Read 0; Poll 2; LForget 0; Drain 0; Die 0; CloseIn 0; CloseOut 0; Take 0; WForget 0; WEnd 0] in
  (exists w p, frun fnew es = Some w /\ f_programs w !! 0 = Some p /\ behaves p /\ over w 1 NoTask)
  /\ (exists w p e, frun fnew (es ++ es') = Some w /\ quiet w /\ f_programs w !! 0 = Some p
        /\ over w 2 (Answered (Some (0, 3)) (Err e)) /\ f_cur w = None /\ g_killed p = true /\ g_write p = WDone).
Proof.
  intros r s es es'.
  set (s0 := to_b64std (replicate 64 x11)). set (sig := replicate 64 x11).
  assert (proper s0 sig) as Hs by (by vm_compute).
  set (ls := [Reply (str "a") (Some s0) None; Reply (str "b") None None; Reply (str "b") (Some s0) None]).
  split.
  - set (look := fun o => match o with
      | Some w => match f_programs w !! 0 with
          | Some p => Some (g_alive p, g_in p, g_out p, g_lines p, map fc_st (f_calls w)) | None => None end
      | None => None end).
    assert (look (frun fnew es) = Some (true, true, true, ls, [FEnd (Answered (Some (0, 0)) (Ok sig)); FEnd NoTask])) as E
      by (vm_compute; reflexivity).
    unfold look in E. destruct (frun fnew es) as [w|]; [|done]. destruct (f_programs w !! 0) as [p|] eqn:Ep; [|done].
    injection E as Ea Ei Eo El Ec. exists w, p. split; [done|]. split; [done|]. split.
    + split; [done|]. split; [done|]. split; [done|]. rewrite El. unfold ls.
      apply List.Forall_cons; [|apply List.Forall_cons; [|apply List.Forall_cons; [|by constructor]]].
      * exists (str "a"). right; left. by exists s0, sig.
      * exists (str "b"). by right; right.
      * exists (str "b"). right; left. by exists s0, sig.
    + apply over_of. by rewrite Ec.
  - set (e0 := str "signature_fallback read error: invalid signature size").
    set (look := fun o => match o with
      | Some w => match f_programs w with
          | [p] => Some (f_cur w, g_killed p, g_write p, g_read p, map fc_st (f_calls w)) | _ => None end
      | None => None end).
    assert (look (frun fnew (es ++ es')) = Some (None, true, WDone, LDone,
      [FEnd (Answered (Some (0, 0)) (Ok sig)); FEnd NoTask; FEnd (Answered (Some (0, 3)) (Err e0))])) as E
      by (vm_compute; reflexivity).
    unfold look in E. destruct (frun fnew (es ++ es')) as [w|]; [|done].
    destruct (f_programs w) as [|p [|]] eqn:Ep; [done| |done]. injection E as Eu Ek Ew Er Ec.
    exists w, p, e0. split; [done|]. split.
    + assert (forall k c, f_calls w !! k = Some c -> exists o, fc_st c = FEnd o) as Hc.
      { intros k c Hk. assert (map fc_st (f_calls w) !! k = Some (fc_st c)) as Hm by (by rewrite list_lookup_fmap, Hk).
        rewrite Ec in Hm. destruct k as [|[|[|k]]]; [..|done]; injection Hm as <-; eauto. }
      intros e He. destruct e as [k ?|k|g|g|g|g|g|g|g|k|r'|k|g|g l|g|g|g]; try done; cbn [fstep];
        first [destruct (f_calls w !! k) as [[? st ?]|] eqn:E; [destruct (Hc _ _ E) as [o Ho]; cbn in Ho; by subst st|done]
              |rewrite Ep; destruct g as [|g]; [cbn; by rewrite ?Ew, ?Er|done]].
    + rewrite ?Ep. split; [done|]. split; [apply over_of; by rewrite Ec|done].
Qed.
