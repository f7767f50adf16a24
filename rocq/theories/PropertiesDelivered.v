(** * C36, continued: an answer that was printed reaches the call it is for *)

From Verif Require Import Base Base64 Fallback PropertiesFallback PropertiesFallback2 SigningProofs.

(** ** The invariant: a request is put to one program, once *)

Definition shown (p : program) : list nat := g_queue p ++ g_put p.
Record uinv (w : fworld) : Prop := {
  u_own : forall g p k, f_programs w !! g = Some p -> k ∈ shown p ->
    exists c, f_calls w !! k = Some c /\ (fc_st c = FWait g \/ exists o, fc_st c = FEnd o);
  u_once : forall g p, f_programs w !! g = Some p -> NoDup (shown p)
}.

(** What a step does to the requests shown to a program, and to a call that waits. *)
Definition shows (w w' : fworld) : Prop :=
  forall g p', f_programs w' !! g = Some p' ->
    shown p' = []
    \/ exists p, f_programs w !! g = Some p
         /\ ((exists rest, shown p ≡ₚ rest ++ shown p')
             \/ exists k c c', shown p' ≡ₚ k :: shown p /\ f_calls w !! k = Some c /\ fc_st c = FSend g
                  /\ f_calls w' !! k = Some c' /\ fc_st c' = FWait g).
Definition waits_on (w w' : fworld) : Prop :=
  forall k c g, f_calls w !! k = Some c -> fc_st c = FWait g \/ (exists o, fc_st c = FEnd o) ->
    exists c', f_calls w' !! k = Some c' /\ (fc_st c' = FWait g \/ exists o, fc_st c' = FEnd o).

Lemma uinv_step w w' : uinv w -> shows w w' -> waits_on w w' -> uinv w'.
Proof.
  intros [U1 U2] Hs Hw. split.
  - intros g p' k Hp Hk. destruct (Hs g p' Hp) as [E|(p & Hq & [(rest & Hr)|(j & c & c' & Hj & _ & _ & Hc' & Hst)])].
    + rewrite E in Hk. by apply elem_of_nil in Hk.
    + destruct (U1 g p k Hq) as (c & Hc & Hst); [rewrite Hr; apply elem_of_app; by right|]. by eapply Hw.
    + rewrite Hj in Hk. apply elem_of_cons in Hk as [->|Hk]; [exists c'; auto|].
      destruct (U1 g p k Hq Hk) as (d & Hd & Hst'). by eapply Hw.
  - intros g p' Hp. destruct (Hs g p' Hp) as [E|(p & Hq & [(rest & Hr)|(j & c & c' & Hj & Hc & Hst & _)])].
    + rewrite E. constructor.
    + pose proof (U2 g p Hq) as Hn. rewrite Hr in Hn. by apply NoDup_app in Hn as (_ & _ & ?).
    + rewrite Hj. apply NoDup_cons. split; [|by eapply U2]. intros Hin.
      destruct (U1 g p j Hq Hin) as (d & Hd & Hx). rewrite Hc in Hd. injection Hd as <-. rewrite Hst in Hx. by destruct Hx as [|[]].
Qed.

Lemma waits_refl w w' : f_calls w' = f_calls w -> waits_on w w'.
Proof. intros E k c g Hk Hst. rewrite E. by exists c. Qed.
Lemma waits_tell w w' j m : f_calls w' = alter (mail_to m) j (f_calls w) -> waits_on w w'.
Proof.
  intros E k c g Hk Hst. rewrite E. destruct (decide (k = j)) as [->|].
  - rewrite list_lookup_alter, Hk. eexists. split; [reflexivity|]. by rewrite mail_st.
  - rewrite list_lookup_alter_ne by done. by exists c.
Qed.
Lemma waits_imap w w' P m : f_calls w' = imap (fun k c => if P k c : bool then mail_to m c else c) (f_calls w) -> waits_on w w'.
Proof.
  intros E k c g Hk Hst. rewrite E, list_lookup_imap, Hk. eexists. split; [reflexivity|]. destruct (P k c); by rewrite ?mail_st.
Qed.
Lemma waits_fend w j o : waits_on w (fend w j o).
Proof.
  intros k c g Hk Hst. cbn. destruct (decide (k = j)) as [->|].
  - rewrite list_lookup_alter, Hk. eexists. split; [reflexivity|]. right. by exists o.
  - rewrite list_lookup_alter_ne by done. by exists c.
Qed.
Lemma waits_insert w w' j c0 c1 : f_calls w' = <[j := c1]> (f_calls w) -> f_calls w !! j = Some c0 ->
  (fc_st c0 = FStart \/ exists g, fc_st c0 = FSend g) -> waits_on w w'.
Proof.
  intros E Hj Hc k c g Hk Hst. rewrite E. destruct (decide (k = j)) as [->|].
  - exfalso. rewrite Hj in Hk. injection Hk as <-. destruct Hc as [Hc|[? Hc]]; rewrite Hc in Hst; by destruct Hst as [|[]].
  - rewrite list_lookup_insert_ne by done. by exists c.
Qed.

Lemma shows_refl w w' : f_programs w' = f_programs w -> shows w w'.
Proof. intros E g p Hp. rewrite E in Hp. right. exists p. split; [done|]. left. by exists []. Qed.
Lemma shows_set w w' h p q : f_programs w' = <[h := q]> (f_programs w) -> f_programs w !! h = Some p ->
  (exists rest, shown p ≡ₚ rest ++ shown q) -> shows w w'.
Proof.
  intros E Hp Hr g p' Hg. rewrite E in Hg. destruct (decide (g = h)) as [->|].
  - rewrite list_lookup_insert in Hg by (by eapply lookup_lt_Some). injection Hg as <-. right. exists p. auto.
  - rewrite list_lookup_insert_ne in Hg by done. right. exists p'. split; [done|]. left. by exists [].
Qed.
Lemma shows_forget w w0 w' h : f_programs w' = f_programs (forget w0 h) -> f_calls w' = f_calls w0 -> shows w w0 -> shows w w'.
Proof.
  intros E Ec Hs g p' Hp. rewrite E in Hp. unfold forget in Hp. case_bool_decide as Hb.
  - cbn in Hp. destruct (decide (g = h)) as [->|].
    + rewrite list_lookup_alter in Hp. destruct (f_programs w0 !! h) as [p0|] eqn:E0; [|done]. injection Hp as <-.
      destruct (Hs _ _ E0) as [?|(p & Hq & Hx)]; [by left|]. right. exists p. rewrite Ec. auto.
    + rewrite list_lookup_alter_ne in Hp by done. destruct (Hs _ _ Hp) as [?|(p & Hq & Hx)]; [by left|]. right. exists p. rewrite Ec. auto.
  - destruct (Hs _ _ Hp) as [?|(p & Hq & Hx)]; [by left|]. right. exists p. rewrite Ec. auto.
Qed.

Lemma step_shows w e w' : fstep w e = Some w' -> shows w w' /\ waits_on w w'.
Proof.
  intros H. destruct e; cbn [fstep] in H.
  - destruct (f_calls w !! k) as [[r [] m]|] eqn:Ek; try done.
    assert (forall w', Some (if can then
        set_c (FWorld (Some (length (f_programs w)))
          (f_programs (match f_cur w with Some h => forget w h | None => w end) ++ [new_program])
          (f_calls (match f_cur w with Some h => forget w h | None => w end))) k (FCall r (FSend (length (f_programs w))) m)
        else fend w k NoSigner) = Some w' -> shows w w' /\ waits_on w w') as Hspawn.
    { intros w1 [= <-]. destruct can; [|split; [by apply shows_refl|apply waits_fend]].
      set (w0 := match f_cur w with Some h => forget w h | None => w end).
      assert (f_calls w0 = f_calls w) as Ec by (unfold w0; destruct (f_cur w); [apply forget_calls|done]).
      assert (shows w w0) as Hs.
      { unfold w0. destruct (f_cur w) as [h|]; [|by apply shows_refl]. eapply (shows_forget w w); [done|by rewrite forget_calls|by apply shows_refl]. }
      split.
      - intros g p' Hp. cbn in Hp. apply lookup_app_Some in Hp as [Hp|[Hl Hp]].
        + destruct (Hs _ _ Hp) as [?|(p & Hq & Hx)]; [by left|]. right. exists p. split; [done|].
          destruct Hx as [?|(j & c & c' & _ & Hc & Hst & Hc' & Hst')]; [by left|]. exfalso. rewrite Ec, Hc in Hc'. injection Hc' as <-. congruence.
        + left. destruct (g - length (f_programs w0)); [|done]. injection Hp as <-. done.
      - eapply waits_insert; [cbn; by rewrite Ec|done|by left]. }
    destruct (f_cur w) as [h|]; [|by apply Hspawn].
    destruct (f_programs w !! h) as [p|]; [|by apply Hspawn]. destruct (g_alive p); [|by apply Hspawn].
    injection H as <-. split; [by apply shows_refl|]. eapply waits_insert; [done|done|by left].
  - destruct (f_calls w !! k) as [[r [] m]|] eqn:Ek; try done. destruct (f_programs w !! g) as [p|] eqn:Ep; [|done].
    assert (waits_on w (fend w k NoTask) /\ shows w (fend w k NoTask)) as [Hw1 Hs1] by (split; [apply waits_fend|by apply shows_refl]).
    assert (forall w', Some (set_c (set_g w g (with_queue p (g_queue p ++ [k]))) k (FCall r (FWait g) m)) = Some w' -> shows w w' /\ waits_on w w') as Hx.
    { intros w1 [= <-]. split; [|eapply waits_insert; [done|done|right; by eexists]].
      intros h p' Hh. cbn in Hh. destruct (decide (h = g)) as [->|].
      - rewrite list_lookup_insert in Hh by (by eapply lookup_lt_Some). injection Hh as <-. right. exists p. split; [done|]. right.
        exists k, (FCall r (FSend g) m), (FCall r (FWait g) m). split.
        { unfold shown. cbn. rewrite <- app_assoc. cbn. symmetry. apply Permutation_middle. }
        split; [done|]. split; [done|]. split; [|done]. cbn. rewrite list_lookup_insert by (by eapply lookup_lt_Some). done.
      - rewrite list_lookup_insert_ne in Hh by done. right. exists p'. split; [done|]. left. by exists []. }
    destruct (g_write p) eqn:E; [ | | | |injection H as <-; done]; (destruct (_ <? _)%N; [|done]); by apply Hx.
  - destruct (f_programs w !! g) as [p|] eqn:Ep; [|done]. destruct (g_write p), (g_queue p) as [|i q] eqn:Eq; try done.
    + destruct (has_senders w g); [done|]. injection H as <-. split; [|by apply waits_refl].
      eapply shows_set; [done|done|]. exists []. done.
    + destruct (f_calls w !! i) as [c|]; [|done]. destruct (g_running p); injection H as <-.
      * split.
        -- eapply shows_set; [destruct (g_pending p !! _); reflexivity|done|]. exists []. unfold shown. cbn. rewrite Eq. cbn.
           rewrite app_assoc. apply Permutation_cons_append.
        -- destruct (g_pending p !! _); [by eapply waits_tell|by apply waits_refl].
      * split; [|by eapply waits_tell]. eapply shows_set; [done|done|]. exists [i]. unfold shown. cbn. by rewrite Eq.
  - destruct (f_programs w !! g) as [p|] eqn:Ep; [|done]. destruct (g_write p); try done. destruct (g_in p); [done|].
    destruct (f_calls w !! k); [|done]. injection H as <-. split.
    + eapply shows_set; [destruct (g_pending p !! _); reflexivity|done|]. by exists [].
    + destruct (g_pending p !! _); [by eapply waits_tell|by apply waits_refl].
  - destruct (f_programs w !! g) as [p|] eqn:Ep; [|done]. destruct (g_write p); try done. injection H as <-.
    split; [|apply waits_refl; by rewrite forget_calls].
    eapply shows_forget; [done|by rewrite forget_calls|]. eapply shows_set; [done|done|]. by exists [].
  - destruct (f_programs w !! g) as [p|] eqn:Ep; [|done]. destruct (g_write p); try done. injection H as <-.
    split; [|by eapply waits_imap]. eapply shows_set; [done|done|]. by exists (g_queue p).
  - destruct (f_programs w !! g) as [p|] eqn:Ep; [|done]. destruct (g_read p); try done.
    destruct (g_lines p !! g_nread p); [|destruct (g_out p); [done|]; injection H as <-].
    2: { split; [|by apply waits_refl]. eapply shows_set; [done|done|]. by exists []. }
    injection H as <-. unfold read_line. destruct (verdict l) as [[[id r]|] b].
    + destruct (g_pending p !! id); (split; [|first [by eapply waits_tell|by apply waits_refl]]); (eapply shows_set; [done|done|by exists []]).
    + split; [|by apply waits_refl]. eapply shows_set; [done|done|by exists []].
  - destruct (f_programs w !! g) as [p|] eqn:Ep; [|done]. destruct (g_read p); try done. injection H as <-.
    split; [|apply waits_refl; by rewrite forget_calls].
    eapply shows_forget; [done|by rewrite forget_calls|]. eapply shows_set; [done|done|]. by exists [].
  - destruct (f_programs w !! g) as [p|] eqn:Ep; [|done]. destruct (g_read p); try done. injection H as <-.
    split; [|by eapply waits_imap]. eapply shows_set; [done|done|]. by exists [].
  - destruct (f_calls w !! k) as [[r [] []]|] eqn:Ek; try done; injection H as <-; (split; [by apply shows_refl|apply waits_fend]).
  - injection H as <-. split; [by apply shows_refl|]. intros k c g Hk Hst. exists c. cbn. split; [by apply lookup_app_l_Some|]. auto.
  - destruct (f_calls w !! k) as [[r [] m]|] eqn:Ek; try done; injection H as <-; (split; [by apply shows_refl|apply waits_fend]).
  - destruct (f_programs w !! g) as [p|] eqn:Ep; [|done]. destruct (g_write p); try done. destruct (g_in p); [|done]. injection H as <-.
    split; [|by apply waits_refl]. eapply shows_set; [done|done|by exists []].
  - destruct (f_programs w !! g) as [p|] eqn:Ep; [|done]. destruct (g_out p); [|done]. injection H as <-.
    split; [|by apply waits_refl]. eapply shows_set; [done|done|by exists []].
  - destruct (f_programs w !! g) as [p|] eqn:Ep; [|done]. injection H as <-.
    split; [|by apply waits_refl]. eapply shows_set; [done|done|by exists []].
  - destruct (f_programs w !! g) as [p|] eqn:Ep; [|done]. injection H as <-.
    split; [|by apply waits_refl]. eapply shows_set; [done|done|by exists []].
  - destruct (f_programs w !! g) as [p|] eqn:Ep; [|done]. injection H as <-.
    split; [|by apply waits_refl]. eapply shows_set; [done|done|by exists []].
Qed.

Lemma uinv_run es w : frun fnew es = Some w -> finv w /\ uinv w.
Proof.
  assert (forall w0, finv w0 -> uinv w0 -> forall es, frun w0 es = Some w -> finv w /\ uinv w) as Hx.
  { intros w0 V U es'. revert w0 V U. induction es' as [|e es' IH]; intros w0 V U H; cbn in H; [injection H as <-; done|].
    destruct (fstep w0 e) as [w1|] eqn:E; [|done]. destruct (step_shows _ _ _ E) as [Hs Hw].
    eapply IH; [by eapply finv_step|by eapply uinv_step|done]. }
  intros H. eapply Hx; [apply finv_fnew|by split|done].
Qed.

(** ** From the printing of an answer to the end of the call *)

Section Deliver.
  Variables (k g n : nat) (id : bytes) (l : line) (r : res bytes) (more : bool).
  Hypothesis (Hl : verdict l = (Some (id, Some r), more)).

  (** The answer is still to be read, the lines before it are answers for others, and [k] is who
      waits for it. *)
  Record due (p : program) : Prop := {
    e_read : g_read p = LRun;
    e_n : g_nread p <= n;
    e_before : forall i x, g_nread p <= i < n -> g_lines p !! i = Some x ->
      exists id' r', verdict x = (Some (id', r'), true) /\ id' <> id;
    e_line : g_lines p !! n = Some l;
    e_pend : g_pending p !! id = Some k;
    e_write : g_write p <> WWrite k;
    e_queue : k ∉ g_queue p
  }.
  Definition told (c : fcall) : Prop := fc_mail c = Told (Some (g, n)) r.
  Definition on_the_way (w : fworld) : Prop :=
    exists c, f_calls w !! k = Some c /\ s_id (fc_req c) = id
      /\ (fc_st c = FEnd Dropped
          \/ fc_st c = FEnd (Answered (Some (g, n)) r)
          \/ fc_st c = FWait g /\ told c
          \/ fc_st c = FWait g /\ fc_mail c = NoMail /\ exists p, f_programs w !! g = Some p /\ due p).

  Definition alone (w : fworld) : Prop := forall j d, f_calls w !! j = Some d -> s_id (fc_req d) = id -> j = k.

  Lemma due_forget w h p : f_programs w !! g = Some p -> due p -> exists q, f_programs (forget w h) !! g = Some q /\ due q.
  Proof.
    intros Hp [? ? ? ? ? ? ?]. unfold forget. case_bool_decide; [|exists p; by split].
    cbn. destruct (decide (g = h)) as [->|].
    - rewrite list_lookup_alter, Hp. eexists. split; [reflexivity|]. by split.
    - rewrite list_lookup_alter_ne by done. exists p. by split.
  Qed.

  Lemma calls_tell w j m c : f_calls w !! k = Some c -> j <> k \/ fc_mail c <> NoMail ->
    alter (mail_to m) j (f_calls w) !! k = Some c.
  Proof.
    intros Hk Hj. destruct (decide (j = k)) as [->|].
    - rewrite list_lookup_alter, Hk. destruct Hj as [|Hm]; [done|]. cbn. f_equal. unfold mail_to. by destruct (fc_mail c).
    - by rewrite list_lookup_alter_ne.
  Qed.
  Lemma calls_imap w P m c : f_calls w !! k = Some c -> P k c = false \/ fc_mail c <> NoMail ->
    imap (fun k c => if P k c : bool then mail_to m c else c) (f_calls w) !! k = Some c.
  Proof.
    intros Hk Hj. rewrite list_lookup_imap, Hk. cbn. f_equal. destruct (P k c); [|done]. destruct Hj as [|Hm]; [done|].
    unfold mail_to. by destruct (fc_mail c).
  Qed.

  Lemma on_the_way_step w e w' : finv w -> uinv w -> alone w -> fstep w e = Some w' -> on_the_way w -> on_the_way w'.
  Proof.
    intros V U Ha Hs (c & Hk & Hid & Hc).
    destruct (fstep_grown _ _ _ Hs k c Hk) as (c1 & Hk1 & Hr1 & Hend & _).
    destruct Hc as [Hc|[Hc|Hc]].
    { exists c1. rewrite Hr1. split; [done|]. split; [done|]. left. by apply Hend. }
    { exists c1. rewrite Hr1. split; [done|]. split; [done|]. right. left. by apply Hend. }
    clear c1 Hk1 Hr1 Hend.
    assert (fc_st c = FWait g) as Hst by (by destruct Hc as [[? _]|[? _]]).
    (* nobody else is concerned with [k] *)
    assert (forall h p, f_programs w !! h = Some p -> h <> g -> k ∉ shown p) as Hoth.
    { intros h p Hp Hne Hin. destruct (u_own w U h p k Hp Hin) as (d & Hd & Hx). rewrite Hk in Hd. injection Hd as <-.
      rewrite Hst in Hx. destruct Hx as [[=]|[]]; by subst. }
    assert (forall h p x, f_programs w !! h = Some p -> g_pending p !! x = Some k -> h = g /\ x = id) as Hpk.
    { intros h p x Hp Hx. destruct (v_pend w V h p x k Hp Hx) as (d & Hd & Hi & Hin). rewrite Hk in Hd. injection Hd as <-.
      split; [|congruence]. destruct (decide (h = g)) as [|Hne]; [done|]. exfalso. apply (Hoth h p Hp Hne). apply elem_of_app. by right. }
    (* the call stays as it is *)
    assert (f_calls w' !! k = Some c ->
      (fc_mail c = NoMail -> forall p, f_programs w !! g = Some p -> due p -> exists q, f_programs w' !! g = Some q /\ due q) ->
      on_the_way w') as Hsame.
    { intros Hk' Hp'. exists c. split; [done|]. split; [done|]. right; right.
      destruct Hc as [?|(? & Hm & p & Hp & Hd)]; [by left|]. right. split; [done|]. split; [done|]. by eapply Hp'. }
    (* a program changes *)
    assert (forall h p q ps, f_programs w !! h = Some p -> ps = <[h := q]> (f_programs w) ->
      (h = g -> due p -> due q) -> forall p0, f_programs w !! g = Some p0 -> due p0 -> exists q0, ps !! g = Some q0 /\ due q0) as Hset.
    { intros h p q ps Hp -> Hq p0 Hp0 Hd. destruct (decide (h = g)) as [->|].
      - rewrite list_lookup_insert by (by eapply lookup_lt_Some). exists q. split; [done|]. apply Hq; [done|]. congruence.
      - rewrite list_lookup_insert_ne by done. by exists p0. }
    assert (told c \/ fc_mail c = NoMail) as Hm by (destruct Hc as [[_ ?]|(_ & ? & _)]; auto).
    destruct e as [j can|j|h|h|h|h|h|h|h|j|rq|j|h|h x|h|h|h]; cbn [fstep] in Hs.
    - destruct (f_calls w !! j) as [[rj [] mj]|] eqn:Ej; try done.
      assert (j <> k) as Hjk by (intros ->; rewrite Hk in Ej; injection Ej as ->; done).
      assert (Some (if can then
          set_c (FWorld (Some (length (f_programs w)))
            (f_programs (match f_cur w with Some h => forget w h | None => w end) ++ [new_program])
            (f_calls (match f_cur w with Some h => forget w h | None => w end))) j (FCall rj (FSend (length (f_programs w))) mj)
          else fend w j NoSigner) = Some w' -> on_the_way w') as Hspawn.
      { intros [= <-]. destruct can.
        - apply Hsame.
          + cbn. rewrite list_lookup_insert_ne by done. destruct (f_cur w); [by rewrite forget_calls|done].
          + intros _ p Hp Hd. assert (exists q, f_programs (match f_cur w with Some h => forget w h | None => w end) !! g = Some q /\ due q) as (q & Hq & Hdq).
            { destruct (f_cur w) as [h|]; [by eapply due_forget|by exists p]. }
            exists q. split; [|done]. cbn. by apply lookup_app_l_Some.
        - apply Hsame; [|by eauto]. cbn. by rewrite list_lookup_alter_ne. }
      destruct (f_cur w) as [h|]; [|by apply Hspawn].
      destruct (f_programs w !! h) as [p|]; [|by apply Hspawn]. destruct (g_alive p); [|by apply Hspawn].
      injection Hs as <-. apply Hsame; [|by eauto]. cbn. by rewrite list_lookup_insert_ne.
    - destruct (f_calls w !! j) as [[rj [] mj]|] eqn:Ej; try done.
      assert (j <> k) as Hjk by (intros ->; rewrite Hk in Ej; injection Ej as ->; done).
      destruct (f_programs w !! g0) as [p|] eqn:Ep; [|done].
      assert (Some (fend w j NoTask) = Some w' -> on_the_way w') as Hx1.
      { intros [= <-]. apply Hsame; [|by eauto]. cbn. by rewrite list_lookup_alter_ne. }
      assert (Some (set_c (set_g w g0 (with_queue p (g_queue p ++ [j]))) j (FCall rj (FWait g0) mj)) = Some w' -> on_the_way w') as Hx2.
      { intros [= <-]. apply Hsame; [cbn; by rewrite list_lookup_insert_ne|]. intros _. eapply Hset; [exact Ep|done|].
        intros _ [? ? ? ? ? ? Hq]. split; try done. cbn. intros [?|E%elem_of_list_singleton]%elem_of_app; [done|by subst]. }
      destruct (g_write p); [ | | | |by apply Hx1]; (destruct (_ <? _)%N; [|done]); by apply Hx2.
    - destruct (f_programs w !! h) as [p|] eqn:Ep; [|done]. destruct (g_write p) eqn:Ew, (g_queue p) as [|i q] eqn:Eq; try done.
      { destruct (has_senders w h); [done|]. injection Hs as <-. apply Hsame; [done|]. intros _. eapply Hset; [exact Ep|done|].
        intros _ [? ? ? ? ? ? Hq]. split; done. }
      destruct (f_calls w !! i) as [ci|] eqn:Ei; [|done].
      assert (h = g -> fc_mail c = NoMail -> i <> k) as Hik.
      { intros -> Hn ->. destruct Hc as [[_ Ht]|(_ & _ & p0 & Hp0 & [? ? ? ? ? ? Hq])]; [unfold told in Ht; congruence|].
        rewrite Ep in Hp0. injection Hp0 as <-. apply Hq. rewrite Eq. by left. }
      assert (h <> g -> i <> k) as Hik'.
      { intros Hne ->. apply (Hoth h p Ep Hne). unfold shown. rewrite Eq. by left. }
      destruct (g_running p) eqn:Er; injection Hs as <-.
      + assert (fc_mail c = NoMail -> s_id (fc_req ci) <> id) as Hii.
        { intros Hn E. pose proof (Ha i ci Ei E) as ->. destruct (decide (h = g)); [by apply Hik|by apply Hik']. }
        apply Hsame.
        * destruct (g_pending p !! s_id (fc_req ci)) as [j|] eqn:Ej; [|done]. cbn.
          apply calls_tell; [done|]. destruct Hm as [Ht|Hn]; [right; unfold told in Ht; congruence|]. left. intros ->.
          destruct (Hpk h p _ Ep Ej) as [_ E]. by apply Hii.
        * intros Hn. eapply Hset; [exact Ep|destruct (g_pending p !! _); reflexivity|]. intros -> [? ? ? ? Hp1 ? Hq]. split; try done; cbn.
          -- rewrite lookup_insert_ne; [done|]. by apply Hii.
          -- intros [= ->]. by apply Hik.
          -- intros Hin. apply Hq. rewrite Eq. by right.
      + apply Hsame.
        * cbn. apply calls_tell; [done|]. destruct Hm as [Ht|Hn]; [right; unfold told in Ht; congruence|]. left.
          destruct (decide (h = g)); [by apply Hik|by apply Hik'].
        * intros Hn. eapply Hset; [exact Ep|done|]. intros -> [? ? ? ? Hp1 ? Hq]. split; try done; cbn.
          intros Hin. apply Hq. rewrite Eq. by right.
    - destruct (f_programs w !! h) as [p|] eqn:Ep; [|done]. destruct (g_write p) as [|i| | |] eqn:Ew; try done. destruct (g_in p); [done|].
      destruct (f_calls w !! i) as [ci|] eqn:Ei; [|done]. injection Hs as <-.
      apply Hsame.
      + destruct (g_pending p !! s_id (fc_req ci)) as [j|] eqn:Ej; [|done]. cbn.
        apply calls_tell; [done|]. destruct Hm as [Ht|Hn]; [right; unfold told in Ht; congruence|]. left. intros ->.
        destruct (Hpk h p _ Ep Ej) as [-> E]. pose proof (Ha i ci Ei E) as ->.
        destruct Hc as [[_ Ht]|(_ & _ & p0 & Hp0 & [? ? ? ? ? Hw ?])]; [unfold told in Ht; congruence|]. congruence.
      + intros Hn. eapply Hset; [exact Ep|destruct (g_pending p !! _); reflexivity|]. intros -> [? ? ? ? Hp1 Hw Hq]. split; try done; cbn.
        rewrite lookup_delete_ne; [done|]. intros E. pose proof (Ha i ci Ei E) as ->. congruence.
    - destruct (f_programs w !! h) as [p|] eqn:Ep; [|done]. destruct (g_write p) eqn:Ew; try done. injection Hs as <-.
      apply Hsame; [by rewrite forget_calls|]. intros _ p0 Hp0 Hd.
      edestruct (Hset h p (with_write p WDrop)) as (q0 & Hq0 & Hdq); [done|reflexivity| |exact Hp0|exact Hd|by eapply due_forget].
      intros _ [? ? ? ? ? ? ?]. by split.
    - destruct (f_programs w !! h) as [p|] eqn:Ep; [|done]. destruct (g_write p) eqn:Ew; try done. injection Hs as <-.
      apply Hsame.
      + cbn. apply (calls_imap w (fun k _ => bool_decide (k ∈ g_queue p))); [done|].
        destruct Hm as [Ht|Hn]; [right; unfold told in Ht; congruence|]. left. apply bool_decide_eq_false. intros Hin.
        destruct (decide (h = g)) as [->|Hne].
        * destruct Hc as [[_ Ht]|(_ & _ & p0 & Hp0 & [? ? ? ? ? ? Hq])]; [unfold told in Ht; congruence|]. apply Hq. congruence.
        * apply (Hoth h p Ep Hne). apply elem_of_app. by left.
      + intros _. eapply Hset; [exact Ep|done|]. intros _ [? ? ? ? ? ? ?]. split; try done. cbn. apply not_elem_of_nil.
    - destruct (f_programs w !! h) as [p|] eqn:Ep; [|done]. destruct (g_read p) eqn:Er; try done.
      destruct (g_lines p !! g_nread p) as [x|] eqn:Ex.
      2: { destruct (g_out p); [done|]. injection Hs as <-. apply Hsame; [done|]. intros _. eapply Hset; [exact Ep|done|].
           intros -> [? E ? El ? ? ?]. exfalso. apply lookup_ge_None in Ex. apply lookup_lt_Some in El. lia. }
      injection Hs as <-. 
      assert ((h = g /\ fc_mail c = NoMail) \/ ~ (h = g /\ fc_mail c = NoMail)) as [[-> Hn]|Hne].
      { destruct (decide (h = g)) as [->|]; [|right; by intros [? _]]. destruct (fc_mail c); [by left|right; by intros [_ ?]..]. }
      + (* this is the line *)
        destruct Hc as [[_ Ht]|(_ & _ & p0 & Hp0 & [? En Hbef ? Hpend ? ?])]; [unfold told in Ht; congruence|].
        rewrite Ep in Hp0. injection Hp0 as <-. destruct (decide (g_nread p = n)) as [E|Hlt].
        * rewrite E in Ex |- *. assert (x = l) as -> by congruence.
          unfold read_line. rewrite Hl, Hpend. exists (FCall (fc_req c) (fc_st c) (Told (Some (g, n)) r)).
          cbn. rewrite list_lookup_alter, Hk. cbn. unfold mail_to. rewrite Hn. split; [done|]. split; [done|]. right; right; left. done.
        * destruct (Hbef (g_nread p) x) as (id' & r' & Hv & Hne'); [lia|done|]. revert Hsame. unfold read_line. rewrite Hv.
          destruct (g_pending p !! id') as [j|] eqn:Ej; intros Hsame; apply Hsame.
          -- cbn. apply calls_tell; [done|]. left. intros ->. destruct (Hpk g p id' Ep Ej) as [_ E]. done.
          -- intros _. eapply Hset; [exact Ep|reflexivity|]. intros _ _. split; try done; cbn; [lia| |by rewrite lookup_delete_ne].
             intros i y Hi. apply Hbef. lia.
          -- done.
          -- intros _. eapply Hset; [exact Ep|reflexivity|]. intros _ _. split; try done; cbn; [lia|].
             intros i y Hi. apply Hbef. lia.
      + revert Hsame. unfold read_line. destruct (verdict x) as [[[id' r']|] b].
        * destruct (g_pending p !! id') as [j|] eqn:Ej.
          -- intros Hsame. apply Hsame.
             ++ cbn. apply calls_tell; [done|]. destruct Hm as [Ht|Hn]; [right; unfold told in Ht; congruence|]. left. intros ->.
                apply Hne. split; [|done]. by apply (Hpk h p id').
             ++ intros Hn. eapply Hset; [exact Ep|reflexivity|]. intros ->. by destruct Hne.
          -- intros Hsame. apply Hsame; [done|]. intros Hn. eapply Hset; [exact Ep|reflexivity|]. intros ->. by destruct Hne.
        * intros Hsame. apply Hsame; [done|]. intros Hn. eapply Hset; [exact Ep|reflexivity|]. intros ->. by destruct Hne.
    - destruct (f_programs w !! h) as [p|] eqn:Ep; [|done]. destruct (g_read p) eqn:Er; try done. injection Hs as <-.
      apply Hsame; [by rewrite forget_calls|]. intros _ p0 Hp0 Hd.
      edestruct (Hset h p (with_read p (g_nread p) LDrain (g_running p))) as (q0 & Hq0 & Hdq); [done|reflexivity| |exact Hp0|exact Hd|by eapply due_forget].
      intros _ [? ? ? ? ? ? ?]. congruence.
    - destruct (f_programs w !! h) as [p|] eqn:Ep; [|done]. destruct (g_read p) eqn:Er; try done. injection Hs as <-.
      apply Hsame.
      + cbn. apply (calls_imap w (fun k c => bool_decide (g_pending p !! s_id (fc_req c) = Some k))); [done|].
        destruct Hm as [Ht|Hn]; [right; unfold told in Ht; congruence|]. left. apply bool_decide_eq_false. intros Hin.
        destruct (Hpk h p _ Ep Hin) as [-> _].
        destruct Hc as [[_ Ht]|(_ & _ & p0 & Hp0 & [? ? ? ? ? ? Hq])]; [unfold told in Ht; congruence|]. congruence.
      + intros _. eapply Hset; [exact Ep|done|]. intros _ [? ? ? ? ? ? ?]. congruence.
    - destruct (f_calls w !! j) as [cj|] eqn:Ej; [|done]. destruct (decide (j = k)) as [->|Hjk].
      + rewrite Hk in Ej. injection Ej as <-. destruct c as [rq st m]. cbn in Hst. subst st.
        destruct Hm as [Ht|Hn]; [|cbn in Hn; by subst m]. unfold told in Ht. cbn in Ht. subst m. injection Hs as <-.
        eexists. cbn. rewrite list_lookup_alter, Hk. cbn. split; [reflexivity|]. split; [done|]. right; left. done.
      + assert (exists o, fend w j o = w') as [o <-].
        { destruct cj as [? [] []]; try done; injection Hs as <-; eauto. }
        apply Hsame; [|by eauto]. cbn. by rewrite list_lookup_alter_ne.
    - injection Hs as <-. apply Hsame; [|by eauto]. cbn. by apply lookup_app_l_Some.
    - destruct (f_calls w !! j) as [cj|] eqn:Ej; [|done]. destruct (decide (j = k)) as [->|Hjk].
      + rewrite Hk in Ej. injection Ej as <-. destruct c as [rq st m]. cbn in Hst. subst st. injection Hs as <-.
        eexists. cbn. rewrite list_lookup_alter, Hk. cbn. split; [reflexivity|]. split; [done|]. by left.
      + assert (fend w j Dropped = w') as <- by (destruct cj as [? [] ?]; try done; by injection Hs as <-).
        apply Hsame; [|by eauto]. cbn. by rewrite list_lookup_alter_ne.
    - destruct (f_programs w !! h) as [p|] eqn:Ep; [|done]. destruct (g_write p) eqn:Ew; try done. destruct (g_in p); [|done]. injection Hs as <-.
      apply Hsame; [done|]. intros _. eapply Hset; [exact Ep|done|]. intros _ [? ? ? ? ? ? ?]. by split.
    - destruct (f_programs w !! h) as [p|] eqn:Ep; [|done]. destruct (g_out p); [|done]. injection Hs as <-.
      apply Hsame; [done|]. intros _. eapply Hset; [exact Ep|done|]. intros _ [? ? Hbef El ? ? ?]. split; try done; cbn.
      + intros i y Hi Hy. apply (Hbef i y Hi). apply lookup_app_Some in Hy as [?|[Hge _]]; [done|]. apply lookup_lt_Some in El. lia.
      + by apply lookup_app_l_Some.
    - destruct (f_programs w !! h) as [p|] eqn:Ep; [|done]. injection Hs as <-.
      apply Hsame; [done|]. intros _. eapply Hset; [exact Ep|done|]. intros _ [? ? ? ? ? ? ?]. by split.
    - destruct (f_programs w !! h) as [p|] eqn:Ep; [|done]. injection Hs as <-.
      apply Hsame; [done|]. intros _. eapply Hset; [exact Ep|done|]. intros _ [? ? ? ? ? ? ?]. by split.
    - destruct (f_programs w !! h) as [p|] eqn:Ep; [|done]. injection Hs as <-.
      apply Hsame; [done|]. intros _. eapply Hset; [exact Ep|done|]. intros _ [? ? ? ? ? ? ?]. by split.
  Qed.

  Lemma alone_back w e w' : fstep w e = Some w' -> alone w' -> alone w.
  Proof. intros Hs Ha j d Hj Hd. destruct (fstep_grown _ _ _ Hs j d Hj) as (d' & Hj' & E & _). eapply Ha; [exact Hj'|congruence]. Qed.

  Lemma alone_run_back es w w' : frun w es = Some w' -> alone w' -> alone w.
  Proof.
    revert w. induction es as [|e es IH]; intros w H Ha; cbn in H; [by injection H as ->|].
    destruct (fstep w e) as [w1|] eqn:E; [|done]. eapply alone_back; [exact E|]. by apply IH.
  Qed.

  Lemma on_the_way_run es w w' : finv w -> uinv w -> frun w es = Some w' -> alone w' -> on_the_way w -> on_the_way w'.
  Proof.
    revert w. induction es as [|e es IH]; intros w V U H Ha Ho; cbn in H; [by injection H as ->|].
    destruct (fstep w e) as [w1|] eqn:E; [|done]. destruct (step_shows _ _ _ E) as [Hs Hw].
    eapply (IH w1); [by eapply finv_step|by eapply uinv_step|done|done|].
    eapply on_the_way_step; [done|done| |exact E|done]. eapply alone_back; [exact E|]. by eapply alone_run_back.
  Qed.

  (** Nothing rests half-way. *)
  Lemma on_the_way_quiet w : quiet w -> on_the_way w -> over w k (Answered (Some (g, n)) r) \/ over w k Dropped.
  Proof.
    intros Hqt (c & Hk & _ & [Hc|[Hc|[[Hc Ht]|(Hc & Hn & p & Hp & [? ? ? ? ? ? ?])]]]).
    - right. by exists c.
    - left. by exists c.
    - exfalso. pose proof (Hqt (Poll k) I) as Hs. cbn [fstep] in Hs. rewrite Hk in Hs. destruct c as [? st m].
      cbn in Hc. unfold told in Ht. cbn in Ht. by subst.
    - exfalso. pose proof (Hqt (Read g) I) as Hs. cbn [fstep] in Hs. rewrite Hp, e_read0 in Hs. apply lookup_lt_Some in e_line0.
      destruct (lookup_lt_is_Some_2 (g_lines p) (g_nread p)) as [x Hx]; [lia|]. by rewrite Hx in Hs.
  Qed.
End Deliver.

(** No more is read than was printed. *)
Definition reads_printed (w : fworld) : Prop :=
  forall g p, f_programs w !! g = Some p -> g_nread p <= length (g_lines p).

Lemma reads_set w h p q cs cu : reads_printed w -> f_programs w !! h = Some p ->
  (g_nread p <= length (g_lines p) -> g_nread q <= length (g_lines q)) -> reads_printed (FWorld cu (<[h := q]> (f_programs w)) cs).
Proof.
  intros R Hp Hq g0 p0 Hg. cbn in Hg. destruct (decide (g0 = h)) as [->|].
  - rewrite list_lookup_insert in Hg by (by eapply lookup_lt_Some). injection Hg as <-. apply Hq. by eapply R.
  - rewrite list_lookup_insert_ne in Hg by done. by eapply R.
Qed.
Lemma reads_forget w h : reads_printed w -> reads_printed (forget w h).
Proof.
  intros R. unfold forget. case_bool_decide; [|done]. intros g0 p0 Hg. cbn in Hg. destruct (decide (g0 = h)) as [->|].
  - rewrite list_lookup_alter in Hg. destruct (f_programs w !! h) as [p|] eqn:E; [|done]. injection Hg as <-. cbn. by eapply R.
  - rewrite list_lookup_alter_ne in Hg by done. by eapply R.
Qed.
Lemma reads_step w e w' : reads_printed w -> fstep w e = Some w' -> reads_printed w'.
Proof.
  intros R H. destruct e; cbn [fstep] in H.
  - destruct (f_calls w !! k) as [[r [] m]|] eqn:Ek; try done.
    assert (forall w', Some (if can then
        set_c (FWorld (Some (length (f_programs w)))
          (f_programs (match f_cur w with Some h => forget w h | None => w end) ++ [new_program])
          (f_calls (match f_cur w with Some h => forget w h | None => w end))) k (FCall r (FSend (length (f_programs w))) m)
        else fend w k NoSigner) = Some w' -> reads_printed w') as Hspawn.
    { intros w1 [= <-]. destruct can; [|done].
      assert (reads_printed (match f_cur w with Some h => forget w h | None => w end)) as R' by (destruct (f_cur w); [by apply reads_forget|done]).
      intros g0 p0 Hp. cbn in Hp. apply lookup_app_Some in Hp as [Hp|[_ Hp]]; [by eapply R'|].
      destruct (g0 - _); [|done]. injection Hp as <-. cbn. lia. }
    destruct (f_cur w) as [h|]; [|by apply Hspawn].
    destruct (f_programs w !! h) as [p|]; [|by apply Hspawn]. destruct (g_alive p); [|by apply Hspawn].
    by injection H as <-.
  - destruct (f_calls w !! k) as [[r [] m]|] eqn:Ek; try done. destruct (f_programs w !! g) as [p|] eqn:Ep; [|done].
    destruct (g_write p) eqn:E; [ | | | |injection H as <-; done]; (destruct (_ <? _)%N; [|done]); injection H as <-; by eapply reads_set.
  - destruct (f_programs w !! g) as [p|] eqn:Ep; [|done]. destruct (g_write p), (g_queue p) as [|i q] eqn:Eq; try done.
    + destruct (has_senders w g); [done|]. injection H as <-. by eapply reads_set.
    + destruct (f_calls w !! i) as [c|]; [|done]. destruct (g_running p); injection H as <-; [destruct (g_pending p !! _)|]; by eapply reads_set.
  - destruct (f_programs w !! g) as [p|] eqn:Ep; [|done]. destruct (g_write p); try done. destruct (g_in p); [done|].
    destruct (f_calls w !! k); [|done]. injection H as <-. destruct (g_pending p !! _); by eapply reads_set.
  - destruct (f_programs w !! g) as [p|] eqn:Ep; [|done]. destruct (g_write p); try done. injection H as <-. apply reads_forget. by eapply reads_set.
  - destruct (f_programs w !! g) as [p|] eqn:Ep; [|done]. destruct (g_write p); try done. injection H as <-. by eapply reads_set.
  - destruct (f_programs w !! g) as [p|] eqn:Ep; [|done]. destruct (g_read p); try done.
    destruct (g_lines p !! g_nread p) as [l|] eqn:El; [|destruct (g_out p); [done|]; injection H as <-; by eapply reads_set].
    apply lookup_lt_Some in El. injection H as <-. unfold read_line. destruct (verdict l) as [[[id r]|] b].
    + destruct (g_pending p !! id); (eapply reads_set; [done|exact Ep|cbn; lia]).
    + eapply reads_set; [done|exact Ep|cbn; lia].
  - destruct (f_programs w !! g) as [p|] eqn:Ep; [|done]. destruct (g_read p); try done. injection H as <-. apply reads_forget. by eapply reads_set.
  - destruct (f_programs w !! g) as [p|] eqn:Ep; [|done]. destruct (g_read p); try done. injection H as <-. by eapply reads_set.
  - destruct (f_calls w !! k) as [[r [] []]|] eqn:Ek; try done; by injection H as <-.
  - by injection H as <-.
  - destruct (f_calls w !! k) as [[r [] m]|] eqn:Ek; try done; by injection H as <-.
  - destruct (f_programs w !! g) as [p|] eqn:Ep; [|done]. destruct (g_write p); try done. destruct (g_in p); [|done]. injection H as <-. by eapply reads_set.
  - destruct (f_programs w !! g) as [p|] eqn:Ep; [|done]. destruct (g_out p); [|done]. injection H as <-. eapply reads_set; [done|exact Ep|].
    cbn. rewrite app_length. lia.
  - destruct (f_programs w !! g) as [p|] eqn:Ep; [|done]. injection H as <-. by eapply reads_set.
  - destruct (f_programs w !! g) as [p|] eqn:Ep; [|done]. injection H as <-. by eapply reads_set.
  - destruct (f_programs w !! g) as [p|] eqn:Ep; [|done]. injection H as <-. by eapply reads_set.
Qed.
Lemma reads_run es w w' : reads_printed w -> frun w es = Some w' -> reads_printed w'.
Proof.
  revert w. induction es as [|e es IH]; intros w R H; cbn in H; [by injection H as <-|].
  destruct (fstep w e) as [w1|] eqn:E; [|done]. eapply IH; [by eapply reads_step|done].
Qed.

(** ** C36 *)

(** The request of call [k], with id [id], was written to program [g] and nothing was said to the
    caller yet; what lair has still to read of [g]'s output are answers to others. *)
Definition waiting (w : fworld) (k g : nat) (id : bytes) : Prop :=
  exists p c, f_programs w !! g = Some p /\ f_calls w !! k = Some c /\ s_id (fc_req c) = id
    /\ fc_st c = FWait g /\ fc_mail c = NoMail
    /\ k ∈ g_put p /\ g_write p <> WWrite k /\ g_read p = LRun
    /\ forall i x, g_nread p <= i -> g_lines p !! i = Some x -> in_order x /\ forall s e, x <> Reply id s e.
(** No other call, earlier or later, has the id. *)
Definition id_is_own (w : fworld) (k : nat) (id : bytes) : Prop :=
  forall j d, f_calls w !! j = Some d -> s_id (fc_req d) = id -> j = k.

(** When the program then prints an answer for the id, this is what the caller gets, whatever else
    happens: other calls, other lines before and after it, the end of the program - unless the
    caller goes away first. *)
Theorem C36_delivered :
  forall es w k g id p l r es' w',
    frun fnew es = Some w -> waiting w k g id -> f_programs w !! g = Some p -> says l id r ->
    frun w (Print g l :: es') = Some w' -> quiet w' -> id_is_own w' k id ->
    over w' k Dropped \/ exists r', over w' k (Answered (Some (g, length (g_lines p))) r') /\ says l id r'.
Proof.
  intros es w k g id p l r es' w' H (p0 & c & Hp0 & Hk & Hid & Hst & Hm & Hput & Hw & Hr & Hun) Hp Hl Hp' Hqt Ha.
  rewrite Hp in Hp0. injection Hp0 as <-.
  destruct (uinv_run _ _ H) as [V U].
  assert (reads_printed w) as R by (eapply reads_run; [|exact H]; intros ?? Hx; done).
  assert (exists r' more, verdict l = (Some (id, Some r'), more)) as (r' & more & Hv).
  { destruct r as [sig|e]; cbn in Hl.
    - destruct Hl as (s & -> & Hs & Hlen). cbn. rewrite Hs, Hlen. cbn. eauto.
    - destruct Hl as [(s & ->)|(s & -> & Hbad)]; [destruct s; cbn; by eauto|]. cbn.
      destruct (from_b64std s) as [sig|] eqn:Es; [|by eauto]. destruct (Nat.eqb_spec (length sig) 64) as [E|E]; eauto. }
  cbn [frun] in Hp'. destruct (fstep w (Print g l)) as [w1|] eqn:E1; [|done].
  destruct (step_shows _ _ _ E1) as [Hs1 Hw1].
  assert (on_the_way k g (length (g_lines p)) id l r' w1) as Ho.
  { cbn [fstep] in E1. rewrite Hp in E1. destruct (g_out p); [|done]. injection E1 as <-.
    exists c. split; [done|]. split; [done|]. right; right; right. split; [done|]. split; [done|].
    eexists. split; [cbn; by rewrite list_lookup_insert by (by eapply lookup_lt_Some)|].
    pose proof (u_once w U g p Hp) as Hnd. unfold shown in Hnd. apply NoDup_app in Hnd as (_ & Hnd & _).
    split; cbn; [done|by eapply R| |by rewrite list_lookup_middle| |done|intros Hq; by eapply Hnd].
    - intros i x Hi Hx. rewrite lookup_app_l in Hx by lia. destruct (Hun i x) as [Hio Hno]; [lia|done|].
      destruct (verdict_in_order x Hio) as (id' & rx & Hvx). exists id', rx. split; [done|]. intros ->.
      destruct Hio as (id2 & [(s & e & ->)|[(s & sig & -> & Hs & Hlen)| ->]]); cbn in Hvx.
      + destruct s; injection Hvx as -> _; by eapply Hno.
      + rewrite Hs, Hlen in Hvx. cbn in Hvx. injection Hvx as -> _. by eapply Hno.
      + injection Hvx as -> _. by eapply Hno.
    - destruct (v_cover w V g p k c Hp Hk Hst Hm) as [Hq|Hq]; [by destruct (Hnd k Hq)|congruence]. }
  assert (on_the_way k g (length (g_lines p)) id l r' w') as Ho'.
  { eapply (on_the_way_run k g _ id l r' more Hv es' w1); [by eapply finv_step|by eapply uinv_step|done|exact Ha|done]. }
  destruct (on_the_way_quiet k g _ id l r' w' Hqt Ho') as [Hov|Hov]; [|by left].
  right. exists r'. split; [done|by eapply verdict_says].
Qed.
Print Assumptions C36_delivered.

(** Two calls; the answer to the second is printed but not read yet when the first is answered, and
    the program ends at once: both get what was printed for them. *)
Example C36_delivered_ex :
  let r i := SignReq (str i) (replicate 32 x01) (str "data") in
  let s := to_b64std (replicate 64 x11) in
  let la := Reply (str "a") (Some s) None in
  let es := [Call (r "a"%string); Call (r "b"%string); Get 0 true; Get 1 true; Push 0; Push 1; Take 0; WOk 0; Take 0; WOk 0;
    Print 0 (Reply (str "b") None (Some (str "no")))] in
  let es' := [Die 0; CloseIn 0; CloseOut 0; Read 0; Read 0; Read 0; LForget 0; Poll 1; Drain 0; Poll 0; Take 0; WForget 0; WEnd 0] in
  exists w p w', frun fnew es = Some w /\ waiting w 0 0 (str "a") /\ f_programs w !! 0 = Some p
    /\ says la (str "a") (Ok (replicate 64 x11))
    /\ frun w (Print 0 la :: es') = Some w' /\ quiet w' /\ id_is_own w' 0 (str "a")
    /\ over w' 0 (Answered (Some (0, 1)) (Ok (replicate 64 x11)))
    /\ over w' 1 (Answered (Some (0, 0)) (Err (str "no"))).
Proof.
  intros r s la es es'.
  set (s0 := to_b64std (replicate 64 x11)). set (sig := replicate 64 x11).
  assert (proper s0 sig) as Hs by (by vm_compute).
  set (look := fun o : option fworld => match o with
      | Some w => match f_programs w with
          | [p] => Some (g_lines p, g_nread p, g_put p, g_write p, g_read p, map (fun c => (s_id (fc_req c), fc_st c, fc_mail c)) (f_calls w))
          | _ => None end
      | None => None end).
  assert (look (frun fnew es) = Some ([Reply (str "b") None (Some (str "no"))], 0, [0; 1], WIdle, LRun,
    [(str "a", FWait 0, NoMail); (str "b", FWait 0, NoMail)])) as E by (vm_compute; reflexivity).
  assert (look (frun fnew (es ++ Print 0 la :: es')) = Some ([Reply (str "b") None (Some (str "no")); la], 2, [0; 1], WDone, LDone,
    [(str "a", FEnd (Answered (Some (0, 1)) (Ok sig)), Told (Some (0, 1)) (Ok sig));
     (str "b", FEnd (Answered (Some (0, 0)) (Err (str "no"))), Told (Some (0, 0)) (Err (str "no")))])) as E' by (vm_compute; reflexivity).
  rewrite frun_app in E'.
  unfold look in E, E'. destruct (frun fnew es) as [w|] eqn:Ew; [|done].
  destruct (f_programs w) as [|p [|]] eqn:Ep; [done| |done]. injection E as El En Eput Ewr Erd Ec.
  destruct (frun w (Print 0 la :: es')) as [w'|] eqn:Ew'; [|done].
  destruct (f_programs w') as [|p' [|]] eqn:Ep'; [done| |done]. injection E' as El' En' Eput' Ewr' Erd' Ec'.
  destruct (f_calls w) as [|c0 [|c1 [|]]] eqn:Ecs; [done|done| |done]. injection Ec as Hi0 Hs0 Hm0 Hi1 Hs1 Hm1.
  destruct (f_calls w') as [|d0 [|d1 [|]]] eqn:Ecs'; [done|done| |done]. injection Ec' as Gi0 Gs0 Gm0 Gi1 Gs1 Gm1.
  exists w, p, w'. split; [done|]. split.
  { exists p, c0. rewrite Ep, Ecs. split; [done|]. split; [done|]. split; [done|]. split; [done|]. split; [done|].
    split; [rewrite Eput; by left|]. split; [by rewrite Ewr|]. split; [done|].
    intros i x Hi Hx. rewrite El in Hx. destruct i as [|i]; [|done]. injection Hx as <-. split.
    - exists (str "b"). left. by eexists _, _.
    - done. }
  split; [by rewrite Ep|]. split; [exists s0; by split|]. split; [done|]. split; [|split; [|split]].
  - intros e He. destruct e as [k ?|k|g|g|g|g|g|g|g|k|r'|k|g|g l|g|g|g]; try done; cbn [fstep]; rewrite ?Ecs', ?Ep';
      first [destruct k as [|[|k]]; [destruct d0, d1; cbn in *; by subst..|done]
            |destruct g as [|g]; [cbn; by rewrite ?Ewr', ?Erd'|done]].
  - intros j d Hj Hd. rewrite Ecs' in Hj. destruct j as [|[|j]]; [done| |done]. injection Hj as <-. rewrite Gi1 in Hd. done.
  - exists d0. by rewrite Ecs'.
  - exists d1. by rewrite Ecs'.
Qed.
