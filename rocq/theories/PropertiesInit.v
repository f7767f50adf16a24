(** * PropertiesInit: the init command (C53) *)

From Verif Require Import Base InitFile.

(** ** C53: initialisation never damages an existing keystore *)

(** Vocabulary. *)
Definition succeeded (w : dir) (r : N) : Prop := d_runs w !! r = Some IDone.
Definition was_refused (w : dir) (r : N) : Prop := d_runs w !! r = Some IRefused.
(** The texts generated by the runs so far. *)
Definition generated (evs : list ievent) (text : bytes) : Prop := exists r, IText r text ∈ evs.

Definition writing (c : ipc) : Prop := match c with IWrite _ | IDone => True | _ => False end.

Lemma lookup_set (m : gmap N ipc) r x r' c : <[r := x]> m !! r' = Some c ->
  (r' = r /\ c = x) \/ (r' <> r /\ m !! r' = Some c).
Proof. intros [[-> ->]|[? ?]]%lookup_insert_Some; auto. Qed.

(** No run writes: nothing changes any more. *)
Lemma kept_step w e t : d_file w = Some t -> (forall r c, d_runs w !! r = Some c -> ~ writing c) ->
  d_file (istep w e) = Some t /\ forall r c, d_runs (istep w e) !! r = Some c -> ~ writing c.
Proof.
  intros Hf Hw.
  assert (forall r c, ~ writing c -> d_file (iset w r c) = Some t
    /\ forall r' c', d_runs (iset w r c) !! r' = Some c' -> ~ writing c') as Hset.
  { intros r c Hc. split; [done|]. cbn. intros r' c' [[-> ->]|[_ H]]%lookup_set; [done|by eapply Hw]. }
  destruct e as [r|r|r text|r n|r]; cbn [istep].
  - destruct (d_runs w !! r); [done|]. apply Hset. by intros [].
  - destruct (d_runs w !! r) as [[| | |rest| |]|] eqn:E; try done.
    + rewrite Hf. apply Hset. by intros [].
    + rewrite Hf. apply Hset. by intros [].
    + exfalso. by eapply (Hw _ _ E).
  - destruct (d_runs w !! r) as [[| | |rest| |]|] eqn:E; try done. apply Hset. by intros [].
  - destruct (d_runs w !! r) as [[| | |rest| |]|] eqn:E; try done. exfalso. by eapply (Hw _ _ E).
  - split; [done|]. cbn. intros r' c' [_ H]%lookup_delete_Some. by eapply Hw.
Qed.

Lemma kept w evs t : d_file w = Some t -> (forall r c, d_runs w !! r = Some c -> ~ writing c) ->
  d_file (irun w evs) = Some t /\ forall r c, d_runs (irun w evs) !! r = Some c -> ~ writing c.
Proof.
  revert w. induction evs as [|e evs IH]; intros w Hf Hw; [done|].
  destruct (kept_step w e t Hf Hw) as [H1 H2]. by apply IH.
Qed.

(** A configuration that exists is never changed, and init never claims to have made one. *)
Theorem C53_never_overwrites :
  forall text evs,
    d_file (irun (idle (Some text)) evs) = Some text
    /\ forall r, ~ succeeded (irun (idle (Some text)) evs) r.
Proof.
  intros text evs. destruct (kept (idle (Some text)) evs text) as [H1 H2]; [done|done|].
  split; [done|]. intros r H. by apply (H2 _ _ H).
Qed.
Print Assumptions C53_never_overwrites.

(** What holds throughout runs in an empty directory. *)
Record iinv (texts : bytes -> Prop) (w : dir) : Prop := {
  i_create : forall r t, d_runs w !! r = Some (ICreate t) -> texts t;
  i_none : d_file w = None -> forall r c, d_runs w !! r = Some c -> ~ writing c;
  i_file : forall f, d_file w = Some f -> exists t rest, texts t /\ t = f ++ rest
    /\ (forall r rest', d_runs w !! r = Some (IWrite rest') -> rest' = rest)
    /\ (forall r, d_runs w !! r = Some IDone -> rest = []);
  i_one : forall r c r' c', d_runs w !! r = Some c -> d_runs w !! r' = Some c' ->
    writing c -> writing c' -> r = r'
}.

Lemma iinv_mono (P Q : bytes -> Prop) w : (forall t, P t -> Q t) -> iinv P w -> iinv Q w.
Proof.
  intros H [H1 H2 H3 H4]. split; [by eauto|done| |done].
  intros f Hf. destruct (H3 f Hf) as (t & rest & Ht & ?). exists t, rest. auto.
Qed.

Lemma iinv_set P w r c : iinv P w -> (forall c0, d_runs w !! r = Some c0 -> ~ writing c0) ->
  ~ writing c -> (forall t, c = ICreate t -> P t) -> iinv P (iset w r c).
Proof.
  intros [H1 H2 H3 H4] Hold Hc Ht. split; cbn.
  - intros r' t [[-> E]|[_ H]]%lookup_set; eauto.
  - intros Hf r' c' [[-> ->]|[_ H]]%lookup_set; eauto.
  - intros f Hf. destruct (H3 f Hf) as (t & rest & Hp & E & Hw & Hd). exists t, rest.
    split; [done|]. split; [done|]. split.
    + intros r' rest' [[-> <-]|[_ H]]%lookup_set; [by destruct Hc|by eapply Hw].
    + intros r' [[-> <-]|[_ H]]%lookup_set; [by destruct Hc|by eapply Hd].
  - intros r1 c1 r2 c2 [[-> ->]|[_ Ha]]%lookup_set [[-> ->]|[_ Hb]]%lookup_set; try done. by eapply H4.
Qed.

Lemma iinv_step P w e : iinv P w -> (forall r t, e = IText r t -> P t) -> iinv P (istep w e).
Proof.
  intros I Ht. destruct e as [r|r|r text|r n|r]; cbn [istep].
  - destruct (d_runs w !! r) eqn:E; [done|]. apply iinv_set; [done| |by intros []|done]. congruence.
  - destruct (d_runs w !! r) as [[| |text|rest| |]|] eqn:E; try done.
    + apply iinv_set; [done| |destruct (d_file w); by intros []|by destruct (d_file w)].
      intros c0 H. rewrite E in H. injection H as <-. by intros [].
    + destruct (d_file w) as [f|] eqn:Ef.
      * apply iinv_set; [done| |by intros []|done]. intros c0 H. rewrite E in H. injection H as <-. by intros [].
      * destruct I as [H1 H2 H3 H4]. split; cbn.
        -- intros r' t [[-> H]|[_ H]]%lookup_set; eauto; done.
        -- done.
        -- intros f [= <-]. exists text, text. split; [by eapply H1|]. split; [done|]. split.
           ++ intros r' rest' [[-> [= ->]]|[_ H]]%lookup_set; [done|]. exfalso. by eapply (H2 Ef _ _ H).
           ++ intros r' [[-> ?]|[_ H]]%lookup_set; [done|]. exfalso. by eapply (H2 Ef _ _ H).
        -- intros r1 c1 r2 c2 [[-> ->]|[_ Ha]]%lookup_set [[-> ->]|[_ Hb]]%lookup_set Hw1 Hw2; try done;
             exfalso; by eapply (H2 Ef).
    + destruct rest as [|x rest]; [|done]. destruct I as [H1 H2 H3 H4]. split; cbn.
      * intros r' t [[-> H]|[_ H]]%lookup_set; eauto; done.
      * intros Hf. exfalso. by eapply (H2 Hf _ _ E).
      * intros f Hf. destruct (H3 f Hf) as (t & rest & Hp & Et & Hw & Hd). exists t, rest.
        split; [done|]. split; [done|]. pose proof (Hw _ _ E) as <-. split; [|done].
        intros r' rest' [[-> ?]|[_ H]]%lookup_set; [done|]. by eapply Hw.
      * intros r1 c1 r2 c2 [[-> ->]|[_ Ha]]%lookup_set [[-> ->]|[_ Hb]]%lookup_set Hw1 Hw2; try done;
          [by eapply H4|by eapply H4|by eapply H4].
  - destruct (d_runs w !! r) as [[| | |rest| |]|] eqn:E; try done.
    apply iinv_set; [done| |by intros []|].
    + intros c0 H. rewrite E in H. injection H as <-. by intros [].
    + intros t [= <-]. by eapply Ht.
  - destruct (d_runs w !! r) as [[| | |rest| |]|] eqn:E; try done. destruct I as [H1 H2 H3 H4].
    destruct (d_file w) as [f|] eqn:Ef; [|exfalso; by eapply (H2 eq_refl _ _ E)].
    destruct (H3 f eq_refl) as (t & rest0 & Hp & Et & Hw & Hd). pose proof (Hw _ _ E) as <-. split; cbn [d_file d_runs].
    + intros r' t' [[-> H]|[_ H]]%lookup_set; eauto; done.
    + done.
    + intros f' [= <-]. exists t, (drop (S n) rest). split; [done|].
      split; [cbn [default]; by rewrite <- app_assoc, take_drop|]. split.
      * intros r' rest' [[-> [= ->]]|[Hne H]]%lookup_set; [done|]. exfalso. apply Hne. by eapply H4.
      * intros r' [[-> ?]|[Hne H]]%lookup_set; [done|]. exfalso. apply Hne. by eapply H4.
    + intros r1 c1 r2 c2 [[-> ->]|[_ Ha]]%lookup_set [[-> ->]|[_ Hb]]%lookup_set Hw1 Hw2; try done;
        [by eapply H4|by eapply H4|by eapply H4].
  - destruct I as [H1 H2 H3 H4]. split; cbn.
    + intros r' t [_ H]%lookup_delete_Some. eauto.
    + intros Hf r' c [_ H]%lookup_delete_Some. eauto.
    + intros f Hf. destruct (H3 f Hf) as (t & rest & Hp & Et & Hw & Hd). exists t, rest.
      split; [done|]. split; [done|]. split.
      * intros r' rest' [_ H]%lookup_delete_Some. eauto.
      * intros r' [_ H]%lookup_delete_Some. eauto.
    + intros r1 c1 r2 c2 [_ Ha]%lookup_delete_Some [_ Hb]%lookup_delete_Some. by eapply H4.
Qed.

Lemma iinv_run evs : iinv (generated evs) (irun (idle None) evs).
Proof.
  enough (forall (P : bytes -> Prop) w, iinv P w -> (forall t, generated evs t -> P t) -> iinv P (irun w evs)) as H.
  { apply H; [|done]. by split. }
  induction evs as [|e evs IH]; intros P w I Hg; [done|]. cbn.
  apply IH.
  - apply iinv_step; [done|]. intros r t ->. apply Hg. exists r. left.
  - intros t [r H]. apply Hg. exists r. by right.
Qed.

(** In an empty directory, whatever happens: what is in the file is a beginning of the text of
    one run, the whole text if a run succeeded, and no two runs succeed.
    Missing for the full property: a run killed while writing leaves part of a configuration. *)
Theorem C53_one_text_partial :
  forall evs f, d_file (irun (idle None) evs) = Some f ->
    (exists text rest, generated evs text /\ text = f ++ rest
       /\ forall r, succeeded (irun (idle None) evs) r -> rest = [])
    /\ forall r r', succeeded (irun (idle None) evs) r -> succeeded (irun (idle None) evs) r' -> r = r'.
Proof.
  intros evs f Hf. pose proof (iinv_run evs) as I. split.
  - destruct (i_file _ _ I f Hf) as (t & rest & Hp & Et & _ & Hd). exists t, rest. done.
  - intros r r' H1 H2. by eapply (i_one _ _ I).
Qed.
Print Assumptions C53_one_text_partial.

(** A configuration reported as made stays. *)
Theorem C53_made_stays :
  forall evs r more, succeeded (irun (idle None) evs) r ->
    exists text, generated evs text /\ d_file (irun (idle None) (evs ++ more)) = Some text.
Proof.
  intros evs r more Hs. pose proof (iinv_run evs) as I.
  set (w := irun (idle None) evs) in *.
  destruct (d_file w) as [f|] eqn:Ef.
  2: { exfalso. by eapply (i_none _ _ I Ef _ _ Hs). }
  destruct (i_file _ _ I f Ef) as (t & rest & Hp & Et & _ & Hd).
  rewrite (Hd r Hs), app_nil_r in Et. subst f. exists t. split; [done|].
  unfold irun. rewrite fold_left_app. fold (irun (idle None) evs). fold w. fold (irun w more).
  assert (forall r' c, d_runs w !! r' = Some c -> writing c -> c = IDone) as Hdone.
  { intros r' c H Hc. assert (r' = r) as -> by (by eapply (i_one _ _ I _ _ _ _ H Hs)). congruence. }
  clear -Ef Hdone. revert Ef Hdone. generalize w. induction more as [|e more IH]; intros w0 Hf Hd; [done|].
  cbn. apply IH.
  - destruct e as [r|r|r text|r n|r]; cbn [istep].
    + by destruct (d_runs w0 !! r).
    + destruct (d_runs w0 !! r) as [[| | |[|]| |]|] eqn:E; try done. by rewrite Hf.
    + by destruct (d_runs w0 !! r) as [[| | |[|]| |]|].
    + destruct (d_runs w0 !! r) as [[| | |rest| |]|] eqn:E; try done. by specialize (Hd _ _ E I).
    + done.
  - destruct e as [r|r|r text|r n|r]; cbn [istep].
    + destruct (d_runs w0 !! r) eqn:E; [done|]. cbn. intros r' c [[-> ->]|[_ H]]%lookup_set; [done|eauto].
    + destruct (d_runs w0 !! r) as [[| | |[|]| |]|] eqn:E; try done.
      * rewrite Hf. cbn. intros r' c [[-> ->]|[_ H]]%lookup_set; [done|eauto].
      * rewrite Hf. cbn. intros r' c [[-> ->]|[_ H]]%lookup_set; [done|eauto].
      * cbn. intros r' c [[-> ->]|[_ H]]%lookup_set; [done|eauto].
    + destruct (d_runs w0 !! r) as [[| | |[|]| |]|] eqn:E; try done.
      cbn. intros r' c [[-> ->]|[_ H]]%lookup_set; [done|eauto].
    + destruct (d_runs w0 !! r) as [[| | |rest| |]|] eqn:E; try done. by specialize (Hd _ _ E I).
    + cbn. intros r' c [_ H]%lookup_delete_Some. eauto.
Qed.
Print Assumptions C53_made_stays.

Lemma irun_app w a b : irun w (a ++ b) = irun (irun w a) b.
Proof. apply fold_left_app. Qed.

(** Alone, a run in a directory with no configuration succeeds, whatever was killed before. *)
Definition steps_to_write (r : N) (text : bytes) : list ievent := [IStart r; IStep r; IText r text; IStep r].

Lemma to_write w r text : d_file w = None -> d_runs w !! r = None ->
  irun w (steps_to_write r text) = Dir (Some []) (<[r := IWrite text]> (d_runs w)).
Proof.
  intros Hf Hr. unfold steps_to_write, irun. cbn [fold_left istep]. rewrite Hr.
  cbn [iset d_runs d_file]. rewrite lookup_insert. rewrite Hf. cbn [iset d_runs d_file].
  rewrite insert_insert, lookup_insert. cbn [iset d_runs d_file]. rewrite insert_insert, lookup_insert.
  cbn [iset d_runs d_file]. rewrite Hf. by rewrite !insert_insert.
Qed.

Lemma one_chunk w r rest n : d_runs w !! r = Some (IWrite rest) ->
  irun w [IChunk r n] = Dir (Some (default [] (d_file w) ++ take (S n) rest)) (<[r := IWrite (drop (S n) rest)]> (d_runs w)).
Proof. intros H. cbn. by rewrite H. Qed.

Theorem C53_run_again :
  forall evs r text, d_file (irun (idle None) evs) = None -> d_runs (irun (idle None) evs) !! r = None ->
    let w' := irun (irun (idle None) evs)
      ([IStart r; IStep r; IText r text; IStep r] ++ [IChunk r (length text); IStep r]) in
    succeeded w' r /\ d_file w' = Some text.
Proof.
  intros evs r text Hf Hr. cbv zeta. change [IStart r; IStep r; IText r text; IStep r] with (steps_to_write r text). rewrite irun_app, to_write by done.
  change [IChunk r (length text); IStep r] with ([IChunk r (length text)] ++ [IStep r]).
  rewrite irun_app, (one_chunk _ r text) by (cbn; apply lookup_insert). cbn [d_file d_runs default].
  rewrite insert_insert. rewrite take_ge, drop_ge by lia. unfold irun. cbn [fold_left istep d_runs].
  rewrite lookup_insert. unfold succeeded, iset. cbn [d_runs d_file]. split; [apply lookup_insert|done].
Qed.
Print Assumptions C53_run_again.

(** False of the code: for every text and every beginning of it, a run can be stopped so that
    just this beginning is in the file; then no run ever succeeds. *)
Theorem C53_killed_refuted :
  forall text n, n < length text ->
    exists evs, let w := irun (idle None) evs in
      d_file w = Some (take n text)
      /\ forall more, d_file (irun w more) = Some (take n text) /\ forall r, ~ succeeded (irun w more) r.
Proof.
  intros text n Hn.
  assert (exists evs, irun (idle None) evs = idle (Some (take n text))) as [evs E].
  { exists (steps_to_write 0 text ++ (match n with O => [] | S n => [IChunk 0 n] end) ++ [IKill 0]).
    rewrite !irun_app, to_write by done. destruct n as [|n].
    - unfold irun. cbn [fold_left istep d_file d_runs]. unfold idle. f_equal. by apply delete_insert.
    - rewrite (one_chunk _ 0 text) by (cbn; apply lookup_insert). cbn [d_file d_runs default].
      unfold irun. cbn [fold_left istep d_file d_runs]. unfold idle. rewrite insert_insert. f_equal. by apply delete_insert. }
  exists evs. cbv zeta. rewrite E. split; [done|]. apply C53_never_overwrites.
Qed.
Print Assumptions C53_killed_refuted.

(** Two runs at once: one succeeds, the other is refused. *)
Example C53_ex :
  let evs := [IStart 1; IStart 2; IStep 1; IStep 2; IText 1 (str "one"); IText 2 (str "two");
    IStep 2; IStep 1; IChunk 2 0; IChunk 2 5; IStep 2] in
  d_file (irun (idle None) evs) = Some (str "two")
  /\ succeeded (irun (idle None) evs) 2 /\ was_refused (irun (idle None) evs) 1.
Proof. repeat split; by vm_compute. Qed.

(** A run that has not begun to write when there is a file never does. *)
Lemma late_step w e r f : d_file w = Some f -> (forall c, d_runs w !! r = Some c -> ~ writing c) ->
  is_Some (d_file (istep w e)) /\ forall c, d_runs (istep w e) !! r = Some c -> ~ writing c.
Proof.
  intros Hf Hw.
  assert (forall r' c', (r' = r -> ~ writing c') -> is_Some (d_file (iset w r' c'))
    /\ forall c, d_runs (iset w r' c') !! r = Some c -> ~ writing c) as Hset.
  { intros r' c' Hc. split; [by exists f|]. cbn. intros c [[E ->]|[_ H]]%lookup_set; [by apply Hc|by apply Hw]. }
  assert (is_Some (d_file w)) as Hs by (by exists f).
  destruct e as [r'|r'|r' text|r' n|r']; cbn [istep].
  - destruct (d_runs w !! r'); [done|]. apply Hset. by intros _ [].
  - destruct (d_runs w !! r') as [[| | |rest| |]|] eqn:E; try done.
    + rewrite Hf. apply Hset. by intros _ [].
    + rewrite Hf. apply Hset. by intros _ [].
    + destruct rest; [|done]. apply Hset. intros ->. exfalso. by apply (Hw _ E).
  - destruct (d_runs w !! r') as [[| | |rest| |]|] eqn:E; try done. apply Hset. by intros _ [].
  - destruct (d_runs w !! r') as [[| | |rest| |]|] eqn:E; try done. cbn [d_file d_runs]. split; [by eexists|].
    intros c [[-> ->]|[_ H]]%lookup_set; [by destruct (Hw _ E)|by apply Hw].
  - split; [done|]. cbn. intros c [_ H]%lookup_delete_Some. by apply Hw.
Qed.

(** Exactly when init can be run again: when there is no file at all, whatever was done before,
    killed or not, and however little of a configuration is in the file. *)
Theorem C53_again_exactly :
  forall evs r, let w := irun (idle None) evs in
    d_runs w !! r = None ->
    (exists more, succeeded (irun w more) r) <-> d_file w = None.
Proof.
  intros evs r w Hr. split.
  - intros [more Hm]. destruct (d_file w) as [f|] eqn:Ef; [|done]. exfalso.
    assert (forall c, d_runs w !! r = Some c -> ~ writing c) as Hw by (intros c Hc; congruence).
    clearbody w. clear Hr. revert w f Ef Hw Hm. induction more as [|e more IH]; intros w f Ef Hw Hm.
    + by apply (Hw _ Hm).
    + destruct (late_step w e r f Ef Hw) as [[f' Hf'] Hw']. by apply (IH (istep w e) f').
  - intros Hf. eexists. by apply (C53_run_again evs r (str "text")).
Qed.
Print Assumptions C53_again_exactly.

(** After a run that was killed before it created the file, init works; after one that was killed
    just then, it does not. *)
Example C53_again_ex :
  let before := [IStart 1; IStep 1; IText 1 (str "one"); IKill 1] in
  let after := [IStart 1; IStep 1; IText 1 (str "one"); IStep 1; IKill 1] in
  d_file (irun (idle None) before) = None /\ d_runs (irun (idle None) before) !! 2%N = None
  /\ d_file (irun (idle None) after) = Some [] /\ d_runs (irun (idle None) after) !! 2%N = None.
Proof. repeat split; by vm_compute. Qed.
