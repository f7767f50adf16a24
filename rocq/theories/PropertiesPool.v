(** * PropertiesPool: the pool of database connections (C32) *)

From Verif Require Import Base SqlPool.

(** ** C32: the connection pool neither leaks nor shares connections *)

(** Vocabulary.  The connections: one to write, numbered 0, three to read, numbered 0 to 2. *)
Definition count (write : bool) : nat := if write then 1 else 3.
Definition in_pool (p : pool) (write : bool) (c : N) : Prop := Some c ∈ s_slots (get p write).
Definition has (p : pool) (t : nat) (write : bool) (c : N) : Prop :=
  p_tasks p !! t = Some (THold write (Some c)) \/ p_tasks p !! t = Some (TRun write c).
Definition finished (p : pool) : Prop := forall t x, p_tasks p !! t = Some x -> x = TDone.
(** No future is dropped during a transaction and no transaction's thread panics. *)
Definition gentle (p : pool) (e : pevent) : Prop :=
  match e with
  | Cancel t => forall write c, p_tasks p !! t <> Some (TRun write c)
  | Finish t panic => panic = false
  | _ => True
  end.
Fixpoint all_gentle (p : pool) (evs : list pevent) : Prop :=
  match evs with [] => True | e :: evs => gentle p e /\ all_gentle (pstep p e) evs end.

(** *** Counting *)

Fixpoint sum {A} (f : A -> nat) (l : list A) : nat :=
  match l with [] => 0 | x :: l => f x + sum f l end.

Lemma sum_app {A} (f : A -> nat) l l' : sum f (l ++ l') = sum f l + sum f l'.
Proof. induction l; cbn; lia. Qed.
Lemma sum_set {A} (f : A -> nat) l i x y : l !! i = Some x -> sum f (<[i := y]> l) + f x = sum f l + f y.
Proof.
  revert i. induction l as [|a l IH]; intros [|i] H; try done.
  - injection H as ->. cbn. lia.
  - specialize (IH i H). change (<[S i := y]> (a :: l)) with (a :: <[i := y]> l). cbn [sum]. lia.
Qed.
Lemma sum_ge {A} (f : A -> nat) l i x : l !! i = Some x -> f x <= sum f l.
Proof.
  revert i. induction l as [|a l IH]; intros [|i] H; try done; cbn in *.
  - injection H as ->. lia.
  - specialize (IH i H). lia.
Qed.
Lemma sum_ge2 {A} (f : A -> nat) l i j x y : i <> j -> l !! i = Some x -> l !! j = Some y -> f x + f y <= sum f l.
Proof.
  revert i j. induction l as [|a l IH]; intros [|i] [|j] Hne H1 H2; try done; cbn in *.
  - injection H1 as ->. pose proof (sum_ge f l j y H2). lia.
  - injection H2 as ->. pose proof (sum_ge f l i x H1). lia.
  - specialize (IH i j ltac:(lia) H1 H2). lia.
Qed.
Lemma sum_pos {A} (f : A -> nat) l : sum f l > 0 -> exists i x, l !! i = Some x /\ f x > 0.
Proof.
  induction l as [|a l IH]; cbn; [lia|]. intros H. destruct (f a) eqn:E.
  - destruct IH as (i & x & Hi & Hx); [lia|]. by exists (S i), x.
  - exists 0, a. split; [done|lia].
Qed.

Definition permit (w : bool) (x : task) : nat :=
  match x with
  | TGot w' | THold w' _ | TRun w' _ | TLeave w' | TPanic w' => if Bool.eqb w w' then 1 else 0
  | _ => 0
  end.
Definition holding (w : bool) (x : task) : nat :=
  match x with THold w' (Some _) | TRun w' _ => if Bool.eqb w w' then 1 else 0 | _ => 0 end.
Definition holding1 (w : bool) (c : N) (x : task) : nat :=
  match x with
  | THold w' (Some d) | TRun w' d => if Bool.eqb w w' && (c =? d)%N then 1 else 0
  | _ => 0
  end.
Definition bare (w : bool) (x : task) : nat :=
  match x with THold w' None | TPanic w' => if Bool.eqb w w' then 1 else 0 | _ => 0 end.
Definition none (o : option N) : nat := match o with None => 1 | _ => 0 end.
Definition some1 (c : N) (o : option N) : nat := match o with Some d => if (c =? d)%N then 1 else 0 | _ => 0 end.
Definition known (w : bool) (c : N) : nat := if (c <? N.of_nat (count w))%N then 1 else 0.

(** [strict]: nothing is lost. *)
Definition rel (strict : bool) (a b : nat) : Prop := if strict then a = b else a <= b.

Record inv_at (strict : bool) (p : pool) (w : bool) : Prop := {
  v_len : length (s_slots (get p w)) = count w;
  v_permits : s_free (get p w) + sum (permit w) (p_tasks p) = count w;
  v_room : rel strict (sum (holding w) (p_tasks p)) (sum none (s_slots (get p w)));
  v_place : forall c, rel strict (sum (some1 c) (s_slots (get p w)) + sum (holding1 w c) (p_tasks p)) (known w c);
  v_bare : strict = true -> sum (bare w) (p_tasks p) = 0
}.
Definition inv (strict : bool) (p : pool) : Prop := forall w, inv_at strict p w.

Lemma take_con_some slots c slots' : take_con slots = (Some c, slots') ->
  length slots' = length slots /\ sum none slots' = sum none slots + 1
  /\ forall d, sum (some1 d) slots' + some1 d (Some c) = sum (some1 d) slots.
Proof.
  revert slots'. induction slots as [|[a|] slots IH]; intros slots'; cbn [take_con]; [done| |].
  - intros [= <- <-]. cbn. split; [done|]. split; [lia|]. intros d. lia.
  - destruct (take_con slots) as [c' s'] eqn:E. intros [= -> <-]. destruct (IH s' eq_refl) as (H1 & H2 & H3).
    cbn. split; [lia|]. split; [lia|]. intros d. specialize (H3 d). cbn in H3. lia.
Qed.
Lemma take_con_none slots slots' : take_con slots = (None, slots') ->
  slots' = slots /\ sum none slots = length slots.
Proof.
  revert slots'. induction slots as [|[a|] slots IH]; intros slots'; cbn [take_con]; [by intros [= <-]|done|].
  destruct (take_con slots) as [c' s'] eqn:E. intros [= -> <-]. destruct (IH s' eq_refl) as [-> H]. cbn. split; [done|lia].
Qed.
Lemma put_read_spec c slots : sum none slots > 0 ->
  length (put_read c slots) = length slots /\ sum none (put_read c slots) + 1 = sum none slots
  /\ forall d, sum (some1 d) (put_read c slots) = sum (some1 d) slots + some1 d (Some c).
Proof.
  induction slots as [|[a|] slots IH]; cbn [put_read]; [cbn; lia| |].
  - cbn. intros H. destruct IH as (H1 & H2 & H3); [lia|]. split; [lia|]. split; [lia|].
    intros d. specialize (H3 d). cbn in H3. lia.
  - cbn. intros _. split; [done|]. split; [lia|]. intros d. lia.
Qed.
Lemma put_con_spec w c slots : length slots = count w -> sum none slots > 0 ->
  length (put_con w c slots) = length slots /\ sum none (put_con w c slots) + 1 = sum none slots
  /\ forall d, sum (some1 d) (put_con w c slots) = sum (some1 d) slots + some1 d (Some c).
Proof.
  destruct w; [|intros _; apply put_read_spec]. cbn [put_con count].
  destruct slots as [|[a|] [|]]; cbn; try lia. intros _ _. split; [done|]. split; [done|]. intros d. lia.
Qed.
Lemma none_le slots : sum none slots <= length slots.
Proof. induction slots as [|[a|] slots IH]; cbn; lia. Qed.

Lemma get_put p w s : get (put p w s) w = s.
Proof. by destruct w. Qed.
Lemma get_put_ne p w w' s : w <> w' -> get (put p w s) w' = get p w'.
Proof. by destruct w, w'. Qed.
Lemma tasks_put p w s : p_tasks (put p w s) = p_tasks p.
Proof. by destruct w. Qed.
Lemma get_become p t x w : get (become p t x) w = get p w.
Proof. by destruct w. Qed.

(** A task changes, and so does one side. *)
Lemma inv_change strict p w t x y s : inv strict p -> p_tasks p !! t = Some x ->
  (forall w', w' <> w -> permit w' x = permit w' y /\ holding w' x = holding w' y
     /\ (forall c, holding1 w' c x = holding1 w' c y) /\ bare w' x = bare w' y) ->
  length (s_slots s) = length (s_slots (get p w)) ->
  s_free s + permit w y = s_free (get p w) + permit w x ->
  (sum none (s_slots s) + holding w x = sum none (s_slots (get p w)) + holding w y
    \/ strict = false /\ sum none (s_slots s) + holding w x >= sum none (s_slots (get p w)) + holding w y) ->
  (forall c, sum (some1 c) (s_slots s) + holding1 w c y = sum (some1 c) (s_slots (get p w)) + holding1 w c x
    \/ strict = false /\ sum (some1 c) (s_slots s) + holding1 w c y <= sum (some1 c) (s_slots (get p w)) + holding1 w c x) ->
  (strict = true -> bare w y <= bare w x) ->
  inv strict (become (put p w s) t y).
Proof.
  intros I Hx Hother Hlen Hfree Hnone Hsome Hbare w'.
  assert (p_tasks (become (put p w s) t y) = <[t := y]> (p_tasks p)) as Et by (by destruct w).
  destruct (decide (w' = w)) as [->|Hne].
  - pose proof (I w) as [V1 V2 V3 V4 V5].
    split; rewrite ?get_become, ?get_put, ?Et.
    + congruence.
    + pose proof (sum_set (permit w) _ _ _ y Hx). lia.
    + pose proof (sum_set (holding w) _ _ _ y Hx). unfold rel in *. destruct strict; [|lia].
      destruct Hnone as [?|[? _]]; [lia|done].
    + intros c. specialize (V4 c). specialize (Hsome c). pose proof (sum_set (holding1 w c) _ _ _ y Hx).
      unfold rel in *. destruct strict; [|lia]. destruct Hsome as [?|[? _]]; [lia|done].
    + intros E. specialize (V5 E). specialize (Hbare E). pose proof (sum_set (bare w) _ _ _ y Hx). lia.
  - destruct (Hother w' Hne) as (H1 & H2 & H3 & H4). pose proof (I w') as [V1 V2 V3 V4 V5].
    split; rewrite ?get_become, ?(get_put_ne p w w' s) by done; rewrite ?Et.
    + done.
    + pose proof (sum_set (permit w') _ _ _ y Hx). lia.
    + pose proof (sum_set (holding w') _ _ _ y Hx). unfold rel in *. destruct strict; lia.
    + intros c. specialize (V4 c). specialize (H3 c). pose proof (sum_set (holding1 w' c) _ _ _ y Hx).
      unfold rel in *. destruct strict; lia.
    + intros E. specialize (V5 E). pose proof (sum_set (bare w') _ _ _ y Hx). lia.
Qed.

Lemma put_get p w : put p w (get p w) = p.
Proof. by destruct w, p. Qed.

Ltac other :=
  let w' := fresh in let Hne := fresh in
  intros w' Hne; cbn;
  match type of Hne with _ <> ?w => replace (Bool.eqb w' w) with false by (by destruct w', w) end;
  by repeat split.

Ltac routine := try done; try other; cbn; rewrite ?eqb_reflx; cbn; try lia; try (intros ?; by left).

Lemma inv_step strict p e : inv strict p -> (strict = true -> gentle p e) -> inv strict (pstep p e).
Proof.
  intros I Hg. destruct e as [w|t|t|t|t panic|t|t|t]; cbn [pstep].
  - intros w'. pose proof (I w') as [V1 V2 V3 V4 V5].
    split; cbn [p_tasks]; rewrite ?sum_app; destruct w'; cbn [get] in *; cbn [sum permit holding holding1 bare];
      rewrite ?Nat.add_0_r; try done; intros c; rewrite sum_app; cbn; rewrite ?Nat.add_0_r; apply V4.
  - destruct (p_tasks p !! t) as [[w|w|w c|w c|w|w|]|] eqn:Et; try done.
    destruct (s_free (get p w)) as [|n] eqn:Ef; [done|].
    apply (inv_change strict p w t (TWant w)); routine.
  - destruct (p_tasks p !! t) as [[w|w|w c|w c|w|w|]|] eqn:Et; try done.
    pose proof (I w) as [V1 V2 V3 V4 V5].
    destruct (take_con (s_slots (get p w))) as [[c|] slots] eqn:Ec.
    + destruct (take_con_some _ _ _ Ec) as (H1 & H2 & H3).
      apply (inv_change strict p w t (TGot w)); routine.
      intros d. left. specialize (H3 d). cbn in H3. lia.
    + destruct (take_con_none _ _ Ec) as [-> H].
      assert (strict = false) as ->.
      { destruct strict; [exfalso|done]. unfold rel in *.
        assert (sum (holding w) (p_tasks p) + permit w (TGot w) <= sum (permit w) (p_tasks p)).
        { clear -Et. revert t Et. induction (p_tasks p) as [|a l IH]; intros [|t] Et; try done; cbn in Et |- *.
          - injection Et as ->. cbn.
            assert (sum (holding w) l <= sum (permit w) l); [|lia].
            clear. induction l as [|[| | w' [c|]| | | |] l IH]; cbn; try lia; destruct (Bool.eqb _ _); lia.
          - specialize (IH t Et). cbn in IH.
            assert (holding w a <= permit w a); [|lia].
            destruct a as [| | w' [c|]| | | |]; cbn; try lia; destruct (Bool.eqb _ _); lia. }
        cbn in H0. rewrite eqb_reflx in H0. lia. }
      apply (inv_change false p w t (TGot w)); routine.
  - destruct (p_tasks p !! t) as [[w|w|w [c|]|w c|w|w|]|] eqn:Et; try done; rewrite <- (put_get p w) at 1.
    + apply (inv_change strict p w t (THold w (Some c))); routine.
    + apply (inv_change strict p w t (THold w None)); routine.
  - destruct (p_tasks p !! t) as [[w|w|w c|w c|w|w|]|] eqn:Et; try done; rewrite <- (put_get p w) at 1.
    destruct panic.
    + assert (strict = false) as -> by (destruct strict; [by specialize (Hg eq_refl)|done]).
      apply (inv_change false p w t (TRun w c)); routine.
    + apply (inv_change strict p w t (TRun w c)); routine.
  - destruct (p_tasks p !! t) as [[w|w|w c|w c|w|w|]|] eqn:Et; try done.
    + destruct c as [c|]; cbn [give_back].
      * pose proof (I w) as [V1 V2 V3 V4 V5].
        pose proof (sum_ge (holding w) _ _ _ Et) as Hh. cbn in Hh. rewrite eqb_reflx in Hh.
        destruct (put_con_spec w c (s_slots (get p w)) V1) as (H1 & H2 & H3).
        { unfold rel in V3. destruct strict; lia. }
        apply (inv_change strict p w t (THold w (Some c))); routine.
        intros d. left. rewrite H3. cbn. lia.
      * rewrite <- (put_get p w) at 1.
        apply (inv_change strict p w t (THold w None)); routine.
    + rewrite <- (put_get p w) at 1.
      apply (inv_change strict p w t (TPanic w)); routine.
  - destruct (p_tasks p !! t) as [[w|w|w c|w c|w|w|]|] eqn:Et; try done. unfold release. cbv zeta.
    apply (inv_change strict p w t (TLeave w)); routine.
  - destruct (p_tasks p !! t) as [[w|w|w c|w c|w|w|]|] eqn:Et; try done.
    + rewrite <- (put_get p w) at 1.
      apply (inv_change strict p w t (TWant w)); routine.
    + unfold release. cbv zeta.
      apply (inv_change strict p w t (TGot w)); routine.
    + destruct c as [c|]; cbn [give_back].
      * pose proof (I w) as [V1 V2 V3 V4 V5].
        pose proof (sum_ge (holding w) _ _ _ Et) as Hh. cbn in Hh. rewrite eqb_reflx in Hh.
        destruct (put_con_spec w c (s_slots (get p w)) V1) as (H1 & H2 & H3).
        { unfold rel in V3. destruct strict; lia. }
        apply (inv_change strict p w t (THold w (Some c))); routine.
        intros d. left. rewrite H3. cbn. lia.
      * rewrite <- (put_get p w) at 1.
        apply (inv_change strict p w t (THold w None)); routine.
    + assert (strict = false) as ->.
      { destruct strict; [|done]. by destruct (Hg eq_refl w c). }
      rewrite <- (put_get p w) at 1.
      apply (inv_change false p w t (TRun w c)); routine.
Qed.

Lemma inv_new strict : inv strict new_pool.
Proof.
  intros w. split; destruct w; try done; try (by destruct strict; cbn; lia).
  - intros c. unfold known. cbn. destruct (N.ltb_spec c 1), (N.eqb_spec c 0); unfold rel; destruct strict; lia.
  - intros c. unfold known. cbn.
    destruct (N.ltb_spec c 3), (N.eqb_spec c 0), (N.eqb_spec c 1), (N.eqb_spec c 2); unfold rel; destruct strict; lia.
Qed.

Lemma inv_run evs : inv false (prun new_pool evs).
Proof.
  enough (forall p, inv false p -> inv false (prun p evs)) as H by (apply H, inv_new).
  induction evs as [|e evs IH]; intros p I; [done|]. cbn. apply IH, inv_step; done.
Qed.
Lemma inv_gentle evs : all_gentle new_pool evs -> inv true (prun new_pool evs).
Proof.
  enough (forall p, inv true p -> all_gentle p evs -> inv true (prun p evs)) as H by (apply H, inv_new).
  induction evs as [|e evs IH]; intros p I Hg; [done|]. destruct Hg as [H1 H2]. cbn. apply IH; [|done]. by apply inv_step.
Qed.

Lemma slots_twice c l i j : i <> j -> l !! i = Some (Some c) -> l !! j = Some (Some c) -> sum (some1 c) l >= 2.
Proof.
  intros Hne H1 H2. pose proof (sum_ge2 (some1 c) l i j _ _ Hne H1 H2) as H. cbn in H. rewrite N.eqb_refl in H. lia.
Qed.
Lemma in_slots c l : Some c ∈ l <-> sum (some1 c) l > 0.
Proof.
  split.
  - intros [i Hi]%elem_of_list_lookup. pose proof (sum_ge (some1 c) l i _ Hi) as H. cbn in H. rewrite N.eqb_refl in H. lia.
  - intros (i & x & Hi & Hx)%sum_pos. destruct x as [d|]; cbn in Hx; [|lia].
    destruct (N.eqb_spec c d) as [<-|]; [|lia]. by eapply elem_of_list_lookup_2.
Qed.
Lemma has_one p t w c : has p t w c -> exists x, p_tasks p !! t = Some x /\ holding1 w c x = 1.
Proof. intros [H|H]; eexists; (split; [exact H|]); cbn; by rewrite eqb_reflx, N.eqb_refl. Qed.
Lemma known_le w c : known w c <= 1.
Proof. unfold known. destruct (_ <? _)%N; lia. Qed.

(** A connection is never in two hands, nor in the pool as well, nor twice in the pool, whatever
    is cancelled and whatever panics. *)
Theorem C32_never_shared :
  forall evs write c, let p := prun new_pool evs in
    (forall t t', has p t write c -> has p t' write c -> t = t')
    /\ (forall t, has p t write c -> ~ in_pool p write c)
    /\ (forall i j, s_slots (get p write) !! i = Some (Some c) -> s_slots (get p write) !! j = Some (Some c) -> i = j).
Proof.
  intros evs write c p. pose proof (v_place _ _ _ (inv_run evs write) c) as H. fold p in H. unfold rel in H.
  pose proof (known_le write c) as Hk. split; [|split].
  - intros t t' (x & Hx & E)%has_one (y & Hy & E')%has_one. destruct (decide (t = t')) as [|Hne]; [done|].
    pose proof (sum_ge2 (holding1 write c) _ _ _ _ _ Hne Hx Hy). lia.
  - intros t (x & Hx & E)%has_one Hin. apply in_slots in Hin. pose proof (sum_ge (holding1 write c) _ _ _ Hx). lia.
  - intros i j Hi Hj. destruct (decide (i = j)) as [|Hne]; [done|].
    pose proof (slots_twice c _ i j Hne Hi Hj). lia.
Qed.
Print Assumptions C32_never_shared.

(** Permits are never lost: with all tasks done there are as many as at first. *)
Theorem C32_permits_return :
  forall evs write, let p := prun new_pool evs in
    finished p -> s_free (get p write) = count write.
Proof.
  intros evs write p Hf. pose proof (v_permits _ _ _ (inv_run evs write)) as H. fold p in H.
  enough (sum (permit write) (p_tasks p) = 0) by lia.
  destruct (sum (permit write) (p_tasks p)) eqn:E; [done|]. destruct (sum_pos (permit write) (p_tasks p)) as (i & x & Hi & Hx); [lia|].
  rewrite (Hf i x Hi) in Hx. cbn in Hx. lia.
Qed.
Print Assumptions C32_permits_return.

(** As long as no future is dropped during a transaction and no transaction panics: every
    connection is in the pool or with a task; no task is without one (or panics); when all tasks
    are done all connections are in the pool.
    Missing for the full property: that cancelling, or a panic, loses nothing. *)
Theorem C32_none_lost_partial :
  forall evs write, let p := prun new_pool evs in
    all_gentle new_pool evs ->
    (forall c, (c < N.of_nat (count write))%N -> in_pool p write c \/ exists t, has p t write c)
    /\ (forall t, p_tasks p !! t <> Some (THold write None) /\ p_tasks p !! t <> Some (TPanic write))
    /\ (finished p -> forall c, (c < N.of_nat (count write))%N -> in_pool p write c).
Proof.
  intros evs write p Hg. pose proof (inv_gentle evs Hg write) as [_ _ _ V4 V5]. fold p in V4, V5.
  assert (forall c, (c < N.of_nat (count write))%N -> in_pool p write c \/ exists t, has p t write c) as Hplace.
  { intros c Hc. specialize (V4 c). unfold rel, known in V4. apply N.ltb_lt in Hc. rewrite Hc in V4.
    destruct (sum (some1 c) (s_slots (get p write))) eqn:E.
    - right. destruct (sum_pos (holding1 write c) (p_tasks p)) as (i & x & Hi & Hx); [lia|].
      exists i. destruct x as [| |w' [d|]|w' d| | |]; cbn in Hx; try lia;
        destruct (Bool.eqb_spec write w') as [<-|]; cbn in Hx; try lia; destruct (N.eqb_spec c d) as [<-|]; try lia.
      + by left.
      + by right.
    - left. apply in_slots. lia. }
  split; [done|]. split.
  - specialize (V5 eq_refl). intros t. split; intros H; pose proof (sum_ge (bare write) _ _ _ H) as Hb; cbn in Hb;
      rewrite eqb_reflx in Hb; lia.
  - intros Hf c Hc. destruct (Hplace c Hc) as [|[t [H|H]]]; [done| |]; by apply Hf in H.
Qed.
Print Assumptions C32_none_lost_partial.

(** False when a future is dropped during a transaction: the connection does not come back.  With
    the write connection gone, no task ever gets one again, however long the pool is used. *)
Lemma no_writer_step p e : s_slots (p_write p) = [None] -> (forall t c, ~ has p t true c) ->
  s_slots (p_write (pstep p e)) = [None] /\ forall t c, ~ has (pstep p e) t true c.
Proof.
  intros Hs Hn.
  assert (forall q t x, s_slots (p_write q) = [None] -> p_tasks q = p_tasks p ->
    (forall c, x <> THold true (Some c) /\ x <> TRun true c) ->
    s_slots (p_write (become q t x)) = [None] /\ forall t' c, ~ has (become q t x) t' true c) as Hset.
  { intros q t x Hq Et Hx. split; [done|]. intros t' c H. unfold has in H. cbn in H. rewrite Et in H.
    destruct (decide (t' = t)) as [->|].
    - destruct (p_tasks p !! t) as [y|] eqn:E.
      + rewrite list_lookup_insert in H by (by eapply lookup_lt_Some). destruct (Hx c). destruct H as [[= H]|[= H]]; done.
      + rewrite list_insert_ge, E in H by (by apply lookup_ge_None). by destruct H.
    - rewrite list_lookup_insert_ne in H by done. by eapply Hn. }
  assert (forall w s, (w = true -> s_slots s = [None]) -> s_slots (p_write (put p w s)) = [None]) as Hput
    by (intros [] s H; cbn; auto).
  assert (forall w s, p_tasks (put p w s) = p_tasks p) as Htasks by apply tasks_put.
  destruct e as [w|t|t|t|t panic|t|t|t]; cbn [pstep].
  - split; [done|]. intros t c H. unfold has in H. cbn in H. apply (Hn t c). unfold has.
    destruct (decide (t < length (p_tasks p))).
    + by rewrite lookup_app_l in H by done.
    + rewrite lookup_app_r in H by lia. destruct (t - length (p_tasks p)) as [|[]]; cbn in H; by destruct H.
  - destruct (p_tasks p !! t) as [[w|w|w c|w c|w|w|]|] eqn:Et; try done.
    destruct (s_free (get p w)); [done|]. apply Hset; [|done|done]. apply Hput. by intros ->.
  - destruct (p_tasks p !! t) as [[w|w|w c|w c|w|w|]|] eqn:Et; try done.
    destruct w; cbn [get].
    + rewrite Hs. cbn [take_con]. by apply Hset.
    + destruct (take_con _) as [c slots]. apply Hset; [done|done|]. by intros c'.
  - destruct (p_tasks p !! t) as [[w|w|w [c|]|w c|w|w|]|] eqn:Et; try done.
    + destruct w; [exfalso; apply (Hn t c); by left|]. apply Hset; [done|done|]. by intros c'.
    + apply Hset; done.
  - destruct (p_tasks p !! t) as [[w|w|w c|w c|w|w|]|] eqn:Et; try done.
    destruct w; [exfalso; apply (Hn t c); by right|]. apply Hset; [done|done|]. by intros c'.
  - destruct (p_tasks p !! t) as [[w|w|w c|w c|w|w|]|] eqn:Et; try done; [|by apply Hset].
    destruct c as [c|]; [|by apply Hset]. destruct w; [exfalso; apply (Hn t c); by left|].
    apply Hset; [|done|done]. by apply Hput.
  - destruct (p_tasks p !! t) as [[w|w|w c|w c|w|w|]|] eqn:Et; try done. unfold release.
    apply Hset; [|done|done]. apply Hput. by intros ->.
  - destruct (p_tasks p !! t) as [[w|w|w c|w c|w|w|]|] eqn:Et; try done.
    + by apply Hset.
    + unfold release. apply Hset; [|done|done]. apply Hput. by intros ->.
    + destruct c as [c|]; [|by apply Hset]. destruct w; [exfalso; apply (Hn t c); by left|].
      apply Hset; [|done|done]. by apply Hput.
    + by apply Hset.
Qed.

Definition a_write : list pevent := [Ask true; Grant 0; Take 0; Begin 0].

Theorem C32_cancelled_refuted :
  exists evs, finished (prun new_pool evs) /\
    forall more t c, ~ has (prun (prun new_pool evs) more) t true c.
Proof.
  exists (a_write ++ [Cancel 0; Release 0]). split.
  - intros [|t] x; vm_compute; congruence.
  - set (p := prun new_pool _).
    assert (s_slots (p_write p) = [None] /\ forall t c, ~ has p t true c) as [H1 H2].
    { split; [done|]. intros [|t] c [H|H]; vm_compute in H; congruence. }
    clearbody p. intros more. revert p H1 H2.
    induction more as [|e more IH]; intros p H1 H2; [done|]. cbn.
    destruct (no_writer_step p e H1 H2) as [H3 H4]. by apply IH.
Qed.
Print Assumptions C32_cancelled_refuted.

(** ... and the next call to write panics. *)
Theorem C32_panics_refuted :
  exists evs t, p_tasks (prun new_pool evs) !! t = Some (TPanic true)
    /\ forall u, Finish u true ∉ evs.
Proof.
  exists (a_write ++ [Cancel 0; Release 0] ++ [Ask true; Grant 1; Take 1; Begin 1]), 1.
  split; [by vm_compute|]. intros u H. apply elem_of_list_In in H. vm_compute in H.
  repeat (destruct H as [H|H]; [discriminate H|]). done.
Qed.
Print Assumptions C32_panics_refuted.

(** The same for reading. *)
Theorem C32_read_lost_refuted :
  exists evs, let p := prun new_pool evs in finished p /\ s_free (p_read p) = 3 /\ ~ in_pool p false 0.
Proof.
  exists [Ask false; Grant 0; Take 0; Begin 0; Cancel 0; Release 0]. split; [|split].
  - intros [|t] x; vm_compute; congruence.
  - done.
  - intros H. apply elem_of_list_In in H. vm_compute in H. repeat (destruct H as [H|H]; [congruence|]). done.
Qed.
Print Assumptions C32_read_lost_refuted.

(** Exactly which connections are lost, and for ever. *)
Definition lost (p : pool) (write : bool) (c : N) : Prop :=
  ~ in_pool p write c /\ forall t, ~ has p t write c.

Definition place (p : pool) (w : bool) (c : N) : nat :=
  sum (some1 c) (s_slots (get p w)) + sum (holding1 w c) (p_tasks p).
Definition loses (p : pool) (e : pevent) (w : bool) (c : N) : nat :=
  match e with
  | Cancel t | Finish t true =>
      match p_tasks p !! t with Some (TRun w' d) => holding1 w c (TRun w' d) | _ => 0 end
  | _ => 0
  end.

Lemma place_change p w t x y s w' c : p_tasks p !! t = Some x ->
  place (become (put p w s) t y) w' c + holding1 w' c x
    + (if Bool.eqb w' w then sum (some1 c) (s_slots (get p w)) else 0)
  = place p w' c + holding1 w' c y + (if Bool.eqb w' w then sum (some1 c) (s_slots s) else 0).
Proof.
  intros Hx. unfold place. rewrite get_become.
  assert (p_tasks (become (put p w s) t y) = <[t := y]> (p_tasks p)) as -> by (by destruct w).
  pose proof (sum_set (holding1 w' c) _ _ _ y Hx).
  destruct (Bool.eqb_spec w' w) as [->|Hne]; [rewrite get_put; lia|rewrite get_put_ne by done; lia].
Qed.
Lemma place_become p t x y w c : p_tasks p !! t = Some x ->
  place (become p t y) w c + holding1 w c x = place p w c + holding1 w c y.
Proof. intros Hx. pose proof (place_change p w t x y (get p w) w c Hx) as H. rewrite put_get, eqb_reflx in H. lia. Qed.
Lemma place_back p w t d w' c : inv false p -> p_tasks p !! t = Some (THold w (Some d)) ->
  place (become (give_back p w (Some d)) t (TLeave w)) w' c = place p w' c.
Proof.
  intros I Et. cbn [give_back]. pose proof (I w) as [V1 V2 V3 V4 V5].
  pose proof (sum_ge (holding w) _ _ _ Et) as Hh. cbn in Hh. rewrite eqb_reflx in Hh.
  destruct (put_con_spec w d (s_slots (get p w)) V1) as (H1 & H2 & H3); [unfold rel in V3; lia|].
  match goal with |- place (become (put p w ?s) t ?y) _ _ = _ => pose proof (place_change p w t _ y s w' c Et) as H end.
  specialize (H3 c). cbn [s_slots holding1] in H. rewrite H3 in H. cbn [some1] in H.
  destruct (Bool.eqb w' w); cbn in H; lia.
Qed.

Lemma place_step p e w c : inv false p -> place (pstep p e) w c + loses p e w c = place p w c.
Proof.
  intros I. destruct e as [w0|t|t|t|t panic|t|t|t]; cbn [pstep loses].
  - unfold place. cbn [p_tasks]. rewrite sum_app. destruct w; cbn; lia.
  - destruct (p_tasks p !! t) as [[w0|w0|w0 d|w0 d|w0|w0|]|] eqn:Et; try lia.
    destruct (s_free (get p w0)) as [|n] eqn:Ef; [lia|].
    match goal with |- place (become (put p w0 ?s) t ?y) _ _ + _ = _ => pose proof (place_change p w0 t _ y s w c Et) as H end.
    cbn in H. destruct (Bool.eqb w w0); lia.
  - destruct (p_tasks p !! t) as [[w0|w0|w0 d|w0 d|w0|w0|]|] eqn:Et; try lia.
    destruct (take_con (s_slots (get p w0))) as [[d|] slots] eqn:Ec.
    + destruct (take_con_some _ _ _ Ec) as (_ & _ & H3). specialize (H3 c).
      match goal with |- place (become (put p w0 ?s) t ?y) _ _ + _ = _ => pose proof (place_change p w0 t _ y s w c Et) as H end.
      cbn in H, H3. destruct (Bool.eqb w w0); cbn in H; lia.
    + destruct (take_con_none _ _ Ec) as [-> _].
      match goal with |- place (become (put p w0 ?s) t ?y) _ _ + _ = _ => pose proof (place_change p w0 t _ y s w c Et) as H end.
      cbn in H. destruct (Bool.eqb w w0); lia.
  - destruct (p_tasks p !! t) as [[w0|w0|w0 [d|]|w0 d|w0|w0|]|] eqn:Et; try lia;
      match goal with |- place (become p t ?y) _ _ + _ = _ => pose proof (place_become p t _ y w c Et) as H end;
      cbn in H; lia.
  - destruct (p_tasks p !! t) as [[w0|w0|w0 d|w0 d|w0|w0|]|] eqn:Et; destruct panic; try lia;
      match goal with |- place (become p t ?y) _ _ + _ = _ => pose proof (place_become p t _ y w c Et) as H end;
      cbn in H |- *; lia.
  - destruct (p_tasks p !! t) as [[w0|w0|w0 d|w0 d|w0|w0|]|] eqn:Et; try lia.
    + destruct d as [d|]; [rewrite place_back by done; lia|]. cbn [give_back].
      match goal with |- place (become p t ?y) _ _ + _ = _ => pose proof (place_become p t _ y w c Et) as H end. cbn in H. lia.
    + match goal with |- place (become p t ?y) _ _ + _ = _ => pose proof (place_become p t _ y w c Et) as H end. cbn in H. lia.
  - destruct (p_tasks p !! t) as [[w0|w0|w0 d|w0 d|w0|w0|]|] eqn:Et; try lia. unfold release. cbv zeta.
    match goal with |- place (become (put p w0 ?s) t ?y) _ _ + _ = _ => pose proof (place_change p w0 t _ y s w c Et) as H end.
    cbn in H. destruct (Bool.eqb w w0); lia.
  - destruct (p_tasks p !! t) as [[w0|w0|w0 d|w0 d|w0|w0|]|] eqn:Et; try lia.
    + match goal with |- place (become p t ?y) _ _ + _ = _ => pose proof (place_become p t _ y w c Et) as H end. cbn in H. lia.
    + unfold release. cbv zeta.
      match goal with |- place (become (put p w0 ?s) t ?y) _ _ + _ = _ => pose proof (place_change p w0 t _ y s w c Et) as H end.
      cbn in H. destruct (Bool.eqb w w0); lia.
    + destruct d as [d|]; [rewrite place_back by done; lia|]. cbn [give_back].
      match goal with |- place (become p t ?y) _ _ + _ = _ => pose proof (place_become p t _ y w c Et) as H end. cbn in H. lia.
    + match goal with |- place (become p t ?y) _ _ + _ = _ => pose proof (place_become p t _ y w c Et) as H end. cbn in H |- *. lia.
Qed.

Lemma place_lost p w c : lost p w c <-> place p w c = 0.
Proof.
  unfold lost, place. split.
  - intros [H1 H2].
    destruct (sum (some1 c) (s_slots (get p w))) eqn:E; [|exfalso; apply H1, in_slots; lia].
    destruct (sum (holding1 w c) (p_tasks p)) eqn:E'; [done|exfalso].
    destruct (sum_pos (holding1 w c) (p_tasks p)) as (i & x & Hi & Hx); [lia|]. apply (H2 i).
    destruct x as [| |w' [d|]|w' d| | |]; cbn in Hx; try lia;
      destruct (Bool.eqb_spec w w') as [<-|]; cbn in Hx; try lia; destruct (N.eqb_spec c d) as [<-|]; try lia.
    + by left.
    + by right.
  - intros H. split; [intros Hin; apply in_slots in Hin; lia|].
    intros t (x & Hx & E)%has_one. pose proof (sum_ge (holding1 w c) _ _ _ Hx). lia.
Qed.

(** A connection is lost exactly when the future of the call that has it in a transaction was
    dropped, or the transaction panicked.  Whatever happens after that does not bring it back. *)
Theorem C32_lost_exactly :
  forall evs write c, (c < N.of_nat (count write))%N ->
    (lost (prun new_pool evs) write c <->
     exists before t after,
       (evs = before ++ Cancel t :: after \/ evs = before ++ Finish t true :: after)
       /\ p_tasks (prun new_pool before) !! t = Some (TRun write c)).
Proof.
  intros evs write c Hc. rewrite place_lost.
  induction evs as [|e evs IH] using rev_ind.
  - split.
    + intros H. exfalso. destruct write; revert H; cbn in Hc |- *;
        destruct (N.eqb_spec c 0), (N.eqb_spec c 1), (N.eqb_spec c 2); lia.
    + intros ([|? ?] & t & after & [H|H] & _); discriminate H.
  - assert (forall p a b, prun p (a ++ b) = prun (prun p a) b) as Happ
      by (intros p a; revert p; induction a as [|a0 a IHa]; intros p b; cbn; [done|apply IHa]).
    rewrite Happ. cbn [prun fold_left]. set (p := prun new_pool evs) in *.
    pose proof (place_step p e write c (inv_run evs)) as Hs.
    assert (place p write c <= 1) as Hle.
    { pose proof (v_place _ _ _ (inv_run evs write) c) as H. fold p in H. unfold rel in H.
      pose proof (known_le write c). unfold place. lia. }
    split.
    + intros H0. change (place (pstep p e) write c = 0) in H0.
      destruct (loses p e write c) eqn:El.
      * destruct IH as [IH _]. destruct IH as (b & t & a & He & Ht); [lia|].
        exists b, t, (a ++ [e]). split; [|done]. destruct He as [He|He]; [left|right]; rewrite He, <- app_assoc; done.
      * unfold loses in El.
        assert (exists t, (e = Cancel t \/ e = Finish t true) /\ p_tasks p !! t = Some (TRun write c)) as (t & He & Ht).
        { destruct e as [ | | | |t []| | |t]; try discriminate El; exists t; (split; [by auto|]);
            destruct (p_tasks p !! t) as [[v|v|v d|v d|v|v|]|]; try discriminate El; cbn in El;
            destruct (Bool.eqb_spec write v) as [Ev|Ev]; try discriminate El; cbn in El;
            destruct (N.eqb_spec c d) as [Ed|Ed]; try discriminate El; congruence. }
        exists evs, t, []. split; [|done]. destruct He as [->| ->]; [by left|by right].
    + intros (b & t & a & He & Ht). change (place (pstep p e) write c = 0).
      destruct a as [|e' a _] using rev_ind.
      * assert (b = evs /\ (e = Cancel t \/ e = Finish t true)) as [-> He'].
        { destruct He as [He|He]; apply app_inj_tail in He as [-> ->]; auto. }
        fold p in Ht. assert (loses p e write c = 1) as El.
        { destruct He' as [-> | ->]; cbn; rewrite Ht; by rewrite eqb_reflx, N.eqb_refl. }
        lia.
      * assert (place p write c = 0); [|lia]. apply IH. exists b, t, a. split; [|done].
        rewrite !app_comm_cons, !app_assoc in He.
        destruct He as [He|He]; apply app_inj_tail in He as [-> _]; auto.
Qed.
Print Assumptions C32_lost_exactly.

(** Two readers: one panics, one is cancelled; the third connection is still there. *)
Example C32_lost_ex :
  let evs := [Ask false; Ask false; Grant 0; Grant 1; Take 1; Take 0; Begin 0; Begin 1; Finish 1 true; Cancel 0] in
  let p := prun new_pool evs in
  lost p false 0 /\ lost p false 1 /\ ~ lost p false 2 /\ ~ lost p true 0.
Proof. cbv zeta. rewrite !place_lost. vm_compute. repeat split; congruence. Qed.

(** Five tasks, one cancelled while it waits and one before its transaction. *)
Example C32_ex :
  let evs := [Ask false; Ask false; Ask true; Ask false; Ask false; Grant 3; Grant 0; Take 3; Grant 1; Begin 3;
    Take 0; Cancel 4; Cancel 0; Release 0; Grant 2; Take 2; Begin 2; Finish 3 false; End 3; Take 1; Begin 1;
    Finish 2 false; Begin 2; Finish 2 false; End 2; Release 2; Release 3; Finish 1 false; End 1; Release 1] in
  all_gentle new_pool evs /\ finished (prun new_pool evs).
Proof.
  cbv zeta. split.
  - cbn. repeat (split; [first [done|intros w c; vm_compute; congruence]|]). done.
  - intros t x H. vm_compute in H. do 5 (destruct t as [|t]; [congruence|]). destruct t; discriminate H.
Qed.
