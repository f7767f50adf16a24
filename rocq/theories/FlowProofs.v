(** * FlowProofs: invariant and measure of [Flow] *)

From Verif Require Import Base Flow.
From Coq Require Import Permutation.

(** ** Vocabulary of the statements *)

(** Steps that the client library and the server take by themselves. *)
Definition internal (e : fevent) : Prop :=
  match e with FConnect | FIssue _ _ | FStop _ => False | _ => True end.

(** The calls that client [c] made. *)
Definition issued (es : list fevent) (c : nat) : list nat :=
  omap (fun e => match e with FIssue d k => if d =? c then Some k else None | _ => None end) es.

(** The calls of client [c] that got their answer. *)
Definition answered (s : flow) (c : nat) : list nat :=
  match fl_conns s !! c with Some f => f_done f | None => [] end.

(** ** Counting *)

Local Arguments Nat.eq_dec : simpl never.

Notation cnt l k := (count_occ Nat.eq_dec l k).
Definition calls (l : list tok) : list nat := omap id l.
Definition ocalls (o : option (list tok)) : list nat := match o with Some l => calls l | None => [] end.

Lemma calls_app l m : calls (l ++ m) = calls l ++ calls m.
Proof. apply omap_app. Qed.
Lemma calls_message k n : calls (message k n) = [k].
Proof. unfold message. rewrite calls_app. induction n; [done|]. exact IHn. Qed.
Lemma ocalls_rest l : ocalls (rest l) = calls l.
Proof. by destruct l. Qed.
Lemma cnt_delete (l : list nat) i x k :
  l !! i = Some x -> cnt l k = cnt [x] k + cnt (delete i l) k.
Proof.
  intros H. rewrite (proj1 (Permutation_count_occ Nat.eq_dec _ _) (delete_Permutation l i x H) k).
  cbn. destruct (Nat.eq_dec x k); lia.
Qed.
Lemma map_delete (l : list handler) i h k :
  l !! i = Some h -> cnt (map h_call l) k = cnt [h_call h] k + cnt (map h_call (delete i l)) k.
Proof.
  intros H. rewrite (cnt_delete (map h_call l) i (h_call h)).
  - do 2 f_equal. clear H. revert i. induction l; intros [|i]; cbn; [done..|]. by rewrite IHl.
  - by rewrite list_lookup_fmap, H.
Qed.
Lemma map_insert (l : list handler) i h h' :
  l !! i = Some h -> h_call h' = h_call h -> map h_call (<[i := h']> l) = map h_call l.
Proof.
  intros H E. revert i H. induction l; intros [|i] H; try discriminate; cbn in H |- *.
  - injection H as ->. by rewrite E.
  - by rewrite IHl.
Qed.

(** Handlers that hold a connection to the store. *)
Definition b2n (b : bool) : nat := if b then 1 else 0.
Definition hold1 (w : bool) (h : handler) : nat :=
  match h with Hnd _ (u :: _) true => b2n (eqb u w) | _ => 0 end.
Fixpoint hold (w : bool) (l : list handler) : nat :=
  match l with [] => 0 | h :: l => hold1 w h + hold w l end.
Fixpoint holds (w : bool) (l : list fconn) : nat :=
  match l with [] => 0 | f :: l => hold w (f_work f) + holds w l end.

Lemma hold_app w l m : hold w (l ++ m) = hold w l + hold w m.
Proof. induction l; cbn; lia. Qed.
Lemma hold_insert w l i h h' :
  l !! i = Some h -> hold w (<[i := h']> l) + hold1 w h = hold w l + hold1 w h'.
Proof.
  revert i. induction l as [|a l IH]; intros [|i] H; try discriminate.
  - injection H as ->. cbn. lia.
  - change (<[S i := h']> (a :: l)) with (a :: <[i := h']> l). cbn [hold]. specialize (IH _ H). lia.
Qed.
Lemma hold_delete w l i h : l !! i = Some h -> hold w l = hold1 w h + hold w (delete i l).
Proof.
  revert i. induction l as [|a l IH]; intros [|i] H; try discriminate.
  - injection H as ->. done.
  - change (delete (S i) (a :: l)) with (a :: delete i l). cbn [hold]. specialize (IH _ H). lia.
Qed.
Lemma holds_insert w l c f f' :
  l !! c = Some f ->
  holds w (<[c := f']> l) + hold w (f_work f) = holds w l + hold w (f_work f').
Proof.
  revert c. induction l as [|a l IH]; intros [|c] H; try discriminate.
  - injection H as ->. cbn. lia.
  - change (<[S c := f']> (a :: l)) with (a :: <[c := f']> l). cbn [holds]. specialize (IH _ H). lia.
Qed.
Lemma holds_app w l m : holds w (l ++ m) = holds w l + holds w m.
Proof. induction l; cbn; lia. Qed.

(** Somebody holds one. *)
Lemma hold_pos w l : 0 < hold w l -> exists i k us, l !! i = Some (Hnd k (w :: us) true).
Proof.
  induction l as [|h l IH]; cbn; [lia|]. intros H.
  destruct (decide (hold1 w h = 0)) as [E|E].
  - destruct IH as (i & k & us & Hi); [lia|]. by exists (S i), k, us.
  - destruct h as [k [|u us] []]; cbn in E; try lia. exists 0, k, us. cbn.
    destruct u, w; cbn in E; done.
Qed.
Lemma holds_pos w l : 0 < holds w l ->
  exists c f i k us, l !! c = Some f /\ f_work f !! i = Some (Hnd k (w :: us) true).
Proof.
  induction l as [|f l IH]; cbn; [lia|]. intros H.
  destruct (decide (hold w (f_work f) = 0)) as [E|E].
  - destruct IH as (c & f' & i & k & us & ? & ?); [lia|]. by exists (S c), f', i, k, us.
  - destruct (hold_pos w (f_work f)) as (i & k & us & Hi); [lia|]. by exists 0, f, i, k, us.
Qed.

Lemma issued_app es e c : issued (es ++ [e]) c = issued es c ++ issued [e] c.
Proof. apply omap_app. Qed.
Global Opaque message.

Ltac destruct_if H E :=
  match type of H with (if ?b then _ else _) = _ => destruct b eqn:E; [|discriminate] end.

Ltac tally := unfold calls in *; repeat destruct (Nat.eq_dec _ _); lia.

Ltac projs := cbn [f_reads f_new f_cw f_up f_work f_rdy f_sw f_down f_done].

Section Proofs.
  Variables cap_up cap_down : nat.
  Variables req_len resp_len : nat -> nat -> nat.
  Variable uses : nat -> nat -> list bool.
  Notation cstep := (conn_step cap_up cap_down req_len resp_len uses).
  Notation step := (fstep cap_up cap_down req_len resp_len uses).
  Notation runs := (fruns cap_up cap_down req_len resp_len uses).

  Lemma fruns_app s es es' :
    runs s (es ++ es') = match runs s es with Some s => runs s es' | None => None end.
  Proof. revert s. induction es as [|e es IH]; intros s; [done|]. cbn. destruct (step s e); [apply IH|done]. Qed.

  (** ** Invariant *)

  Definition tally (f : fconn) (k : nat) : nat :=
    cnt (f_new f) k + cnt (ocalls (f_cw f)) k + cnt (calls (f_up f)) k + cnt (map h_call (f_work f)) k
    + cnt (f_rdy f) k + cnt (ocalls (f_sw f)) k + cnt (calls (f_down f)) k + cnt (f_done f) k.

  Record conn_ok (made : list nat) (stopped : Prop) (f : fconn) : Prop := {
    ok_calls : forall k, cnt made k = tally f k;
    ok_cw : f_cw f <> Some [];
    ok_sw : f_sw f <> Some [];
    ok_up : length (f_up f) <= cap_up;
    ok_down : length (f_down f) <= cap_down;
    ok_cap : unfinished f <= flow_cap;
    ok_hold : Forall (fun h => h_holds h = true -> h_uses h <> []) (f_work f);
    ok_reads : f_reads f = false -> stopped
  }.

  Record flow_ok (es : list fevent) (s : flow) : Prop := {
    ok_conns : forall c f, fl_conns s !! c = Some f -> conn_ok (issued es c) (FStop c ∈ es) f;
    ok_none : forall c, fl_conns s !! c = None -> issued es c = [];
    ok_read : fl_read s + holds false (fl_conns s) = flow_reads;
    ok_write : fl_write s + holds true (fl_conns s) = flow_writes
  }.

  Lemma message_nil k n : message k n <> [].
  Proof. Transparent message. unfold message. destruct n; done. Opaque message. Qed.
  Lemma rest_nil l : rest l <> Some [].
  Proof. by destruct l. Qed.

  Lemma conn_step_ok made (st st' : Prop) f c e f' :
    place e = Some c -> conn_ok made st f -> cstep c f e = Some f' ->
    (st -> st') -> (e = FStop c -> st') ->
    conn_ok (made ++ issued [e] c) st' f'.
  Proof.
    intros Hp [Hc Hcw Hsw Hu Hd Hcap Hh Hr] H Hst Hst'.
    destruct f as [rd new cw up work rdy sw down done]; cbn in *.
    unfold tally, unfinished in *; cbn in *.
    destruct e; cbn -[Nat.ltb] in Hp, H; try discriminate; injection Hp as ->; cbn [issued omap list_omap];
      rewrite ?Nat.eqb_refl, ?app_nil_r.
    - injection H as <-. split; cbn; auto. intros k'. unfold tally; cbn.
      rewrite !count_occ_app, Hc. lia.
    - injection H as <-. split; cbn; auto.
    - destruct (new !! i) as [k|] eqn:E; [|discriminate]. destruct cw; [discriminate|]. injection H as <-.
      split; cbn; auto.
      + intros k'. unfold tally; cbn. rewrite Hc, (cnt_delete _ _ _ k' E), calls_message. cbn. lia.
      + intros [= E']. by apply message_nil in E'.
    - destruct cw as [[|t r]|]; try discriminate.
      destruct_if H Hlt. apply Nat.ltb_lt in Hlt. injection H as <-.
      split; cbn; auto using rest_nil.
      + intros k'. unfold tally; cbn. rewrite Hc, ocalls_rest, calls_app, count_occ_app.
        destruct t; cbn; tally.
      + rewrite app_length; cbn; lia.
    - destruct up as [|t up]; [discriminate|].
      destruct_if H Hlt. apply Nat.ltb_lt in Hlt.
      injection H as <-.
      split; cbn in *; auto; unfold tally, unfinished in *; cbn in *.
      + intros k'. rewrite Hc. destruct t; cbn; [|done]. rewrite map_app, count_occ_app. cbn. tally.
      + lia.
      + destruct t; [|lia]. rewrite app_length; cbn. lia.
      + destruct t; [|done]. apply Forall_app; split; [done|]. by repeat constructor.
    - destruct (work !! i) as [[k [|w us] []]|] eqn:E; try discriminate. injection H as <-.
      split; cbn; auto; unfold tally, unfinished; cbn.
      + intros k'. by rewrite Hc, (map_insert _ _ _ (Hnd k (w :: us) true) E).
      + by rewrite insert_length.
      + apply Forall_insert; [done|]. cbn. done.
    - destruct (work !! i) as [[k [|w us] []]|] eqn:E; try discriminate. injection H as <-.
      split; cbn; auto; unfold tally, unfinished; cbn.
      + intros k'. by rewrite Hc, (map_insert _ _ _ (Hnd k us false) E).
      + by rewrite insert_length.
      + apply Forall_insert; [done|]. cbn. done.
    - destruct (work !! i) as [[k [|w us] []]|] eqn:E; try discriminate. injection H as <-.
      split; cbn; auto; unfold tally, unfinished; cbn.
      + intros k'. rewrite Hc, (map_delete _ _ _ k' E), count_occ_app. cbn. lia.
      + pose proof (lookup_lt_Some _ _ _ E). rewrite app_length, length_delete; [|by eexists]. cbn. lia.
      + by apply Forall_delete.
    - destruct (rdy !! i) as [k|] eqn:E; [|discriminate]. destruct sw; [discriminate|]. injection H as <-.
      split; cbn; auto; unfold tally, unfinished; cbn.
      + intros k'. rewrite Hc, (cnt_delete _ _ _ k' E), calls_message. cbn. lia.
      + intros [= E']. by apply message_nil in E'.
      + pose proof (lookup_lt_Some _ _ _ E). rewrite length_delete; [|by eexists]. lia.
    - destruct sw as [[|t r]|]; try discriminate.
      destruct_if H Hlt. apply Nat.ltb_lt in Hlt. injection H as <-.
      split; cbn; auto using rest_nil; unfold tally, unfinished; cbn.
      + intros k'. rewrite Hc, ocalls_rest, calls_app, count_occ_app.
        destruct t; cbn; tally.
      + rewrite app_length; cbn; lia.
      + destruct r; cbn; lia.
    - destruct down as [|t down]; [discriminate|]. destruct rd; [|discriminate]. injection H as <-.
      split; cbn in *; auto; unfold tally, unfinished in *; cbn in *.
      + intros k'. rewrite Hc. destruct t; cbn; [|done]. rewrite count_occ_app. cbn. tally.
      + lia.
  Qed.

  (** Other connections are not affected. *)
  Lemma conn_weaken made (st st' : Prop) f : conn_ok made st f -> (st -> st') -> conn_ok made st' f.
  Proof. intros [] ?. split; auto. Qed.

  Lemma issued_other e c d : place e = Some c -> c <> d -> issued [e] d = [].
  Proof.
    intros Hp Hd. destruct e; cbn in *; try done. injection Hp as ->.
    destruct (Nat.eqb_spec c d); done.
  Qed.

  (** How a step changes who holds connections to the store. *)
  Lemma conn_step_hold c f e f' w :
    cstep c f e = Some f' ->
    match e with
    | FGrab _ i => hold w (f_work f') = hold w (f_work f) + b2n (eqb (use_of f i) w)
    | FFree _ i => hold w (f_work f') + b2n (eqb (use_of f i) w) = hold w (f_work f)
    | _ => hold w (f_work f') = hold w (f_work f)
    end.
  Proof.
    intros H. destruct f as [rd new cw up work rdy sw down done].
    destruct e; cbn -[Nat.ltb] in H; try discriminate.
    - by injection H as <-.
    - by injection H as <-.
    - destruct (new !! i), cw; try discriminate. by injection H as <-.
    - destruct cw as [[|t r]|]; try discriminate. destruct_if H Hlt. by injection H as <-.
    - destruct up as [|t up]; try discriminate. destruct_if H Hlt. injection H as <-. cbn.
      destruct t; [|done]. rewrite hold_app. cbn. destruct (uses c n); lia.
    - unfold use_of; cbn. destruct (work !! i) as [[k [|u us] []]|] eqn:E; try discriminate.
      injection H as <-. cbn. pose proof (hold_insert w _ _ _ (Hnd k (u :: us) true) E) as Hh.
      cbn in Hh. lia.
    - unfold use_of; cbn. destruct (work !! i) as [[k [|u us] []]|] eqn:E; try discriminate.
      injection H as <-. cbn. pose proof (hold_insert w _ _ _ (Hnd k us false) E) as Hh.
      cbn in Hh. destruct us; lia.
    - destruct (work !! i) as [[k [|u us] []]|] eqn:E; try discriminate. injection H as <-. cbn.
      pose proof (hold_delete w _ _ _ E) as Hh. cbn in Hh. done.
    - destruct (rdy !! i), sw; try discriminate. by injection H as <-.
    - destruct sw as [[|t r]|]; try discriminate. destruct_if H Hlt. by injection H as <-.
    - destruct down as [|t down]; try discriminate. destruct rd; [|discriminate]. by injection H as <-.
  Qed.

  (** What a step is. *)
  Lemma fstep_inv s e s' :
    step s e = Some s' ->
    (e = FConnect /\ s' = Flow (fl_read s) (fl_write s) (fl_conns s ++ [FConn true [] None [] [] [] None [] []]))
    \/ exists c f f', place e = Some c /\ fl_conns s !! c = Some f /\ cstep c f e = Some f'
        /\ fl_conns s' = <[c := f']> (fl_conns s)
        /\ forall w, match e with
           | FGrab _ i => free s' w + b2n (eqb (use_of f i) w) = free s w
           | FFree _ i => free s' w = free s w + b2n (eqb (use_of f i) w)
           | _ => free s' w = free s w
           end.
  Proof.
    unfold fstep. destruct (place e) as [c|] eqn:Hp.
    - destruct (fl_conns s !! c) as [f|] eqn:Hf; [|discriminate].
      destruct (cstep c f e) as [f'|] eqn:Hs; [|discriminate]. intros H. right.
      exists c, f, f'. split_and!; try done.
      + destruct e; try (by injection H as <-).
        * destruct (free s (use_of f i)) eqn:E; [discriminate|]. injection H as <-.
          by destruct (use_of f i).
        * injection H as <-. by destruct (use_of f i).
      + destruct e; intros w; try (injection H as <-; by destruct w).
        * destruct (free s (use_of f i)) eqn:E; [discriminate|]. injection H as <-.
          destruct (use_of f i), w; cbn in *; lia.
        * injection H as <-. destruct (use_of f i), w; cbn in *; lia.
    - intros [= <-]. left. by destruct e.
  Qed.

  Lemma fstep_ok es s e s' : flow_ok es s -> step s e = Some s' -> flow_ok (es ++ [e]) s'.
  Proof.
    intros [Hc Hn Hr Hw] H. destruct (fstep_inv _ _ _ H) as [[-> ->]|(c & f & f' & Hp & Hf & Hs & Hl & Hfree)].
    - split; cbn.
      + intros d g Hg. rewrite issued_app. cbn. rewrite app_nil_r.
        apply lookup_app_Some in Hg as [Hg|[Hge Hg]].
        * apply (conn_weaken _ _ _ _ (Hc _ _ Hg)). intros ?. apply elem_of_app; auto.
        * assert (issued es d = []) as ->. { apply Hn. apply lookup_ge_None. lia. }
          destruct (d - length (fl_conns s)) eqn:E; cbn in Hg; [|done].
          injection Hg as <-. split; cbn; try done; try lia.
      + intros d Hd. rewrite issued_app. cbn. rewrite app_nil_r. apply Hn.
        apply lookup_ge_None in Hd. apply lookup_ge_None. rewrite app_length in Hd. cbn in Hd. lia.
      + rewrite holds_app. cbn. lia.
      + rewrite holds_app. cbn. lia.
    - assert (Hlen : c < length (fl_conns s)) by by eapply lookup_lt_Some.
      assert (Hh : forall w, free s' w + holds w (fl_conns s') = free s w + holds w (fl_conns s)).
      { intros w. rewrite Hl. pose proof (holds_insert w _ _ _ f' Hf) as Hi.
        pose proof (conn_step_hold _ _ _ _ w Hs) as Hw'. specialize (Hfree w).
        destruct e; lia. }
      split.
      + intros d g Hg. rewrite Hl in Hg. rewrite issued_app.
        destruct (decide (c = d)) as [<-|Hd].
        * rewrite list_lookup_insert in Hg by done. injection Hg as <-.
          apply (conn_step_ok _ _ _ _ _ _ _ Hp (Hc _ _ Hf) Hs).
          -- intros ?. apply elem_of_app; auto.
          -- intros ->. apply elem_of_app; right. by apply elem_of_list_singleton.
        * rewrite list_lookup_insert_ne in Hg by done. rewrite (issued_other _ _ _ Hp Hd), app_nil_r.
          apply (conn_weaken _ _ _ _ (Hc _ _ Hg)). intros ?. apply elem_of_app; auto.
      + intros d Hd. rewrite Hl in Hd. rewrite issued_app.
        assert (c <> d). { intros <-. apply lookup_ge_None in Hd. rewrite insert_length in Hd. lia. }
        rewrite list_lookup_insert_ne in Hd by done. by rewrite (issued_other _ _ _ Hp), app_nil_r, Hn.
      + specialize (Hh false). cbn in Hh. lia.
      + specialize (Hh true). cbn in Hh. lia.
  Qed.

  Lemma finit_ok : flow_ok [] finit.
  Proof. split; done. Qed.

  Lemma fruns_ok es s es' s' : flow_ok es s -> runs s es' = Some s' -> flow_ok (es ++ es') s'.
  Proof.
    revert es s. induction es' as [|e es' IH]; intros es s Hok H; cbn in H.
    - injection H as <-. by rewrite app_nil_r.
    - destruct (step s e) as [s1|] eqn:E; [|discriminate].
      replace (es ++ e :: es') with ((es ++ [e]) ++ es') by by rewrite <- app_assoc.
      apply (IH _ s1); [|done]. by apply fstep_ok with s.
  Qed.

  Lemma reach_ok es s : runs finit es = Some s -> flow_ok es s.
  Proof. apply (fruns_ok [] finit es s finit_ok). Qed.

  (** ** The steps to come *)

  Definition toks (g : tok -> nat) (l : list tok) : nat := list_sum (map g l).
  Definition resp_todo (c k : nat) : nat := 1 + toks (fun _ => 2) (message k (resp_len c k)).
  Definition hnd_todo (c : nat) (h : handler) : nat :=
    2 * length (h_uses h) - b2n (h_holds h) + 1 + resp_todo c (h_call h).
  Definition up_todo (c : nat) (t : tok) : nat :=
    1 + match t with Some k => hnd_todo c (Hnd k (uses c k) false) | None => 0 end.
  Definition new_todo (c k : nat) : nat := 1 + toks (fun t => 1 + up_todo c t) (message k (req_len c k)).

  Definition conn_todo (c : nat) (f : fconn) : nat :=
    list_sum (map (new_todo c) (f_new f))
    + match f_cw f with Some l => toks (fun t => 1 + up_todo c t) l | None => 0 end
    + toks (up_todo c) (f_up f)
    + list_sum (map (hnd_todo c) (f_work f))
    + list_sum (map (resp_todo c) (f_rdy f))
    + match f_sw f with Some l => toks (fun _ => 2) l | None => 0 end
    + toks (fun _ => 1) (f_down f).

  Fixpoint todo (c : nat) (l : list fconn) : nat :=
    match l with [] => 0 | f :: l => conn_todo c f + todo (S c) l end.

  Lemma todo_insert l c d f f' :
    l !! d = Some f -> todo c (<[d := f']> l) + conn_todo (c + d) f = todo c l + conn_todo (c + d) f'.
  Proof.
    revert c d. induction l as [|a l IH]; intros c [|d] H; try discriminate.
    - injection H as ->. cbn [todo insert list_insert]. rewrite Nat.add_0_r. lia.
    - change (<[S d := f']> (a :: l)) with (a :: <[d := f']> l). cbn [todo].
      specialize (IH (S c) _ H). replace (c + S d) with (S c + d) by lia. lia.
  Qed.

  Lemma sum_delete {A} (g : A -> nat) l i x :
    l !! i = Some x -> list_sum (map g l) = g x + list_sum (map g (delete i l)).
  Proof.
    revert i. induction l as [|a l IH]; intros [|i] H; try discriminate.
    - injection H as ->. done.
    - change (delete (S i) (a :: l)) with (a :: delete i l). cbn [map list_sum fold_right].
      specialize (IH _ H). unfold list_sum in *. lia.
  Qed.
  Lemma sum_insert {A} (g : A -> nat) l i x y :
    l !! i = Some x -> list_sum (map g (<[i := y]> l)) + g x = list_sum (map g l) + g y.
  Proof.
    revert i. induction l as [|a l IH]; intros [|i] H; try discriminate.
    - injection H as ->. cbn. lia.
    - change (<[S i := y]> (a :: l)) with (a :: <[i := y]> l). cbn [map list_sum fold_right].
      specialize (IH _ H). unfold list_sum in *. lia.
  Qed.
  Lemma sum_snoc {A} (g : A -> nat) l x : list_sum (map g (l ++ [x])) = list_sum (map g l) + g x.
  Proof. rewrite map_app, list_sum_app. cbn. lia. Qed.
  Lemma toks_snoc g l x : toks g (l ++ [x]) = toks g l + g x.
  Proof. apply sum_snoc. Qed.
  Lemma toks_cons g t l : toks g (t :: l) = g t + toks g l.
  Proof. done. Qed.
  Lemma toks_rest g l : match rest l with Some l => toks g l | None => 0 end = toks g l.
  Proof. by destruct l. Qed.

  (** Every step takes one of them. *)
  Lemma conn_step_todo c f e f' :
    internal e -> cstep c f e = Some f' -> conn_todo c f = S (conn_todo c f').
  Proof.
    intros Hi H. destruct f as [rd new cw up work rdy sw down done].
    unfold conn_todo.
    destruct e; cbn -[Nat.ltb] in H, Hi; projs; try done.
    - destruct (new !! i) as [k|] eqn:E; [|discriminate]. destruct cw; [discriminate|]. injection H as <-. projs.
      rewrite (sum_delete _ _ _ _ E). unfold new_todo. lia.
    - destruct cw as [[|t r]|]; try discriminate. destruct_if H Hlt. injection H as <-. projs.
      rewrite toks_rest, toks_snoc, toks_cons. lia.
    - destruct up as [|t up]; try discriminate. destruct_if H Hlt. injection H as <-. projs.
      rewrite toks_cons. destruct t as [k|].
      + rewrite sum_snoc. change (up_todo c (Some k)) with (1 + hnd_todo c (Hnd k (uses c k) false)). lia.
      + change (up_todo c None) with 1. lia.
    - destruct (work !! i) as [[k [|u us] []]|] eqn:E; try discriminate. injection H as <-. projs.
      pose proof (sum_insert (hnd_todo c) _ _ _ (Hnd k (u :: us) true) E) as Hs.
      unfold hnd_todo at 2 4 in Hs. cbn in Hs. lia.
    - destruct (work !! i) as [[k [|u us] []]|] eqn:E; try discriminate. injection H as <-. projs.
      pose proof (sum_insert (hnd_todo c) _ _ _ (Hnd k us false) E) as Hs.
      unfold hnd_todo at 2 4 in Hs. cbn in Hs. lia.
    - destruct (work !! i) as [[k [|u us] []]|] eqn:E; try discriminate. injection H as <-. projs.
      rewrite sum_snoc, (sum_delete _ _ _ _ E). unfold hnd_todo at 1. cbn. lia.
    - destruct (rdy !! i) as [k|] eqn:E; [|discriminate]. destruct sw; [discriminate|]. injection H as <-. projs.
      rewrite (sum_delete _ _ _ _ E). unfold resp_todo at 1. lia.
    - destruct sw as [[|t r]|]; try discriminate. destruct_if H Hlt. injection H as <-. projs.
      rewrite toks_rest, toks_snoc, toks_cons. lia.
    - destruct down as [|t down]; try discriminate. destruct rd; [|discriminate]. injection H as <-. projs.
      rewrite toks_cons. lia.
  Qed.

  Lemma fstep_todo s e s' :
    internal e -> step s e = Some s' -> todo 0 (fl_conns s) = S (todo 0 (fl_conns s')).
  Proof.
    intros Hi H. destruct (fstep_inv _ _ _ H) as [[-> ->]|(c & f & f' & Hp & Hf & Hs & -> & _)]; [done|].
    pose proof (todo_insert _ 0 _ _ f' Hf) as Ht.
    rewrite Nat.add_0_l, (conn_step_todo _ _ _ _ Hi Hs) in Ht. lia.
  Qed.

  Lemma fruns_todo es s s' :
    Forall internal es -> runs s es = Some s' -> todo 0 (fl_conns s) = length es + todo 0 (fl_conns s').
  Proof.
    intros Hi. revert s. induction Hi as [|e es He Hi IH]; intros s H; cbn in H.
    - by injection H as <-.
    - destruct (step s e) as [s1|] eqn:E; [|discriminate].
      rewrite (fstep_todo _ _ _ He E), (IH _ H). done.
  Qed.

  (** ** Somebody can always go on *)

  Hypothesis Hup : 0 < cap_up.
  Hypothesis Hdown : 0 < cap_down.

  (** Steps for which no other client is needed. *)
  Definition helps (c : nat) (e : fevent) : Prop :=
    internal e /\ (place e = Some c \/ exists d i, e = FFree d i).

  Lemma step_at s c f e f' :
    place e = Some c -> fl_conns s !! c = Some f -> cstep c f e = Some f' ->
    (forall i, e <> FGrab c i) -> exists s', step s e = Some s'.
  Proof.
    intros Hp Hf Hs Hg. unfold fstep. rewrite Hp, Hf, Hs.
    destruct e; eauto. injection Hp as ->. by destruct (Hg i).
  Qed.

  Lemma progress es s c f :
    flow_ok es s -> fl_conns s !! c = Some f -> f_reads f = true ->
    (exists e s', helps c e /\ step s e = Some s')
    \/ f = FConn true [] None [] [] [] None [] (f_done f).
  Proof.
    intros Hok Hf Hrd. destruct (ok_conns _ _ Hok _ _ Hf) as [Hc Hcw Hsw _ _ _ Hh _].
    destruct f as [rd new cw up work rdy sw down done]; cbn in *. subst rd.
    assert (Hgo : forall e f', internal e -> place e = Some c -> (forall i, e <> FGrab c i) ->
        cstep c (FConn true new cw up work rdy sw down done) e = Some f' ->
        exists e s', helps c e /\ step s e = Some s').
    { intros e f' Hi Hp Hg Hs. destruct (step_at _ _ _ _ _ Hp Hf Hs Hg) as [s' Hs']. exists e, s'. by split; [split; auto|]. }
    destruct down as [|t down].
    2: { left. by eapply (Hgo (FGet c)). }
    destruct sw as [[|t r]|]; [done| |].
    { left. eapply (Hgo (FPut c)); try done. cbn -[Nat.ltb].
      by rewrite (proj2 (Nat.ltb_lt 0 cap_down)). }
    destruct rdy as [|k rdy].
    2: { left. by eapply (Hgo (FSend c 0)). }
    destruct work as [|[k us b] work].
    2: { left. apply Forall_cons in Hh as [Hh _]; cbn in Hh. destruct us as [|u us].
         - destruct b; [by specialize (Hh eq_refl)|]. by eapply (Hgo (FFinish c 0)).
         - destruct b; [by eapply (Hgo (FFree c 0))|].
           destruct (free s u) as [|n] eqn:Efree.
           + assert (Hpos : 0 < holds u (fl_conns s)).
             { pose proof (ok_read _ _ Hok). pose proof (ok_write _ _ Hok).
               unfold flow_reads, flow_writes in *. destruct u; cbn in Efree; lia. }
             destruct (holds_pos _ _ Hpos) as (d & g & i & k' & us' & Hg & Hi).
             exists (FFree d i). destruct g as [rd' new' cw' up' work' rdy' sw' down' done']; cbn in Hi.
             assert (exists s', step s (FFree d i) = Some s') as [s' Hs'].
             { eapply step_at; [done|exact Hg| |done]. cbn. by rewrite Hi. }
             exists s'. split; [|done]. split; [done|]. right; eauto.
           + exists (FGrab c 0). unfold fstep. cbn. rewrite Hf. cbn. unfold use_of. cbn. rewrite Efree.
             eexists. split; [|done]. by split; [|left]. }
    destruct up as [|t up].
    2: { left. by eapply (Hgo (FRead c)). }
    destruct cw as [[|t r]|]; [done| |].
    { left. eapply (Hgo (FWrite c)); try done. cbn -[Nat.ltb].
      by rewrite (proj2 (Nat.ltb_lt 0 cap_up)). }
    destruct new as [|k new]; [by right|].
    left. by eapply (Hgo (FTake c 0)).
  Qed.

  (** A connection where nothing is under way has answered everything. *)
  Lemma quiet_done es s c d :
    flow_ok es s -> fl_conns s !! c = Some (FConn true [] None [] [] [] None [] d) ->
    Permutation d (issued es c).
  Proof.
    intros Hok Hf. apply (Permutation_count_occ Nat.eq_dec). intros k.
    rewrite (ok_calls _ _ _ (ok_conns _ _ Hok _ _ Hf) k). done.
  Qed.

  Lemma issued_internal es c : Forall internal es -> issued es c = [].
  Proof. induction 1 as [|e es He]; [done|]. by destruct e. Qed.
  Lemma stop_internal es c : Forall internal es -> FStop c ∉ es.
  Proof. intros H Hin. rewrite Forall_forall in H. by apply (H _ Hin). Qed.

  Lemma conn_reads es s c f :
    flow_ok es s -> fl_conns s !! c = Some f -> FStop c ∉ es -> f_reads f = true.
  Proof.
    intros Hok Hf Hst. destruct (f_reads f) eqn:E; [done|].
    by destruct (Hst (ok_reads _ _ _ (ok_conns _ _ Hok _ _ Hf) E)).
  Qed.

  (** Without the other clients. *)
  Lemma gets_through es s c :
    flow_ok es s -> FStop c ∉ es ->
    exists es' s', Forall (helps c) es' /\ runs s es' = Some s' /\ Permutation (answered s' c) (issued es c).
  Proof.
    remember (todo 0 (fl_conns s)) as n eqn:Hn. revert es s Hn.
    induction n as [n IH] using lt_wf_ind. intros es s Hn Hok Hst.
    destruct (fl_conns s !! c) as [f|] eqn:Hf.
    - destruct (progress es s c f Hok Hf (conn_reads _ _ _ _ Hok Hf Hst)) as [(e & s' & He & Hs)|Hq].
      + pose proof He as [Hi _]. pose proof (fstep_todo _ _ _ Hi Hs) as Hd.
        destruct (IH (todo 0 (fl_conns s')) ltac:(lia) (es ++ [e]) s') as (es' & s'' & Hall & Hr & Hp); [done|by apply fstep_ok with s| |].
        { intros Hin. apply elem_of_app in Hin as [?|Hin]; [done|].
          apply elem_of_list_singleton in Hin as <-. done. }
        exists (e :: es'), s''. split; [by constructor|]. cbn. rewrite Hs. split; [done|].
        rewrite Hp, issued_app. destruct e; done || by rewrite app_nil_r.
      + exists [], s. split; [done|]. split; [done|]. unfold answered. rewrite Hf.
        rewrite Hq in Hf. by apply (quiet_done _ _ _ _ Hok Hf).
    - exists [], s. split; [done|]. split; [done|]. unfold answered. by rewrite Hf, (ok_none _ _ Hok _ Hf).
  Qed.
End Proofs.
