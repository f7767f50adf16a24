(** * PropertiesFlow: nobody waits for ever (C66)

    Statements about [Flow]: pipes that hold a bounded number of bytes, one sender per end,
    at most 4096 unfinished requests per connection, a pool of connections to the store. *)

From Verif Require Import Base Flow FlowProofs.
From Coq Require Import Permutation.

Section C66.
  (** Whatever the pipes hold (a byte is enough), however long requests and answers are, however
      often and in whatever order a handler uses the store. *)
  Variables cap_up cap_down : nat.
  Variables req_len resp_len : nat -> nat -> nat.
  Variable uses : nat -> nat -> list bool.
  Notation step := (fstep cap_up cap_down req_len resp_len uses).
  Notation runs := (fruns cap_up cap_down req_len resp_len uses).

  (** From wherever clients and server have got to, in any order: if no more calls are made, they come to
      rest after a bounded number of steps, and when they do, every call of every client that reads has its
      answer, once. *)
  Theorem C66_all_answered es s :
    0 < cap_up -> 0 < cap_down ->
    runs finit es = Some s ->
    exists n, forall es' s', Forall internal es' -> runs s es' = Some s' ->
      length es' <= n
      /\ ((forall e, internal e -> step s' e = None) ->
          forall c, FStop c ∉ es -> Permutation (answered s' c) (issued es c)).
  Proof.
    intros Hu Hd Hs. exists (todo req_len resp_len uses 0 (fl_conns s)). intros es' s' Hi Hr. split.
    - rewrite (fruns_todo _ _ _ _ _ _ _ _ Hi Hr). lia.
    - intros Hrest c Hc. pose proof (reach_ok _ _ _ _ _ _ _ Hs) as Hok.
      pose proof (fruns_ok _ _ _ _ _ _ _ _ _ Hok Hr) as Hok'.
      assert (Hc' : FStop c ∉ es ++ es').
      { intros [?|?]%elem_of_app; [done|]. by apply (stop_internal es' c). }
      assert (Hiss : issued (es ++ es') c = issued es c).
      { unfold issued. rewrite omap_app. fold (issued es c) (issued es' c).
        by rewrite (issued_internal _ _ Hi), app_nil_r. }
      unfold answered. destruct (fl_conns s' !! c) as [f|] eqn:Hf.
      + destruct (progress cap_up cap_down req_len resp_len uses Hu Hd _ _ _ _ Hok' Hf (conn_reads _ _ _ _ _ _ Hok' Hf Hc'))
          as [(e & s1 & [He _] & Hs1)|Hq].
        * by rewrite (Hrest e He) in Hs1.
        * rewrite Hq in Hf. rewrite <- Hiss. by apply (quiet_done _ _ _ _ _ _ Hok' Hf).
      + by rewrite <- Hiss, (ok_none _ _ _ _ Hok' _ Hf).
  Qed.

  (** What the other clients do, or fail to do, is no obstacle: from wherever all have got to, the calls of a
      client that reads are answered by steps of its own connection alone, and of handlers that
      give back a connection to the store. *)
  Theorem C66_others_not_needed es s c :
    0 < cap_up -> 0 < cap_down ->
    runs finit es = Some s -> FStop c ∉ es ->
    exists es' s',
      Forall (fun e => internal e /\ (place e = Some c \/ exists d i, e = FFree d i)) es'
      /\ runs s es' = Some s'
      /\ Permutation (answered s' c) (issued es c).
  Proof.
    intros Hu Hd Hs Hc.
    destruct (gets_through cap_up cap_down req_len resp_len uses Hu Hd es s c (reach_ok _ _ _ _ _ _ _ Hs) Hc) as (es' & s' & H).
    by exists es', s'.
  Qed.

  (** What is kept for a connection is bounded, whatever its client does. *)
  Theorem C66_bounded es s c f :
    runs finit es = Some s -> fl_conns s !! c = Some f ->
    length (f_up f) <= cap_up /\ length (f_down f) <= cap_down
    /\ length (f_work f) + length (f_rdy f) + match f_sw f with Some _ => 1 | None => 0 end <= N.to_nat 4096.
  Proof.
    intros Hs Hf. destruct (ok_conns _ _ _ _ (reach_ok _ _ _ _ _ _ _ Hs) _ _ Hf) as []. done.
  Qed.

  (** At no time do more than one of all handlers write to the store, nor more than three read from it. *)
  Definition at_store (w : bool) (h : handler) : bool :=
    match h with Hnd _ (u :: _) true => Bool.eqb u w | _ => false end.
  Theorem C66_store_shared es s :
    runs finit es = Some s ->
    length (List.filter (at_store true) (concat (map f_work (fl_conns s)))) <= 1
    /\ length (List.filter (at_store false) (concat (map f_work (fl_conns s)))) <= 3.
  Proof.
    intros Hs. destruct (reach_ok _ _ _ _ _ _ _ Hs) as [_ _ Hr Hw].
    assert (E : forall w, length (List.filter (at_store w) (concat (map f_work (fl_conns s))))
      = holds w (fl_conns s)).
    { clear Hr Hw. intros w. induction (fl_conns s) as [|f l IH]; [done|]. cbn [map concat holds].
      rewrite List.filter_app, app_length, IH. f_equal. induction (f_work f) as [|h m IHm]; [done|].
      cbn [List.filter hold]. rewrite <- IHm.
      destruct h as [k [|u us] []]; cbn; try done; by destruct u, w. }
    rewrite !E. change flow_writes with 1 in Hw. change flow_reads with 3 in Hr. lia.
  Qed.
End C66.

Print Assumptions C66_all_answered.
Print Assumptions C66_others_not_needed.
Print Assumptions C66_bounded.
Print Assumptions C66_store_shared.

(** Two clients over pipes of two bytes; client 0 stops reading, with an answer that does not fit; its handler and
      that of client 1 both write to the store. *)
Definition flow_demo : list fevent :=
  [FConnect; FConnect; FIssue 0 7; FIssue 1 8; FTake 0 0; FTake 1 0; FWrite 0; FWrite 1; FWrite 0; FRead 0;
   FStop 0; FRead 0; FGrab 0 0; FWrite 1].
Definition flow_demo_run (es : list fevent) : option flow :=
  fruns 2 2 (fun _ _ => 1) (fun _ _ => 4) (fun _ _ => [false; true]) finit es.

(** The hypotheses are met: client 1 reads, its call is on the way. *)
Example C66_case :
  exists s, flow_demo_run flow_demo = Some s /\ FStop 1 ∉ flow_demo /\ issued flow_demo 1 = [8] /\ answered s 1 = [].
Proof.
  eexists. split; [vm_compute; reflexivity|]. split; [|done].
  intros H. repeat (apply elem_of_cons in H as [H|H]; [discriminate|]). by apply elem_of_nil in H.
Qed.

(** There, handler 0 of client 0 reads from the store and handler 0 of client 1 writes to it. *)
Example C66_case_store :
  exists s, flow_demo_run (flow_demo ++ [FFree 0 0; FRead 1; FRead 1; FGrab 0 0; FGrab 1 0]) = Some s
    /\ map (fun w => length (List.filter (at_store w) (concat (map f_work (fl_conns s))))) [true; false] = [1; 1]
    /\ flow_demo_run (flow_demo ++ [FFree 0 0; FRead 1; FRead 1; FGrab 0 0; FGrab 1 0; FFree 1 0; FGrab 1 0]) = None.
Proof. eexists. split; [vm_compute; reflexivity|]. split; by vm_compute. Qed.

(** It gets its answer, after handler 0 of client 0 has given back the connection it writes with. *)
Definition flow_demo_on : list fevent :=
  [FFree 0 0; FGrab 0 0; FRead 1; FRead 1; FGrab 1 0; FFree 1 0; FFree 0 0; FGrab 1 0; FFree 1 0; FFinish 1 0;
   FSend 1 0; FPut 1; FPut 1; FGet 1; FPut 1; FGet 1; FPut 1; FGet 1; FPut 1; FGet 1; FGet 1].
Example C66_case_on :
  exists s, flow_demo_run (flow_demo ++ flow_demo_on) = Some s /\ answered s 1 = [8] /\ answered s 0 = [].
Proof. eexists. split; [vm_compute; reflexivity|]. done. Qed.

(** A client that does not read waits for ever, with all its later calls: no part of a connection gives up a
    send that makes no progress (the 30 seconds of a call begin after its request is sent,
    [async_io.rs:146-151]). *)
Theorem C66_unread_waits :
  exists cap_up cap_down req_len resp_len uses es s,
    0 < cap_up /\ 0 < cap_down
    /\ fruns cap_up cap_down req_len resp_len uses finit es = Some s
    /\ issued es 0 = [7] /\ answered s 0 = []
    /\ forall e, internal e -> fstep cap_up cap_down req_len resp_len uses s e = None.
Proof.
  exists 2, 2, (fun _ _ => 1), (fun _ _ => 4), (fun _ _ => []),
    [FConnect; FIssue 0 7; FStop 0; FTake 0 0; FWrite 0; FWrite 0; FRead 0; FRead 0; FFinish 0 0; FSend 0 0; FPut 0; FPut 0].
  eexists. split; [lia|]. split; [lia|]. split; [vm_compute; reflexivity|]. split; [done|]. split; [done|].
  intros e He. unfold fstep. destruct e; cbn in He |- *; try done; destruct c as [|c]; cbn; try done; destruct i; done.
Qed.
Print Assumptions C66_unread_waits.
