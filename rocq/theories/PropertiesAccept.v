(** * PropertiesAccept: taking in connections (C65) *)

From Verif Require Import Base Accept.
From Coq Require Import ZifyBool ZifyNat.

(** ** Vocabulary *)

(** The clients that connected, in order, each at its first attempt. *)
Fixpoint arrivals (seen : list nat) (evs : list aevent) : list nat :=
  match evs with
  | [] => seen
  | AArrive c :: evs => arrivals (if bool_decide (c ∈ seen) then seen else seen ++ [c]) evs
  | _ :: evs => arrivals seen evs
  end.

(** Connections the process holds open. *)
Definition held (s : listener) : nat := length (l_shake s) + length (l_serve s).

(** The operating system reports no failure of its own. *)
Definition no_failure (evs : list aevent) : Prop := APoll true ∉ evs.

(** At no point of the history does the process run out of files. *)
Definition files_left (files : nat) (evs : list aevent) : Prop :=
  forall p, p `prefix_of` evs -> held (arun files p) < files.

(** Every handshake that ends, ends well. *)
Definition all_well (evs : list aevent) : Prop := forall c, AShake c false ∉ evs.

(** ** Lemmas *)

Section Facts.
  Variable files : nat.
  Notation step := (astep files).
  Notation run := (arun files).

  Lemma run_snoc evs e : run (evs ++ [e]) = step (run evs) e.
  Proof. unfold arun. by rewrite fold_left_app. Qed.

  Lemma run_app evs evs' : run (evs ++ evs') = fold_left step evs' (run evs).
  Proof. unfold arun. by rewrite fold_left_app. Qed.

  Lemma arrivals_app seen evs evs' :
    arrivals seen (evs ++ evs') = arrivals (arrivals seen evs) evs'.
  Proof. revert seen. induction evs as [|[] evs IH]; intros seen; cbn; auto. Qed.

  Definition others (c : nat) (l : list nat) : list nat :=
    List.filter (fun d => negb (d =? c)) l.

  Lemma others_id c l : c ∉ l -> others c l = l.
  Proof.
    induction l as [|x l IH]; intros H; [done|]. apply not_elem_of_cons in H as [H1 H2]. cbn.
    destruct (Nat.eqb_spec x c) as [->|]; [done|]. cbn. f_equal. by apply IH.
  Qed.

  Lemma others_in c d l : d ∈ others c l <-> d ∈ l /\ d <> c.
  Proof.
    unfold others. rewrite !elem_of_list_In, filter_In.
    split; intros [H1 H2]; split; auto; [|];
      destruct (Nat.eqb_spec d c); try done.
  Qed.

  Lemma others_perm (c : nat) l : NoDup l -> c ∈ l -> c :: others c l ≡ₚ l.
  Proof.
    induction l as [|x l IH]; intros Hn Hc; [by apply elem_of_nil in Hc|].
    apply NoDup_cons in Hn as [Hx Hn]. cbn.
    destruct (Nat.eqb_spec x c) as [->|Hne]; cbn.
    - fold (others c l). by rewrite (others_id c l Hx).
    - apply elem_of_cons in Hc as [->|Hc]; [done|].
      fold (others c l). rewrite perm_swap. by rewrite (IH Hn Hc).
  Qed.

  Definition inv (A : list nat) (s : listener) : Prop :=
    NoDup A
    /\ A = l_taken s ++ l_refused s ++ l_wait s
    /\ l_taken s ≡ₚ l_shake s ++ l_serve s ++ l_gone s
    /\ (if l_open s then l_refused s = [] else l_wait s = [])
    /\ length (l_shake s) <= accept_cap.

  Lemma inv_known A s c : inv A s -> known s c = bool_decide (c ∈ A).
  Proof.
    intros (_ & -> & Hp & _). unfold known. apply bool_decide_ext.
    rewrite !elem_of_app. rewrite Hp, !elem_of_app. tauto.
  Qed.

  Lemma inv_step A s e : inv A s -> inv (arrivals A [e]) (step s e).
  Proof.
    intros Hi. pose proof (inv_known A s) as Hk. pose proof Hi as (Hn & HA & Hp & Ho & Hc).
    destruct e as [c|fail|c ok|c]; cbn [arrivals astep].
    - rewrite (Hk c Hi). destruct (bool_decide (c ∈ A)) eqn:E; [done|].
      apply bool_decide_eq_false in E.
      assert (NoDup (A ++ [c])) as HnA.
      { apply NoDup_app. split; [done|]. split; [|apply NoDup_singleton].
        intros x Hx Hx'. apply elem_of_list_singleton in Hx' as ->. done. }
      destruct (l_open s) eqn:Eo; cbn; (split_and!; [done| |done|done|done]); cbn; rewrite HA, <- !app_assoc; [done|].
      rewrite Ho. by rewrite app_nil_r.
    - destruct (l_open s) eqn:Eo; cbn [andb]; [|done].
      destruct (length (l_shake s) <? accept_cap) eqn:El; [|done].
      assert (inv A (lose_socket s)) as Hl.
      { unfold lose_socket. split_and!; cbn; [done| |done|done|done]. by rewrite app_nil_r. }
      destruct fail; [done|].
      destruct (l_wait s) as [|c q] eqn:Ew; [done|].
      destruct (files <=? length (l_shake s) + length (l_serve s)); [done|].
      split_and!; cbn; [done| | |done|].
      + rewrite HA, Ho. cbn. by rewrite <- app_assoc.
      + rewrite Hp. solve_Permutation.
      + rewrite app_length. cbn [length]. apply Nat.ltb_lt in El. lia.
    - destruct (bool_decide (c ∈ l_shake s)) eqn:E; [|done]. apply bool_decide_eq_true in E.
      assert (NoDup (l_taken s)) as Ht by (rewrite HA in Hn; by apply NoDup_app in Hn as (? & _)).
      rewrite Hp in Ht. apply NoDup_app in Ht as (Hs & _).
      pose proof (others_perm c _ Hs E) as Hq.
      assert (length (others c (l_shake s)) <= accept_cap).
      { apply Permutation_length in Hq. cbn in Hq. lia. }
      destruct ok; (split_and!; cbn; [done|done| |done|done]); fold (others c (l_shake s)).
      + rewrite Hp, <- Hq at 1. solve_Permutation.
      + rewrite Hp, <- Hq at 1. solve_Permutation.
    - destruct (bool_decide (c ∈ l_serve s)) eqn:E; [|done]. apply bool_decide_eq_true in E.
      assert (NoDup (l_taken s)) as Ht by (rewrite HA in Hn; by apply NoDup_app in Hn as (? & _)).
      rewrite Hp in Ht. apply NoDup_app in Ht as (_ & _ & Hs). apply NoDup_app in Hs as (Hs & _).
      pose proof (others_perm c _ Hs E) as Hq.
      split_and!; cbn; [done|done| |done|done]. fold (others c (l_serve s)).
      rewrite Hp, <- Hq at 1. solve_Permutation.
  Qed.

  Lemma inv_run evs : inv (arrivals [] evs) (run evs).
  Proof.
    induction evs as [|e evs IH] using rev_ind.
    - cbn. split_and!; cbn; [by apply NoDup_nil_2|done|done|done|lia].
    - rewrite run_snoc, arrivals_app. by apply inv_step.
  Qed.

  (** *** A listener that still listens *)

  Lemma open_run evs : no_failure evs -> files_left files evs -> l_open (run evs) = true.
  Proof.
    induction evs as [|e evs IH] using rev_ind; intros Hf Hl; [done|].
    rewrite run_snoc.
    assert (l_open (run evs) = true) as Ho.
    { apply IH; [|].
      - unfold no_failure in *. set_solver.
      - intros p Hp. apply Hl. by apply prefix_app_r. }
    pose proof (Hl evs (prefix_app_r _ _ _ (reflexivity _))) as Hh. unfold held in Hh.
    destruct e as [c|fail|c ok|c]; cbn; repeat case_match; try done; [|].
    - exfalso. subst fail. apply Hf. set_solver.
    - exfalso. lia.
  Qed.

  (** *** What is under way stays under way *)

  Lemma shake_step s e c :
    c ∈ l_shake s -> (forall ok, e <> AShake c ok) -> c ∈ l_shake (step s e).
  Proof.
    intros Hc He. unfold astep, lose_socket. repeat case_match; subst; cbn; try done; try set_solver.
    all: apply others_in; split; [done|]; intros ->; by eapply He.
  Qed.

  Lemma serve_step s e c : c ∈ l_serve s -> e <> AClose c -> c ∈ l_serve (step s e).
  Proof.
    intros Hc He. unfold astep, lose_socket. repeat case_match; subst; cbn; try done; try set_solver.
    apply others_in; split; [done|]; intros ->; by apply He.
  Qed.

  Lemma shake_steps evs s c :
    c ∈ l_shake s -> (forall ok, AShake c ok ∉ evs) -> c ∈ l_shake (fold_left step evs s).
  Proof.
    revert s. induction evs as [|e evs IH]; intros s Hc He; [done|]. cbn. apply IH.
    - apply shake_step; [done|]. intros ok ->. apply (He ok). set_solver.
    - intros ok H. apply (He ok). set_solver.
  Qed.

  Lemma serve_steps evs s c :
    c ∈ l_serve s -> AClose c ∉ evs -> c ∈ l_serve (fold_left step evs s).
  Proof.
    revert s. induction evs as [|e evs IH]; intros s Hc He; [done|]. cbn. apply IH.
    - apply serve_step; [done|]. intros ->. apply He. set_solver.
    - set_solver.
  Qed.

  (** *** A listener that is lost *)

  Lemma closed_steps evs s : l_open s = false -> l_wait s = [] ->
    let s' := fold_left step evs s in
    l_open s' = false /\ l_wait s' = [] /\ l_taken s' = l_taken s.
  Proof.
    revert s. induction evs as [|e evs IH]; intros s Ho Hw; [done|]. cbn.
    assert (l_open (step s e) = false /\ l_wait (step s e) = [] /\ l_taken (step s e) = l_taken s) as (H1 & H2 & H3).
    { destruct e; cbn; rewrite ?Ho; cbn; repeat case_match; cbn; auto. }
    destruct (IH _ H1 H2) as (? & ? & ?). split_and!; congruence.
  Qed.
End Facts.

Lemma arrivals_mono evs evs' : length (arrivals [] evs) <= length (arrivals [] (evs ++ evs')).
Proof.
  rewrite arrivals_app. generalize (arrivals [] evs) as l.
  induction evs' as [|[c| | |] evs' IH]; intros l; cbn; auto.
  etrans; [|apply IH]. case_bool_decide; [done|]. rewrite app_length. lia.
Qed.

Lemma held_arrivals files evs : held (arun files evs) <= length (arrivals [] evs).
Proof.
  destruct (inv_run files evs) as (_ & -> & Hp & _). unfold held.
  apply Permutation_length in Hp. rewrite !app_length in *. lia.
Qed.

Lemma poll_takes files s c q :
  l_open s = true -> l_wait s = c :: q -> length (l_shake s) < accept_cap ->
  length (l_shake s) + length (l_serve s) < files ->
  astep files s (APoll false)
  = Lst true q (l_shake s ++ [c]) (l_serve s) (l_gone s) (l_refused s) (l_taken s ++ [c]).
Proof.
  intros Ho Hw Hc Hf. unfold astep.
  rewrite Ho, Hw, (proj2 (Nat.ltb_lt _ _) Hc), (proj2 (Nat.leb_gt _ _) Hf). done.
Qed.

(** Checking [files_left] on a given history. *)
Lemma files_left_check files evs :
  forallb (fun n => held (arun files (take n evs)) <? files) (seq 0 (S (length evs))) = true ->
  files_left files evs.
Proof.
  intros H p [q ->]. rewrite forallb_forall in H.
  specialize (H (length p)). rewrite take_app in H. apply Nat.ltb_lt, H, in_seq.
  rewrite app_length. lia.
Qed.

(** ** C65: a client that connects is taken in *)

(** As long as the operating system reports no failure and the process has files left,
    the server listens, turns nobody away, and takes in whoever waits: the client with
    [k] others before it after [k + 1] turns of the loop, if that leaves no more than
    4096 handshakes unfinished.  Missing: the two provisos, see the refutations. *)
Theorem C65_taken_in_partial files evs :
  no_failure evs -> files_left files evs ->
  l_open (arun files evs) = true
  /\ l_refused (arun files evs) = []
  /\ forall k c, l_wait (arun files evs) !! k = Some c ->
       length (l_shake (arun files evs)) + k < N.to_nat 4096 ->
       held (arun files evs) + k < files ->
       c ∈ l_shake (arun files (evs ++ repeat (APoll false) (S k))).
Proof.
  intros Hf Hl. pose proof (open_run files evs Hf Hl) as Ho.
  destruct (inv_run files evs) as (_ & _ & _ & Hr & _). rewrite Ho in Hr.
  split_and!; [done|done|]. change (N.to_nat 4096) with accept_cap. intros k c.
  intros Hk Hs Hh. unfold held in Hh. rewrite run_app.
  clear Hf Hl Hr. revert Hk Hs Hh Ho. generalize (arun files evs) as s. clear evs.
  induction k as [|k IH]; intros s Hk Hs Hh Ho; destruct (l_wait s) as [|d q] eqn:Ew; try done.
  - injection Hk as ->. cbn [repeat fold_left].
    rewrite (poll_takes files s c q) by (done || lia). cbn. set_solver.
  - change (repeat (APoll false) (S (S k))) with (APoll false :: repeat (APoll false) (S k)).
    cbn [fold_left].
    rewrite (poll_takes files s d q) by (done || lia). apply IH; cbn [l_wait l_shake l_serve l_open]; [done| | |done].
    + rewrite app_length. cbn [length]. lia.
    + rewrite app_length. cbn [length]. lia.
Qed.

(** Two clients wait behind one that is being served and one in its handshake. *)
Example C65_taken_in_ex :
  let evs := [AArrive 5; AArrive 6; APoll false; AShake 5 true; APoll false; AArrive 7; AArrive 8] in
  no_failure evs /\ files_left 4 evs
  /\ l_wait (arun 4 evs) !! 1 = Some 8 /\ held (arun 4 evs) + 1 < 4
  /\ l_shake (arun 4 (evs ++ [APoll false; APoll false])) = [6; 7; 8].
Proof.
  cbn zeta. split_and!.
  - unfold no_failure. set_solver.
  - apply files_left_check. vm_compute. reflexivity.
  - vm_compute. reflexivity.
  - vm_compute. lia.
  - vm_compute. reflexivity.
Qed.

(** Connections are taken in the order in which they arrive, each at most once, and
    none gets lost: whoever connected was taken, was turned away or still waits.  Who
    was taken is in its handshake, is being served or has left.  There are never more
    than 4096 unfinished handshakes. *)
Theorem C65_order files evs :
  arrivals [] evs
  = l_taken (arun files evs) ++ l_refused (arun files evs) ++ l_wait (arun files evs)
  /\ NoDup (arrivals [] evs)
  /\ l_taken (arun files evs)
     ≡ₚ l_shake (arun files evs) ++ l_serve (arun files evs) ++ l_gone (arun files evs)
  /\ length (l_shake (arun files evs)) <= N.to_nat 4096.
Proof. destruct (inv_run files evs) as (Hn & HA & Hp & _ & Hc). split_and!; done. Qed.

Example C65_order_ex :
  let evs := [AArrive 5; AArrive 6; APoll false; AArrive 5; AShake 5 false; APoll false; APoll true; AArrive 4] in
  arrivals [] evs = [5; 6; 4]
  /\ l_taken (arun 9 evs) = [5; 6] /\ l_refused (arun 9 evs) = [4]
  /\ l_shake (arun 9 evs) = [6] /\ l_gone (arun 9 evs) = [5].
Proof. vm_compute. split_and!; reflexivity. Qed.

(** A connection depends on nobody else once it was taken: whatever other clients do,
    however their handshakes end, and even if the server stops listening, its handshake
    goes on until it ends, then it is served, until it hangs up. *)
Theorem C65_own files evs evs1 evs2 c :
  c ∈ l_shake (arun files evs) ->
  (forall ok, AShake c ok ∉ evs1) -> AClose c ∉ evs2 ->
  c ∈ l_shake (arun files (evs ++ evs1))
  /\ c ∈ l_serve (arun files (evs ++ evs1 ++ AShake c true :: evs2)).
Proof.
  intros Hc H1 H2.
  assert (c ∈ l_shake (arun files (evs ++ evs1))) as Hs.
  { rewrite run_app. by apply shake_steps. }
  split; [done|]. rewrite app_assoc, run_app. cbn [fold_left]. apply serve_steps; [|done].
  unfold astep. rewrite bool_decide_true by done. cbn. set_solver.
Qed.

Example C65_own_ex :
  let evs := [AArrive 5; AArrive 6; APoll false; APoll false] in
  let evs1 := [AShake 6 false; APoll true; AArrive 7] in
  5 ∈ l_shake (arun 9 evs) /\ l_open (arun 9 (evs ++ evs1)) = false
  /\ l_serve (arun 9 (evs ++ evs1 ++ [AShake 5 true; AArrive 8])) = [5].
Proof. cbn zeta. split_and!; [|vm_compute; reflexivity..]. vm_compute. set_solver. Qed.

(** *** Refuted: clients that behave well cannot keep others out for good

    However many files the process may open, that many clients, each completing its
    handshake, and one more, make the server stop listening for ever: all of them
    leave, and still nobody who connects from then on is ever taken in. *)

Lemma fill files n : n <= files ->
  arun files (flat_map (fun i => [AArrive i; APoll false; AShake i true]) (seq 0 n))
  = Lst true [] [] (rev (seq 0 n)) [] [] (seq 0 n).
Proof.
  induction n as [|n IH]; intros Hn; [done|].
  rewrite seq_S, flat_map_app, run_app, IH by lia. cbn [flat_map fold_left Nat.add app].
  set (s := Lst true [] [] (rev (seq 0 n)) [] [] (seq 0 n)).
  assert (astep files s (AArrive n) = Lst true [n] [] (rev (seq 0 n)) [] [] (seq 0 n)) as E.
  { unfold astep, known. rewrite bool_decide_false; [done|]. cbn. rewrite app_nil_r.
    rewrite elem_of_list_In, <- in_rev, in_seq. lia. }
  rewrite E, (poll_takes files _ n []); [|done|done|vm_compute; lia|cbn [l_shake l_serve length]].
  2: { rewrite rev_length, seq_length. lia. }
  unfold astep. cbn [l_shake l_serve app]. rewrite bool_decide_true by set_solver.
  cbn. rewrite Nat.eqb_refl. cbn. by rewrite rev_app_distr.
Qed.

Lemma all_leave files l s :
  NoDup l -> l_serve s = l ->
  let s' := fold_left (astep files) (map AClose l) s in
  l_serve s' = [] /\ l_shake s' = l_shake s /\ l_open s' = l_open s /\ l_wait s' = l_wait s.
Proof.
  revert s. induction l as [|c l IH]; intros s Hn Hs; [done|]. cbn [map fold_left].
  apply NoDup_cons in Hn as [Hc Hn].
  set (s1 := astep files s (AClose c)).
  assert (l_serve s1 = l /\ l_shake s1 = l_shake s /\ l_open s1 = l_open s /\ l_wait s1 = l_wait s) as (H1 & H2 & H3 & H4).
  { unfold s1, astep. rewrite bool_decide_true by (rewrite Hs; set_solver). cbn.
    split_and!; [|done..]. rewrite Hs. cbn. rewrite Nat.eqb_refl. cbn. by apply others_id. }
  destruct (IH s1 Hn H1) as (? & ? & ? & ?). split_and!; congruence.
Qed.

Theorem C65_listening_refuted files :
  exists evs,
    no_failure evs /\ all_well evs
    /\ held (arun files evs) = 0
    /\ forall evs' c, c ∉ arrivals [] evs ->
         AArrive c ∈ evs' ->
         c ∈ l_refused (arun files (evs ++ evs')).
Proof.
  set (e1 := flat_map (fun i => [AArrive i; APoll false; AShake i true]) (seq 0 files)).
  set (e2 := [AArrive files; APoll false]).
  set (e3 := map AClose (rev (seq 0 files))).
  exists (e1 ++ e2 ++ e3).
  assert (forall e, e ∈ e1 ++ e2 ++ e3 ->
    (exists i, e = AArrive i) \/ e = APoll false \/ (exists i, e = AShake i true) \/ (exists i, e = AClose i)) as He.
  { intros e. rewrite !elem_of_app. unfold e1, e2, e3. rewrite !elem_of_list_In, in_flat_map, in_map_iff.
    intros [(i & _ & Hi)|[Hi|(i & <- & _)]]; [| |by eauto].
    - cbn in Hi. destruct Hi as [<-|[<-|[<-|[]]]]; eauto.
    - cbn in Hi. destruct Hi as [<-|[<-|[]]]; eauto. }
  set (s := Lst false [] [] (rev (seq 0 files)) [] [files] (seq 0 files)).
  assert (arun files (e1 ++ e2) = s) as Es.
  { rewrite run_app. unfold e1. rewrite (fill files files) by lia. unfold e2. cbn [fold_left].
    assert (astep files (Lst true [] [] (rev (seq 0 files)) [] [] (seq 0 files)) (AArrive files)
      = Lst true [files] [] (rev (seq 0 files)) [] [] (seq 0 files)) as E.
    { unfold astep, known. rewrite bool_decide_false; [done|]. cbn. rewrite app_nil_r.
      rewrite elem_of_list_In, <- in_rev, in_seq. lia. }
    rewrite E. unfold astep. cbn [l_open l_shake l_serve l_wait length Nat.add].
    rewrite (proj2 (Nat.leb_le _ _)) by (rewrite rev_length, seq_length; lia). done. }
  assert (NoDup (rev (seq 0 files))) as Hn.
  { rewrite <- (Permutation_rev (seq 0 files)). apply NoDup_ListNoDup, seq_NoDup. }
  destruct (all_leave files _ s Hn eq_refl) as (H1 & H2 & H3 & H4).
  assert (arun files (e1 ++ e2 ++ e3) = fold_left (astep files) e3 s) as E3.
  { by rewrite app_assoc, run_app, Es. }
  split_and!.
  - intros H. apply He in H as [[? ?]|[?|[[? ?]|[? ?]]]]; done.
  - intros c H. apply He in H as [[? ?]|[?|[[? ?]|[? ?]]]]; done.
  - unfold held. rewrite E3. unfold e3. by rewrite H1, H2.
  - intros evs' c Hc Hc'.
    destruct (closed_steps files evs' (arun files (e1 ++ e2 ++ e3))) as (Ho & Hw & Ht).
    { by rewrite E3. } { by rewrite E3. }
    rewrite <- run_app in Ho, Hw, Ht.
    set (e := e1 ++ e2 ++ e3) in *.
    destruct (inv_run files (e ++ evs')) as (_ & HA & _).
    assert (c ∈ arrivals [] (e ++ evs')) as Hin.
    { rewrite arrivals_app. generalize (arrivals [] e) as l.
      clear -Hc'. intros l.
      assert (c ∈ l \/ AArrive c ∈ evs') as H by auto. clear Hc'. revert l H.
      induction evs' as [|x evs' IH]; intros l H; cbn.
      - destruct H as [H|H]; [done|by apply elem_of_nil in H].
      - assert (c ∈ l \/ x = AArrive c \/ AArrive c ∈ evs') as H' by set_solver.
        destruct x as [d| | |]; apply IH.
        + case_bool_decide; [|]; destruct H' as [?|[[= ->]|?]]; auto; left; set_solver.
        + destruct H' as [?|[?|?]]; auto; done.
        + destruct H' as [?|[?|?]]; auto; done.
        + destruct H' as [?|[?|?]]; auto; done. }
    rewrite HA, Hw, app_nil_r in Hin. apply elem_of_app in Hin as [Hin|Hin]; [|done].
    exfalso. apply Hc. destruct (inv_run files e) as (_ & -> & _). rewrite Ht in Hin. set_solver.
Qed.

(** *** Refuted: clients that connect and say nothing cannot keep others out

    A handshake has no time limit.  With 4096 of them unfinished the server takes in
    nobody, for as long as those clients please, whatever anybody else does. *)

Lemma stall files n : n <= accept_cap -> n <= files ->
  arun files (flat_map (fun i => [AArrive i; APoll false]) (seq 0 n))
  = Lst true [] (seq 0 n) [] [] [] (seq 0 n).
Proof.
  induction n as [|n IH]; intros Hn Hf; [done|].
  rewrite seq_S, flat_map_app, run_app, IH by lia. cbn [flat_map fold_left Nat.add app].
  set (s := Lst true [] (seq 0 n) [] [] [] (seq 0 n)).
  assert (astep files s (AArrive n) = Lst true [n] (seq 0 n) [] [] [] (seq 0 n)) as E.
  { unfold astep, known. rewrite bool_decide_false; [done|]. cbn. rewrite app_nil_r.
    rewrite elem_of_list_In, in_seq. lia. }
  rewrite E, (poll_takes files _ n []); [done|done|done|..]; cbn [l_shake l_serve length]; rewrite seq_length; lia.
Qed.

Lemma stalled files evs s :
  length (l_shake s) = accept_cap ->
  (forall i ok, i ∈ l_shake s -> AShake i ok ∉ evs) ->
  l_taken (fold_left (astep files) evs s) = l_taken s.
Proof.
  revert s. induction evs as [|e evs IH]; intros s Hl He; [done|]. cbn [fold_left].
  assert (l_shake (astep files s e) = l_shake s
    /\ l_taken (astep files s e) = l_taken s) as [H1 H2].
  { destruct e as [d|fail|d ok|d]; unfold astep.
    - by repeat case_match.
    - rewrite (proj2 (Nat.ltb_ge _ _)) by lia. by rewrite andb_false_r.
    - case_bool_decide; [|done]. exfalso. eapply He; [done|]. left.
    - by case_bool_decide. }
  rewrite IH; [done|by rewrite H1|].
  intros i ok Hi Hin. rewrite H1 in Hi. eapply He; [done|]. right. done.
Qed.

Theorem C65_stalled_refuted files :
  N.to_nat 4096 < files ->
  exists evs,
    no_failure evs /\ files_left files evs /\ l_open (arun files evs) = true
    /\ forall evs' c,
         (forall i ok, i ∈ l_shake (arun files evs) -> AShake i ok ∉ evs') ->
         c ∉ arrivals [] evs ->
         c ∉ l_taken (arun files (evs ++ evs')).
Proof.
  change (N.to_nat 4096) with accept_cap. intros Hf.
  set (evs := flat_map (fun i => [AArrive i; APoll false]) (seq 0 accept_cap)).
  assert (arun files evs = Lst true [] (seq 0 accept_cap) [] [] [] (seq 0 accept_cap)) as E
    by (apply stall; lia).
  assert (arrivals [] evs = seq 0 accept_cap) as EA.
  { destruct (inv_run files evs) as (_ & HA & _). rewrite HA, E. cbn. by rewrite app_nil_r. }
  exists evs. split_and!.
  - intros H. unfold evs in H. rewrite elem_of_list_In, in_flat_map in H.
    destruct H as (i & _ & [H|[H|[]]]); done.
  - intros p [q Hq]. eapply Nat.le_lt_trans; [apply held_arrivals|].
    eapply Nat.le_lt_trans; [apply (arrivals_mono p q)|]. rewrite <- Hq, EA, seq_length. done.
  - by rewrite E.
  - intros evs' c Hs Hc Hin.
    rewrite run_app, stalled in Hin; [|rewrite E; cbn [l_shake]; apply seq_length|done].
    apply Hc. rewrite EA. by rewrite E in Hin.
Qed.

Example C65_stalled_ex : N.to_nat 4096 < N.to_nat 65536.
Proof. apply Nat.ltb_lt. vm_compute. reflexivity. Qed.

Print Assumptions C65_taken_in_partial.
Print Assumptions C65_order.
Print Assumptions C65_own.
Print Assumptions C65_listening_refuted.
Print Assumptions C65_stalled_refuted.

(** *** When exactly the server stops listening, and whom it turns away *)

(** It stops listening at the first call of [accept] that fails, or finds a client waiting and no file
    left, and from then on for ever; it turns away those who came before without being taken in, and
    all who come after. *)
Theorem C65_stops_exactly files evs :
  (l_open (arun files evs) = false <->
   exists pre fail post, evs = pre ++ APoll fail :: post
     /\ l_open (arun files pre) = true /\ length (l_shake (arun files pre)) < N.to_nat 4096
     /\ (fail = true \/ l_wait (arun files pre) <> [] /\ files <= held (arun files pre)))
  /\ forall c, c ∈ l_refused (arun files evs) <->
       l_open (arun files evs) = false /\ c ∈ arrivals [] evs /\ c ∉ l_taken (arun files evs).
Proof.
  assert (forall s e, l_open s = false -> l_open (astep files s e) = false) as Hclosed.
  { intros s e Ho. destruct e as [c|f|c ok|c]; cbn [astep].
    - destruct (known s c); [done|]. by rewrite Ho.
    - by rewrite Ho.
    - case_bool_decide; [|done]. by destruct ok.
    - by case_bool_decide. }
  assert (forall more s, l_open s = false -> l_open (fold_left (astep files) more s) = false) as Hclosed'.
  { induction more as [|e more IH]; intros s Ho; [done|]. cbn. apply IH. by apply Hclosed. }
  split.
  - split.
    + induction evs as [|e evs IH] using rev_ind; [done|]. rewrite run_snoc. intros Ho.
      destruct (l_open (arun files evs)) eqn:Eo.
      2: { destruct (IH eq_refl) as (pre & f & post & -> & H). exists pre, f, (post ++ [e]). split; [by rewrite <- app_assoc|done]. }
      set (s := arun files evs) in *. destruct e as [c|f|c ok|c]; cbn [astep] in Ho.
      * exfalso. destruct (known s c); [congruence|]. by rewrite Eo in Ho.
      * rewrite Eo in Ho. cbn [andb] in Ho. unfold accept_cap in Ho.
        destruct (Nat.ltb_spec (length (l_shake s)) (N.to_nat 4096)) as [Hlt|]; [|congruence].
        exists evs, f, []. split; [done|]. split; [done|]. split; [done|].
        destruct f; [by left|]. destruct (l_wait s) as [|c q] eqn:Eq; [congruence|].
        destruct (Nat.leb_spec files (length (l_shake s) + length (l_serve s))) as [Hle|]; [|done].
        right. split; [|done]. fold s. by rewrite Eq.
      * exfalso. case_bool_decide; [|congruence]. destruct ok; cbn in Ho; congruence.
      * exfalso. case_bool_decide; cbn in Ho; congruence.
    + intros (pre & f & post & -> & Ho & Hlt & Hx). rewrite run_app. cbn [fold_left]. apply Hclosed'. unfold astep at 1.
      rewrite Ho. cbn [andb]. unfold accept_cap. rewrite (proj2 (Nat.ltb_lt _ _) Hlt).
      destruct f; [done|]. destruct Hx as [|[Hq Hf]]; [done|]. destruct (l_wait (arun files pre)) as [|c q]; [done|].
      unfold held in Hf. by rewrite (proj2 (Nat.leb_le _ _) Hf).
  - assert (if l_open (arun files evs) then l_refused (arun files evs) = [] else l_wait (arun files evs) = []) as Hr.
    { induction evs as [|e evs IH] using rev_ind; [done|]. rewrite run_snoc. set (s := arun files evs) in *.
      destruct e as [c|f|c ok|c]; cbn [astep].
      - destruct (known s c); [done|]. by destruct (l_open s).
      - destruct (l_open s) eqn:Eo; cbn [andb]; [|by rewrite Eo]. destruct (_ <? accept_cap); [|by rewrite Eo].
        destruct f; [done|]. destruct (l_wait s) eqn:Eq; [by rewrite Eo|]. by destruct (files <=? _).
      - case_bool_decide; [|done]. by destruct ok.
      - by case_bool_decide. }
    destruct (C65_order files evs) as (Ha & Hn & _).
    intros c. rewrite Ha in Hn |- *. split.
    + intros Hc. destruct (l_open (arun files evs)) eqn:Eo; [rewrite Hr in Hc; by apply elem_of_nil in Hc|].
      split; [done|]. split; [set_solver|]. intros Ht. apply NoDup_app in Hn as (_ & Hd & _). apply (Hd c Ht). set_solver.
    + intros (Ho & Hin & Ht). rewrite Ho in Hr. rewrite Hr, app_nil_r in Hin. apply elem_of_app in Hin as [|]; done.
Qed.
Print Assumptions C65_stops_exactly.

Example C65_stops_ex :
  let evs := [AArrive 5; APoll false; AArrive 6; APoll false; AShake 5 true; AClose 5; AArrive 7; APoll false] in
  l_open (arun 1 evs) = false /\ l_taken (arun 1 evs) = [5] /\ l_refused (arun 1 evs) = [6; 7].
Proof. vm_compute. done. Qed.
