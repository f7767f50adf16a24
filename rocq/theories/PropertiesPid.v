(** * PropertiesPid: server processes on one directory (C34, C35, C55) *)

From Verif Require Import Base PidFile.
From Coq Require DecimalN DecimalPos.
From Coq Require Import ZifyBool ZifyNat ZifyN.

(** ** Lemmas: process numbers *)

Lemma text_dec_text u : text_dec (dec_text u) = Some u.
Proof. induction u as [|u IH|u IH|u IH|u IH|u IH|u IH|u IH|u IH|u IH|u IH]; [done|..]; cbn; by rewrite IH. Qed.

Lemma dec_text_cases u :
  match dec_text u with x2d :: _ | x2b :: _ => False | _ => True end.
Proof. by destruct u. Qed.

Lemma to_uint_ne n : N.to_uint n <> Decimal.Nil.
Proof.
  destruct n as [|p]; [done|]. apply DecimalPos.Unsigned.to_uint_nonnil.
Qed.

Lemma digits_dec n : digits (dec n) = Some n.
Proof.
  unfold digits, dec. destruct (dec_text (N.to_uint n)) eqn:E.
  - exfalso. apply (to_uint_ne n). by destruct (N.to_uint n).
  - rewrite <- E, text_dec_text. cbn. by rewrite DecimalN.Unsigned.of_to.
Qed.

Lemma parse_dec n : (n < 2 ^ 31)%N -> parse_pid (dec n) = Some (Z.of_N n).
Proof.
  intros Hn. assert (digits (dec n) ≫= (fun n => if (n <? 2 ^ 31)%N then Some (Z.of_N n) else None)
    = Some (Z.of_N n)) as H.
  { rewrite digits_dec. cbn [mbind option_bind]. destruct (N.ltb_spec n (2 ^ 31)); [done|lia]. }
  revert H. unfold parse_pid, dec. pose proof (dec_text_cases (N.to_uint n)) as Hc.
  destruct (dec_text (N.to_uint n)) as [|b l]; [done|]. by destruct b.
Qed.

(** What is read from a pid file: the decimal form of every number of 32 bits, with its sign,
    is read as this number, and nothing is read as a number beyond 32 bits. *)
Definition decimal (z : Z) : bytes :=
  if (z <? 0)%Z then x2d :: dec (Z.to_N (- z)) else dec (Z.to_N z).

Theorem C35_number_read :
  forall z, (- 2 ^ 31 <= z < 2 ^ 31)%Z ->
    parse_pid (decimal z) = Some z /\ ((0 <= z)%Z -> parse_pid (x2b :: decimal z) = Some z).
Proof.
  intros z Hz. unfold decimal. split; [|intros H0].
  - destruct (Z.ltb_spec z 0).
    + cbn [parse_pid]. rewrite digits_dec. cbn [mbind option_bind].
      destruct (N.leb_spec (Z.to_N (- z)) (2 ^ 31)); [f_equal; lia|lia].
    + rewrite parse_dec by lia. f_equal. lia.
  - destruct (Z.ltb_spec z 0); [lia|]. cbn [parse_pid]. rewrite digits_dec. cbn [mbind option_bind].
    destruct (N.ltb_spec (Z.to_N z) (2 ^ 31)); [f_equal; lia|lia].
Qed.
Print Assumptions C35_number_read.

Theorem C35_number_range :
  forall l z, parse_pid l = Some z -> (- 2 ^ 31 <= z < 2 ^ 31)%Z.
Proof.
  assert (P : forall l z,
    digits l ≫= (fun n => if (n <? 2 ^ 31)%N then Some (Z.of_N n) else None) = Some z -> (- 2 ^ 31 <= z < 2 ^ 31)%Z).
  { intros l z. destruct (digits l) as [n|]; cbn [mbind option_bind]; [|done].
    destruct (N.ltb_spec n (2 ^ 31)); [|done]. intros [= <-]. lia. }
  intros l z H. destruct l as [|b l]; [by apply (P [])|].
  destruct b; try (by apply (P _ _ H)).
  cbn [parse_pid] in H. destruct (digits l) as [n|]; cbn [mbind option_bind] in H; [|done].
  destruct (N.leb_spec n (2 ^ 31)); [|done]. injection H as <-. lia.
Qed.
Print Assumptions C35_number_range.

Example C35_number_case :
  parse_pid (str "-2147483648") = Some (- 2 ^ 31)%Z /\ parse_pid (str "2147483648") = None
  /\ parse_pid (str "-2147483649") = None /\ parse_pid (str "+17") = Some 17%Z
  /\ decimal (-17) = str "-17" /\ parse_pid (str "17 ") = None.
Proof. repeat split; by vm_compute. Qed.

(** ** Vocabulary *)

(** A process is a server that has written the pid file and not been refused. *)
Definition past_check (c : pc) : bool :=
  match c with PUnbind | PBind | PUnlock | PServing => true | _ => false end.
Definition starting (c : pc) : bool :=
  match c with POpen _ | PRead _ _ | PLook _ _ | PRemove _ | PCreate _ | PWrite _ => true | _ => false end.

Definition at_pc (w : world) (pid : N) (c : pc) : Prop :=
  exists name, w_procs w !! pid = Some (Proc name c).
Definition serving (w : world) (pid : N) : Prop := at_pc w pid PServing.
Definition refused (w : world) (pid : N) : Prop := at_pc w pid PRefused.
Definition alive (w : world) (pid : N) : Prop := is_Some (w_procs w !! pid).
(** A client that connects to the socket reaches this server. *)
Definition reachable_by_clients (w : world) (pid : N) : Prop := serving w pid /\ w_sock w = Some pid.
(** What the pid file says. *)
Definition pid_text (w : world) : option bytes := option_map (fun i => default [] (w_data w !! i)) (w_pid w).

(** Steps of one process with nothing else happening. *)
Definition alone (pid : N) (n : nat) : list event := repeat (Step pid) n.

(** ** C34: at most one server *)

(** Hypotheses of the part that holds: servers are run under the package's name, and no server
    is started while another is starting. *)
Fixpoint orderly (w : world) (evs : list event) : Prop :=
  match evs with
  | [] => True
  | e :: evs =>
      match e with
      | Spawn _ name true => name = PKG_NAME /\ forall pid p, w_procs w !! pid = Some p -> starting (p_pc p) = false
      | _ => True
      end /\ orderly (step w e) evs
  end.

Record inv (w : world) : Prop := Inv {
  i_pid : forall pid p, w_procs w !! pid = Some p -> (pid < 2 ^ 31)%N;
  i_name : forall pid p, w_procs w !! pid = Some p -> starting (p_pc p) || past_check (p_pc p) = true -> p_name p = PKG_NAME;
  i_one : forall pid p pid' p', w_procs w !! pid = Some p -> w_procs w !! pid' = Some p' ->
    starting (p_pc p) = true -> starting (p_pc p') = true -> pid = pid';
  i_next : forall i, w_pid w = Some i -> i < w_next w;
  i_held : forall pid p, w_procs w !! pid = Some p -> past_check (p_pc p) = true ->
    exists i, w_pid w = Some i /\ w_data w !! i = Some (dec pid);
  i_start : forall pid p, w_procs w !! pid = Some p ->
    match p_pc p with
    | PRead _ i => forall pid' p', w_procs w !! pid' = Some p' -> past_check (p_pc p') = true -> w_pid w = Some i
    | PLook _ q => forall pid' p', w_procs w !! pid' = Some p' -> past_check (p_pc p') = true -> q = Z.of_N pid'
    | PRemove _ | PCreate _ => forall pid' p', w_procs w !! pid' = Some p' -> past_check (p_pc p') = false
    | PWrite i => w_pid w = Some i /\ w_data w !! i = Some []
        /\ forall pid' p', w_procs w !! pid' = Some p' -> past_check (p_pc p') = false
    | _ => True
    end
}.

Lemma held_unique w : inv w -> forall pid p pid' p',
  w_procs w !! pid = Some p -> w_procs w !! pid' = Some p' ->
  past_check (p_pc p) = true -> past_check (p_pc p') = true -> pid = pid'.
Proof.
  intros I pid p pid' p' H H' Hc Hc'.
  destruct (i_held w I pid p H Hc) as (i & Hi & Hd). destruct (i_held w I pid' p' H' Hc') as (j & Hj & Hd').
  assert (i = j) as <- by congruence. rewrite Hd in Hd'. injection Hd' as E.
  pose proof (parse_dec pid (i_pid w I _ _ H)) as P. pose proof (parse_dec pid' (i_pid w I _ _ H')) as P'.
  rewrite E, P' in P. injection P. lia.
Qed.

Lemma found_pkg w pid p : w_procs w !! pid = Some p -> p_name p = PKG_NAME -> found w (Z.of_N pid) = true.
Proof.
  intros H Hn. unfold found. destruct (Z.of_N pid) eqn:E.
  - assert (pid = 0%N) as -> by lia. cbn. rewrite H, Hn. apply beq_refl.
  - rewrite <- E, N2Z.id, H, Hn. apply beq_refl.
  - lia.
Qed.

(** What the invariant says of a process about to make a step. *)
Definition ready (w : world) (c : pc) : Prop :=
  match c with
  | PRead _ i => forall pid' p', w_procs w !! pid' = Some p' -> past_check (p_pc p') = true -> w_pid w = Some i
  | PLook _ q => forall pid' p', w_procs w !! pid' = Some p' -> past_check (p_pc p') = true -> q = Z.of_N pid'
  | PRemove _ | PCreate _ => forall pid' p', w_procs w !! pid' = Some p' -> past_check (p_pc p') = false
  | PWrite i => w_pid w = Some i /\ w_data w !! i = Some []
      /\ forall pid' p', w_procs w !! pid' = Some p' -> past_check (p_pc p') = false
  | _ => True
  end.

Lemma lookup_set (m : gmap N proc) pid x pid' p' : <[pid := x]> m !! pid' = Some p' ->
  (pid' = pid /\ p' = x) \/ (pid' <> pid /\ m !! pid' = Some p').
Proof. intros H. apply lookup_insert_Some in H as [[-> <-]|[? ?]]; auto. Qed.

Lemma inv_set w pid p c : inv w -> w_procs w !! pid = Some p ->
  (starting c || past_check c = true -> starting (p_pc p) || past_check (p_pc p) = true) ->
  (starting c = true -> starting (p_pc p) = true) ->
  (past_check c = true -> past_check (p_pc p) = true) ->
  ready w c -> inv (set_pc w pid p c).
Proof.
  intros I Hp Hn Hs Hc Hr.
  assert (forall pid' p', w_procs (set_pc w pid p c) !! pid' = Some p' -> past_check (p_pc p') = true ->
    exists p0, w_procs w !! pid' = Some p0 /\ past_check (p_pc p0) = true) as Hold.
  { intros pid' p' [[-> ->]|[_ H]]%lookup_set Hc'; [exists p; auto|by exists p']. }
  assert (forall pid' p', w_procs (set_pc w pid p c) !! pid' = Some p' -> starting (p_pc p') = true ->
    exists p0, w_procs w !! pid' = Some p0 /\ starting (p_pc p0) = true) as Hold'.
  { intros pid' p' [[-> ->]|[_ H]]%lookup_set Hc'; [exists p; auto|by exists p']. }
  assert (forall c', ready w c' -> ready (set_pc w pid p c) c') as Hready.
  { intros c' Hc'. destruct c'; try done; cbn [ready] in *.
    - intros pid' p' H1 H2. destruct (Hold _ _ H1 H2) as (p0 & ? & ?). by eapply Hc'.
    - intros pid' p' H1 H2. destruct (Hold _ _ H1 H2) as (p0 & ? & ?). by eapply Hc'.
    - intros pid' p' H1. destruct (past_check (p_pc p')) eqn:H2; [|done].
      destruct (Hold _ _ H1 H2) as (p0 & ? & ?). erewrite <- Hc'; done.
    - intros pid' p' H1. destruct (past_check (p_pc p')) eqn:H2; [|done].
      destruct (Hold _ _ H1 H2) as (p0 & ? & ?). erewrite <- Hc'; done.
    - destruct Hc' as (H & H' & Hc'). split; [done|]. split; [done|]. intros pid' p' H1.
      destruct (past_check (p_pc p')) eqn:H2; [|done].
      destruct (Hold _ _ H1 H2) as (p0 & ? & ?). erewrite <- Hc'; done. }
  constructor.
  - intros pid' p' [[-> ->]|[_ H]]%lookup_set; by eapply i_pid.
  - intros pid' p' [[-> ->]|[_ H]]%lookup_set; [|by eapply i_name].
    cbn [p_pc p_name]. intros H. eapply i_name; eauto.
  - intros p1 q1 p2 q2 H1 H2 S1 S2. destruct (Hold' _ _ H1 S1) as (? & ? & ?).
    destruct (Hold' _ _ H2 S2) as (? & ? & ?). by eapply (i_one w I).
  - apply (i_next w I).
  - intros pid' p' H1 H2. destruct (Hold _ _ H1 H2) as (p0 & ? & ?). by eapply (i_held w I).
  - intros pid' p' [[-> ->]|[_ H]]%lookup_set; [by apply (Hready c)|].
    apply (Hready (p_pc p')). by apply (i_start w I pid' p').
Qed.

Lemma inv_sock w s : inv w -> inv (World (w_pid w) (w_data w) (w_next w) s (w_procs w)).
Proof. intros []. by constructor. Qed.

Lemma inv_data w pid p c f d n : inv w -> w_procs w !! pid = Some p -> starting (p_pc p) = true ->
  (forall pid' p', w_procs w !! pid' = Some p' -> past_check (p_pc p') = false) ->
  (forall i, f = Some i -> i < n) ->
  (past_check c = true -> exists i, f = Some i /\ d !! i = Some (dec pid)) ->
  match c with
  | PCreate _ => True
  | PWrite i => f = Some i /\ d !! i = Some []
  | _ => starting c = false
  end ->
  inv (World f d n (w_sock w) (<[pid := Proc (p_name p) c]> (w_procs w))).
Proof.
  intros I Hp Hs Hno Hn Hc Hr.
  assert (forall pid' p', w_procs w !! pid' = Some p' -> pid' <> pid -> starting (p_pc p') = false) as Hoth.
  { intros pid' p' H Hne. destruct (starting (p_pc p')) eqn:E; [|done]. exfalso. apply Hne.
    by eapply (i_one w I). }
  constructor; cbn [w_pid w_data w_next w_procs].
  - intros pid' p' [[-> ->]|[_ H]]%lookup_set; by eapply i_pid.
  - intros pid' p' [[-> ->]|[_ H]]%lookup_set; [|by eapply i_name].
    cbn [p_pc p_name]. intros _. eapply i_name; [done..|]. by rewrite Hs.
  - intros p1 q1 p2 q2 [[-> ->]|[N1 H1]]%lookup_set [[-> ->]|[N2 H2]]%lookup_set; [done|..]; intros S1 S2.
    + by rewrite (Hoth _ _ H2 N2) in S2.
    + by rewrite (Hoth _ _ H1 N1) in S1.
    + by rewrite (Hoth _ _ H1 N1) in S1.
  - done.
  - intros pid' p' [[-> ->]|[_ H]]%lookup_set; [by apply Hc|]. by rewrite (Hno _ _ H).
  - assert (past_check c = false -> forall pid' p', <[pid:=Proc (p_name p) c]> (w_procs w) !! pid' = Some p' ->
      past_check (p_pc p') = false) as Hno'.
    { intros E pid' p' [[-> ->]|[_ H]]%lookup_set; [done|]. by eapply Hno. }
    intros pid' p' [[-> ->]|[Hne H]]%lookup_set; cbn [p_pc].
    + destruct c; try done; try (by apply Hno'). destruct Hr. split; [done|]. split; [done|]. by apply Hno'.
    + pose proof (Hoth _ _ H Hne) as E. by destruct (p_pc p').
Qed.

Lemma inv_failed w pid p more : inv w -> w_procs w !! pid = Some p -> starting (p_pc p) = true ->
  inv (set_pc w pid p (failed more)).
Proof.
  intros I Hp Hs. apply inv_set; try done.
  - by rewrite Hs.
  - by destruct more.
  - by destruct more.
Qed.

Lemma inv_step_proc w pid p : inv w -> w_procs w !! pid = Some p -> inv (step_proc w pid p).
Proof.
  intros I Hp. pose proof (i_start w I pid p Hp) as Hr. unfold step_proc.
  destruct (p_pc p) as [more|more ino|more q|more|more|ino| | | | | |] eqn:Ec; try done; cbv beta iota in Hr.
  - destruct (w_pid w) as [ino|] eqn:Ef; apply inv_set; try done; rewrite ?Ec; try done.
    { by intros pid' p' _ _. }
    intros pid' p' H. destruct (past_check (p_pc p')) eqn:E; [|done].
    destruct (i_held w I _ _ H E) as (i & ? & _). congruence.
  - destruct (parse_pid _) as [q|] eqn:Eq; [|apply inv_failed; try done; by rewrite Ec].
    apply inv_set; try done; rewrite ?Ec; try done.
    intros pid' p' H E. destruct (i_held w I _ _ H E) as (i & Hi & Hd).
    pose proof (Hr _ _ H E) as Hi'. assert (i = ino) as -> by congruence.
    rewrite Hd in Eq. cbn in Eq. rewrite (parse_dec pid' (i_pid w I _ _ H)) in Eq. congruence.
  - destruct (found w q) eqn:Ef; [apply inv_failed; try done; by rewrite Ec|].
    apply inv_set; try done; rewrite ?Ec; try done.
    intros pid' p' H. destruct (past_check (p_pc p')) eqn:E; [|done].
    rewrite (Hr _ _ H E) in Ef. rewrite (found_pkg w pid' p' H) in Ef; [done|].
    eapply (i_name w I); [done|]. by rewrite E, orb_true_r.
  - destruct (w_pid w) eqn:Ef; [|apply inv_failed; try done; by rewrite Ec].
    cbn. apply inv_data; try done. by rewrite Ec.
  - destruct (w_pid w) eqn:Ef; [apply inv_failed; try done; by rewrite Ec|].
    cbn. apply inv_data; try done.
    + by rewrite Ec.
    + intros i [= <-]. lia.
    + split; [done|]. apply lookup_insert.
  - destruct Hr as (Hf & Hd & Hno). cbn. apply inv_data; try done.
    + by rewrite Ec.
    + apply (i_next w I).
    + intros _. exists ino. split; [done|]. rewrite lookup_insert, Hd. done.
  - apply (inv_sock (set_pc w pid p PBind) None). apply inv_set; try done; by rewrite Ec.
  - destruct (w_sock w); [apply inv_set; try done; by rewrite Ec|].
    apply (inv_sock (set_pc w pid p PUnlock) (Some pid)). apply inv_set; try done; by rewrite Ec.
Qed.

Lemma inv_step w e : inv w ->
  match e with
  | Spawn _ name true => name = PKG_NAME /\ forall pid p, w_procs w !! pid = Some p -> starting (p_pc p) = false
  | _ => True
  end -> inv (step w e).
Proof.
  intros I He. destruct e as [pid name server|pid|pid ok|pid]; cbn [step].
  - destruct (w_procs w !! pid) eqn:Ep; [done|]. destruct (N.ltb_spec pid (2 ^ 31)) as [Hlt|]; [|done].
    assert (past_check (if server then POpen 2 else POther) = false) as Hpast by (by destruct server).
    constructor; cbn [w_pid w_data w_next w_procs].
    + intros pid' p' [[-> ->]|[_ H]]%lookup_set; [done|by eapply i_pid].
    + intros pid' p' [[-> ->]|[_ H]]%lookup_set; [|by eapply i_name]. cbn [p_pc p_name].
      destruct server; [|done]. by destruct He.
    + intros p1 q1 p2 q2 [[-> ->]|[N1 H1]]%lookup_set [[-> ->]|[N2 H2]]%lookup_set; try done; intros S1 S2.
      * destruct server; [|done]. destruct He as [_ He]. by rewrite (He _ _ H2) in S2.
      * destruct server; [|done]. destruct He as [_ He]. by rewrite (He _ _ H1) in S1.
      * by eapply (i_one w I).
    + apply (i_next w I).
    + intros pid' p' [[-> ->]|[_ H]]%lookup_set; [cbn [p_pc]; by rewrite Hpast|by apply (i_held w I)].
    + intros pid' p' [[-> ->]|[_ H]]%lookup_set; [by destruct server|].
      pose proof (i_start w I _ _ H) as Hr. destruct (p_pc p'); try done.
      all: try (destruct Hr as (? & ? & Hr); split; [done|]; split; [done|]).
      all: intros p1 q1 [[-> ->]|[_ Hq1]]%lookup_set; cbn [p_pc]; rewrite ?Hpast; try done; eauto.
  - destruct (w_procs w !! pid) as [p|] eqn:Ep; [|done]. by apply inv_step_proc.
  - destruct (w_procs w !! pid) as [p|] eqn:Ep; [|done]. destruct (p_pc p) eqn:Ec; try done.
    apply inv_set; try done; rewrite ?Ec; by destruct ok.
  - constructor; cbn [w_pid w_data w_next w_procs].
    + intros pid' p' [_ H]%lookup_delete_Some; by eapply i_pid.
    + intros pid' p' [_ H]%lookup_delete_Some; by eapply i_name.
    + intros p1 q1 p2 q2 [_ H1]%lookup_delete_Some [_ H2]%lookup_delete_Some. by eapply (i_one w I).
    + apply (i_next w I).
    + intros pid' p' [_ H]%lookup_delete_Some. by apply (i_held w I).
    + intros pid' p' [_ H]%lookup_delete_Some. pose proof (i_start w I _ _ H) as Hr.
      destruct (p_pc p'); try done.
      all: try (destruct Hr as (? & ? & Hr); split; [done|]; split; [done|]).
      all: intros p1 q1 [_ Hq1]%lookup_delete_Some; eauto.
Qed.

Lemma inv_start : inv start.
Proof. constructor; intros; try done. Qed.

Lemma inv_run w evs : inv w -> orderly w evs -> inv (run w evs).
Proof.
  unfold run. revert w. induction evs as [|e evs IH]; intros w I H; [done|].
  destruct H as [H1 H2]. cbn. apply IH; [by apply inv_step|done].
Qed.

(** When servers run under the name of the package and are started one after the other, never
    two of them serve, nor are past the check of the pid file.  Missing for the full property:
    the name of the executable, and servers started at the same time. *)
Theorem C34_one_server_partial :
  forall evs, orderly start evs ->
  forall pid pid', serving (run start evs) pid -> serving (run start evs) pid' -> pid = pid'.
Proof.
  intros evs H pid pid' [n H1] [n' H2].
  by eapply (held_unique _ (inv_run _ _ inv_start H)).
Qed.
Print Assumptions C34_one_server_partial.

(** Whatever the schedule, the pid file is empty or holds the number of a process. *)
Record ginv (w : world) : Prop := GInv {
  g_pid : forall pid p, w_procs w !! pid = Some p -> (pid < 2 ^ 31)%N;
  g_file : forall i, w_pid w = Some i -> is_Some (w_data w !! i);
  g_data : forall i t, w_data w !! i = Some t -> i < w_next w /\ (t = [] \/ exists p, (p < 2 ^ 31)%N /\ t = dec p);
  g_write : forall pid p i, w_procs w !! pid = Some p -> p_pc p = PWrite i -> w_data w !! i = Some [];
  g_one : forall pid p pid' p' i, w_procs w !! pid = Some p -> p_pc p = PWrite i ->
    w_procs w !! pid' = Some p' -> p_pc p' = PWrite i -> pid = pid'
}.

Lemma ginv_set w pid p c s f : ginv w -> w_procs w !! pid = Some p -> (forall i, c <> PWrite i) ->
  (f = w_pid w \/ f = None) ->
  ginv (World f (w_data w) (w_next w) s (<[pid := Proc (p_name p) c]> (w_procs w))).
Proof.
  intros G Hp Hc Hf. constructor; cbn [w_pid w_data w_next w_procs].
  - intros pid' p' [[-> ->]|[_ H]]%lookup_set; by eapply g_pid.
  - intros i E. apply (g_file w G). destruct Hf; congruence.
  - apply (g_data w G).
  - intros pid' p' i [[-> ->]|[_ H]]%lookup_set; [cbn; congruence|by eapply (g_write w G)].
  - intros p1 q1 p2 q2 i [[-> ->]|[N1 H1]]%lookup_set; [cbn; congruence|].
    intros E1 [[-> ->]|[N2 H2]]%lookup_set; [cbn; congruence|]. intros E2. by eapply (g_one w G).
Qed.

Lemma failed_write more i : failed more <> PWrite i.
Proof. by destruct more. Qed.

Ltac gset := apply ginv_set;
  [done|done|first [apply failed_write|done]|first [left; congruence|by right]].

Lemma ginv_step_proc w pid p : ginv w -> w_procs w !! pid = Some p -> ginv (step_proc w pid p).
Proof.
  intros G Hp. unfold step_proc.
  destruct (p_pc p) as [more|more ino|more q|more|more|ino| | | | | |] eqn:Ec; try done; unfold set_pc; cbn.
  - destruct (w_pid w) eqn:Ef; gset.
  - destruct (parse_pid _); gset.
  - destruct (found w q); gset.
  - destruct (w_pid w) eqn:Ef; gset.
  - destruct (w_pid w) eqn:Ef; [gset|].
    assert (w_data w !! w_next w = None) as Hn.
    { destruct (w_data w !! w_next w) as [t|] eqn:E; [|done]. destruct (g_data w G _ _ E). lia. }
    constructor; cbn [w_pid w_data w_next w_procs].
    + intros pid' p' [[-> ->]|[_ H]]%lookup_set; by eapply g_pid.
    + intros i [= <-]. rewrite lookup_insert. by eexists.
    + intros i t [[<- <-]|[_ H]]%lookup_insert_Some; [split; [lia|by left]|].
      destruct (g_data w G _ _ H). split; [lia|done].
    + intros pid' p' i [[-> ->]|[_ H]]%lookup_set; [intros [= <-]; apply lookup_insert|].
      intros E. pose proof (g_write w G _ _ _ H E). rewrite lookup_insert_ne by congruence. done.
    + intros p1 q1 p2 q2 i [[-> ->]|[N1 H1]]%lookup_set E1 [[-> ->]|[N2 H2]]%lookup_set E2; [done|..].
      * injection E1 as <-. pose proof (g_write w G _ _ _ H2 E2). congruence.
      * injection E2 as <-. pose proof (g_write w G _ _ _ H1 E1). congruence.
      * by eapply (g_one w G).
  - pose proof (g_write w G _ _ _ Hp Ec) as Hd. rewrite Hd. cbn [default app].
    constructor; cbn [w_pid w_data w_next w_procs].
    + intros pid' p' [[-> ->]|[_ H]]%lookup_set; by eapply g_pid.
    + intros i E. destruct (decide (i = ino)) as [->|]; [rewrite lookup_insert; by eexists|].
      rewrite lookup_insert_ne by done. by apply (g_file w G).
    + intros i t [[<- <-]|[_ H]]%lookup_insert_Some; [|by apply (g_data w G)].
      destruct (g_data w G _ _ Hd). split; [done|]. right. exists pid. split; [|done]. by eapply g_pid.
    + intros pid' p' i [[-> ->]|[Hne H]]%lookup_set; [done|]. intros E.
      rewrite lookup_insert_ne; [by apply (g_write w G pid' p')|]. intros <-. apply Hne.
      by eapply (g_one w G).
    + intros p1 q1 p2 q2 i [[-> ->]|[N1 H1]]%lookup_set; [done|].
      intros E1 [[-> ->]|[N2 H2]]%lookup_set; [done|]. intros E2. by eapply (g_one w G).
  - gset.
  - destruct (w_sock w); gset.
Qed.

Lemma ginv_step w e : ginv w -> ginv (step w e).
Proof.
  intros G. destruct e as [pid name server|pid|pid ok|pid]; cbn [step].
  - destruct (w_procs w !! pid) eqn:Ep; [done|]. destruct (N.ltb_spec pid (2 ^ 31)) as [Hlt|]; [|done].
    assert (forall i, (if server then POpen 2 else POther) <> PWrite i) as Hc by (by destruct server).
    constructor; cbn [w_pid w_data w_next w_procs].
    + intros pid' p' [[-> ->]|[_ H]]%lookup_set; [done|by eapply g_pid].
    + apply (g_file w G).
    + apply (g_data w G).
    + intros pid' p' i [[-> ->]|[_ H]]%lookup_set; [by intros ?%Hc|by eapply (g_write w G)].
    + intros p1 q1 p2 q2 i [[-> ->]|[N1 H1]]%lookup_set; [by intros ?%Hc|].
      intros E1 [[-> ->]|[N2 H2]]%lookup_set; [by intros ?%Hc|]. intros E2. by eapply (g_one w G).
  - destruct (w_procs w !! pid) as [p|] eqn:Ep; [|done]. by apply ginv_step_proc.
  - destruct (w_procs w !! pid) as [p|] eqn:Ep; [|done]. destruct (p_pc p) eqn:Ec; try done.
    apply ginv_set; auto; by destruct ok.
  - constructor; cbn [w_pid w_data w_next w_procs].
    + intros pid' p' [_ H]%lookup_delete_Some; by eapply g_pid.
    + apply (g_file w G).
    + apply (g_data w G).
    + intros pid' p' i [_ H]%lookup_delete_Some. by apply (g_write w G pid').
    + intros p1 q1 p2 q2 i [_ H1]%lookup_delete_Some E1 [_ H2]%lookup_delete_Some E2. by eapply (g_one w G).
Qed.

Lemma ginv_run evs : ginv (run start evs).
Proof.
  unfold run. assert (ginv start) as G by (constructor; intros; done).
  revert G. generalize start. induction evs as [|e evs IH]; intros w G; [done|].
  cbn. by apply IH, ginv_step.
Qed.

Lemma run_app w a b : run w (a ++ b) = run (run w a) b.
Proof. apply fold_left_app. Qed.

(** One process runs to the end of its start, or is refused. *)
Lemma run_step w q p evs : w_procs w !! q = Some p -> run w (Step q :: evs) = run (step_proc w q p) evs.
Proof. intros H. cbn. by rewrite H. Qed.

Definition spawned (w : world) (q : N) (p : proc) : world :=
  World (w_pid w) (w_data w) (w_next w) (w_sock w) (<[q := p]> (w_procs w)).

Lemma run_spawn w q name evs : w_procs w !! q = None -> (q < 2 ^ 31)%N ->
  run w (Spawn q name true :: evs) = run (spawned w q (Proc name (POpen 2))) evs.
Proof. intros H Hq. cbn. rewrite H. destruct (N.ltb_spec q (2 ^ 31)); [done|lia]. Qed.

Lemma look w q p : w_procs (spawned w q p) !! q = Some p.
Proof. apply lookup_insert. Qed.

Lemma set_spawned w q p c : set_pc (spawned w q p) q p c = spawned w q (Proc (p_name p) c).
Proof. unfold set_pc, spawned. cbn. by rewrite insert_insert. Qed.

Lemma step_spawned w q p evs : run (spawned w q p) (Step q :: evs) = run (step_proc (spawned w q p) q p) evs.
Proof. apply run_step, look. Qed.

Lemma create_write w q name more : w_pid w = None ->
  exists n f d nx, run (spawned w q (Proc name (PCreate more))) (alone q n)
    = spawned (World (Some f) d nx (w_sock w) (w_procs w)) q (Proc name PUnbind) /\ d !! f = Some (dec q).
Proof.
  intros Hf. exists 2. cbn [alone repeat]. rewrite step_spawned. unfold step_proc at 1. cbn [p_pc].
  change (w_pid (spawned w q (Proc name (PCreate more)))) with (w_pid w). rewrite Hf, set_spawned.
  cbn [p_name w_data w_next w_sock w_procs spawned].
  change (World (Some (w_next w)) (<[w_next w:=[]]> (w_data w)) (S (w_next w)) (w_sock w)
    (<[q:=Proc name (PWrite (w_next w))]> (w_procs w)))
    with (spawned (World (Some (w_next w)) (<[w_next w:=[]]> (w_data w)) (S (w_next w)) (w_sock w) (w_procs w)) q
      (Proc name (PWrite (w_next w)))).
  rewrite step_spawned. unfold step_proc at 1. cbn [p_pc]. rewrite set_spawned.
  cbn [p_name w_data w_next w_sock w_procs w_pid spawned]. rewrite lookup_insert.
  change (default [] (Some []) ++ dec q) with (dec q).
  exists (w_next w), (<[w_next w := dec q]> (<[w_next w := []]> (w_data w))), (S (w_next w)).
  split; [reflexivity|]. apply lookup_insert.
Qed.

Lemma acquire w q name : w_procs w !! q = None -> (q < 2 ^ 31)%N ->
  match pid_text w with
  | None => True
  | Some t => exists p, parse_pid t = Some p /\ found (spawned w q (Proc name POther)) p = false
  end ->
  exists n f d nx, run w (Spawn q name true :: alone q n)
    = spawned (World (Some f) d nx (w_sock w) (w_procs w)) q (Proc name PUnbind) /\ d !! f = Some (dec q).
Proof.
  intros Hq Hlt Ht. unfold pid_text in Ht. destruct (w_pid w) as [ino|] eqn:Ef.
  - cbn [option_map] in Ht. destruct Ht as (p & Hp & Hno).
    destruct (create_write (World None (w_data w) (w_next w) (w_sock w) (w_procs w)) q name 2 eq_refl)
      as (n & f & d & nx & Hr & Hd). cbn [w_sock w_procs] in Hr.
    exists (S (S (S (S n)))), f, d, nx. split; [|done]. rewrite <- Hr.
    rewrite run_spawn by done. unfold alone. cbn [repeat]. fold (alone q n).
    rewrite step_spawned. unfold step_proc at 1. cbn [p_pc w_pid spawned]. rewrite Ef.
    fold (spawned w q (Proc name (POpen 2))). rewrite set_spawned. cbn [p_name].
    rewrite step_spawned. unfold step_proc at 1. cbn [p_pc w_data spawned]. rewrite Hp.
    fold (spawned w q (Proc name (PRead 2 ino))). rewrite set_spawned. cbn [p_name].
    rewrite step_spawned. unfold step_proc at 1. cbn [p_pc].
    assert (forall c c', found (spawned w q (Proc name c)) p = found (spawned w q (Proc name c')) p) as Hfound.
    { intros c c'. unfold found, spawned. cbn [w_procs]. destruct p; try done.
      - destruct (decide (q = Z.to_N 0)) as [<-|]; [by rewrite !lookup_insert|by rewrite !lookup_insert_ne].
      - destruct (decide (q = Z.to_N (Zpos p))) as [<-|]; [by rewrite !lookup_insert|by rewrite !lookup_insert_ne]. }
    rewrite (Hfound _ POther), Hno. rewrite set_spawned. cbn [p_name].
    rewrite step_spawned. unfold step_proc at 1. cbn [p_pc w_pid spawned]. rewrite Ef.
    fold (spawned w q (Proc name (PRemove 2))). rewrite set_spawned. cbn [p_name]. done.
  - destruct (create_write w q name 2 Ef) as (n & f & d & nx & Hr & Hd). exists (S n), f, d, nx.
    split; [|done]. rewrite <- Hr.
    rewrite run_spawn by done. unfold alone. cbn [repeat]. fold (alone q n).
    rewrite step_spawned. unfold step_proc at 1. cbn [p_pc w_pid spawned]. rewrite Ef.
    fold (spawned w q (Proc name (POpen 2))). rewrite set_spawned. done.
Qed.

Lemma bind_unlock w q name ok :
  run (spawned w q (Proc name PUnbind)) (alone q 2 ++ [Passphrase q ok])
  = spawned (World (w_pid w) (w_data w) (w_next w) (Some q) (w_procs w)) q
      (Proc name (if ok then PServing else PRefused)).
Proof.
  cbn [alone repeat app]. rewrite step_spawned. unfold step_proc at 1. cbn [p_pc]. rewrite set_spawned.
  cbn [p_name w_data w_next w_sock w_procs w_pid spawned].
  change (World (w_pid w) (w_data w) (w_next w) None (<[q:=Proc name PBind]> (w_procs w)))
    with (spawned (World (w_pid w) (w_data w) (w_next w) None (w_procs w)) q (Proc name PBind)).
  rewrite step_spawned. unfold step_proc at 1. cbn [p_pc w_sock spawned].
  fold (spawned (World (w_pid w) (w_data w) (w_next w) None (w_procs w)) q (Proc name PBind)).
  unfold set_pc. cbn [p_name w_data w_next w_sock w_procs w_pid spawned run fold_left step].
  rewrite lookup_insert. cbn [p_pc]. unfold set_pc, spawned. cbn [p_name w_data w_next w_sock w_procs w_pid].
  by rewrite !insert_insert.
Qed.

(** A process that starts alone, with a pid file that is not there or names no process of the
    package's name, gets the socket. *)
Lemma start_alone w q name ok : w_procs w !! q = None -> (q < 2 ^ 31)%N ->
  match pid_text w with
  | None => True
  | Some t => exists p, parse_pid t = Some p /\ found (spawned w q (Proc name POther)) p = false
  end ->
  exists n, let w' := run w (Spawn q name true :: alone q n ++ [Passphrase q ok]) in
    w_procs w' = <[q := Proc name (if ok then PServing else PRefused)]> (w_procs w)
    /\ w_sock w' = Some q /\ pid_text w' = Some (dec q).
Proof.
  intros Hq Hlt Ht. destruct (acquire w q name Hq Hlt Ht) as (n & f & d & nx & Hr & Hd).
  exists (n + 2). intros w'.
  assert (w' = run (run w (Spawn q name true :: alone q n)) (alone q 2 ++ [Passphrase q ok])) as ->.
  { unfold w', alone. rewrite repeat_app, <- run_app. cbn [app]. by rewrite <- app_assoc. }
  rewrite Hr, bind_unlock. unfold pid_text. cbn [spawned w_procs w_sock w_pid w_data option_map].
  by rewrite Hd.
Qed.

(** The pid file names a process of the package's name. *)
Definition claimed (w : world) : Prop :=
  exists p pr, pid_text w = Some (dec p) /\ w_procs w !! p = Some pr /\ p_name pr = PKG_NAME.

Lemma text_cases w : ginv w -> pid_text w <> Some [] ->
  pid_text w = None \/ exists p, (p < 2 ^ 31)%N /\ pid_text w = Some (dec p).
Proof.
  intros G Hne. unfold pid_text in *. destruct (w_pid w) as [i|] eqn:Ef; [|by left]. right.
  destruct (g_file w G i Ef) as [t Ht]. destruct (g_data w G i t Ht) as [_ [->|(p & Hp & ->)]].
  - cbn in Hne. rewrite Ht in Hne. done.
  - exists p. split; [done|]. cbn. by rewrite Ht.
Qed.

Lemma unclaimed w q name : ginv w -> w_procs w !! q = None -> pid_text w <> Some [] ->
  (forall pid p, w_procs w !! pid = Some p -> pid_text w = Some (dec pid) -> p_name p <> PKG_NAME) ->
  (pid_text w = Some (dec q) -> name <> PKG_NAME) ->
  match pid_text w with
  | None => True
  | Some t => exists p, parse_pid t = Some p /\ found (spawned w q (Proc name POther)) p = false
  end.
Proof.
  intros G Hq Hne Hno Hself. destruct (text_cases w G Hne) as [->|(p & Hp & Ht)]; [done|].
  rewrite Ht. exists (Z.of_N p). split; [by apply parse_dec|].
  assert (match (<[q:=Proc name POther]> (w_procs w)) !! p with
    | Some q => beq (p_name q) PKG_NAME | None => false end = false) as H.
  { destruct (decide (q = p)) as [<-|].
    - rewrite lookup_insert. apply beq_false. cbn. by apply Hself.
    - rewrite lookup_insert_ne by done. destruct (w_procs w !! p) as [pr|] eqn:E; [|done].
      apply beq_false. by eapply Hno. }
  unfold found. destruct (Z.of_N p) eqn:E.
  - assert (p = 0%N) as -> by lia. done.
  - rewrite <- E, N2Z.id. done.
  - lia.
Qed.

Lemma exe_not_pkg : EXE_NAME <> PKG_NAME.
Proof. done. Qed.

(** False of the program as built: its processes do not have the package's name, so that a
    second server starts, takes the socket, and the first goes on serving unreachable. *)
Theorem C34_name_refuted :
  forall evs first second,
    let w := run start evs in
    (forall pid p, w_procs w !! pid = Some p -> p_name p = EXE_NAME) ->
    serving w first -> pid_text w <> Some [] ->
    ~ alive w second -> (second < 2 ^ 31)%N ->
    exists n, let w' := run w (Spawn second EXE_NAME true :: alone second n ++ [Passphrase second true]) in
      first <> second /\ serving w' first /\ serving w' second
      /\ reachable_by_clients w' second /\ ~ reachable_by_clients w' first.
Proof.
  intros evs first second w Hnames [nm Hf] Hne Hs Hlt.
  assert (w_procs w !! second = None) as Hn by (by apply eq_None_not_Some).
  assert (first <> second) as Hd by congruence.
  destruct (start_alone w second EXE_NAME true Hn Hlt) as (n & Hp & Hk & _).
  { apply unclaimed; [apply ginv_run|done|done| |done]. intros pid p H _. rewrite (Hnames pid p H). done. }
  exists n. cbv zeta in Hp, Hk |- *. set (w' := run w _) in *.
  assert (serving w' first) as H1.
  { exists nm. rewrite Hp, lookup_insert_ne by done. done. }
  assert (serving w' second) as H2.
  { exists EXE_NAME. by rewrite Hp, lookup_insert. }
  split; [done|]. split; [done|]. split; [done|]. split; [by split|].
  intros [_ H]. congruence.
Qed.
Print Assumptions C34_name_refuted.

(** False under any name: two servers started together where an earlier one died. *)
Definition race : list event :=
  let s p n := repeat (Step p) n in
  [Spawn 10 PKG_NAME true] ++ s 10%N 5 ++ [Passphrase 10 true; Kill 10;
   Spawn 11 PKG_NAME true; Spawn 12 PKG_NAME true]
  ++ s 11%N 3 ++ s 12%N 3        (* both find the file of a dead process *)
  ++ s 11%N 5 ++ [Passphrase 11 true] ++ s 12%N 5 ++ [Passphrase 12 true].

Theorem C34_race_refuted :
  exists evs, (forall pid name, Spawn pid name true ∈ evs -> name = PKG_NAME)
    /\ exists pid pid', pid <> pid' /\ serving (run start evs) pid /\ serving (run start evs) pid'.
Proof.
  exists race. split.
  - intros pid name H. apply elem_of_list_In in H. vm_compute in H.
    repeat (destruct H as [H|H]; [try discriminate H; by injection H as _ <-|]). done.
  - exists 11%N, 12%N. split; [done|]. split; exists PKG_NAME; by vm_compute.
Qed.
Print Assumptions C34_race_refuted.

(** ** C35: a crashed server can be restarted *)

(** After any history, with servers dying anywhere, a new server started alone gets to serve,
    and clients reach it, unless the pid file is empty or names a living process of the
    package's name.  Missing for the full property: those two cases. *)
Theorem C35_restart_partial :
  forall evs q name,
    let w := run start evs in
    ~ alive w q -> (q < 2 ^ 31)%N -> pid_text w <> Some [] -> ~ claimed w ->
    (pid_text w = Some (dec q) -> name <> PKG_NAME) ->
    exists n, reachable_by_clients (run w (Spawn q name true :: alone q n ++ [Passphrase q true])) q.
Proof.
  intros evs q name w Hq Hlt Hne Hc Hself.
  assert (w_procs w !! q = None) as Hn by (by apply eq_None_not_Some).
  destruct (start_alone w q name true Hn Hlt) as (n & Hp & Hk & _).
  { apply unclaimed; [apply ginv_run|done..| |done]. intros pid p H Ht Hname. apply Hc. by exists pid, p. }
  exists n. split; [|done]. exists name. by rewrite Hp, lookup_insert.
Qed.
Print Assumptions C35_restart_partial.

(** False after a server died between creating the pid file and writing to it: *)
Theorem C35_empty_file_reached :
  forall pid name, (pid < 2 ^ 31)%N ->
    let w := run start [Spawn pid name true; Step pid; Step pid; Kill pid] in
    pid_text w = Some [] /\ w_procs w = ∅.
Proof.
  intros pid name Hlt w.
  assert (w = World (Some 0) (<[0 := []]> ∅) 1 None (delete pid (<[pid := Proc name (PWrite 0)]> ∅))) as ->.
  { unfold w. rewrite run_spawn by done.
    rewrite step_spawned. unfold step_proc at 1. cbn [p_pc w_pid spawned start].
    fold (spawned start pid (Proc name (POpen 2))). rewrite set_spawned. cbn [p_name].
    rewrite step_spawned. unfold step_proc at 1. cbn [p_pc w_pid spawned start].
    fold (spawned start pid (Proc name (PCreate 2))). rewrite set_spawned. done. }
  split.
  - unfold pid_text. cbn [w_pid w_data option_map]. by rewrite lookup_insert.
  - by apply delete_insert.
Qed.
Print Assumptions C35_empty_file_reached.

(** [stuck]: nobody is about to remove or write the file. *)
Lemma stuck_step w e ino : w_pid w = Some ino -> w_data w !! ino = Some [] ->
  (forall pid p, w_procs w !! pid = Some p ->
     match p_pc p with PRead _ i => i = ino | PLook _ _ | PRemove _ | PCreate _ | PWrite _ => False | _ => True end) ->
  let w' := step w e in
  w_pid w' = Some ino /\ w_data w' !! ino = Some []
  /\ (forall pid p, w_procs w' !! pid = Some p ->
     match p_pc p with PRead _ i => i = ino | PLook _ _ | PRemove _ | PCreate _ | PWrite _ => False | _ => True end)
  /\ forall pid p, w_procs w' !! pid = Some p -> past_check (p_pc p) = true ->
       exists p0, w_procs w !! pid = Some p0 /\ past_check (p_pc p0) = true.
Proof.
  intros Hf Hd Hs w'.
  assert (forall pid p c s, w_procs w !! pid = Some p ->
    match c with PRead _ i => i = ino | PLook _ _ | PRemove _ | PCreate _ | PWrite _ => False | _ => True end ->
    (past_check c = true -> past_check (p_pc p) = true) ->
    let w2 := World (w_pid w) (w_data w) (w_next w) s (<[pid := Proc (p_name p) c]> (w_procs w)) in
    w_pid w2 = Some ino /\ w_data w2 !! ino = Some []
    /\ (forall pid p, w_procs w2 !! pid = Some p ->
       match p_pc p with PRead _ i => i = ino | PLook _ _ | PRemove _ | PCreate _ | PWrite _ => False | _ => True end)
    /\ forall pid p, w_procs w2 !! pid = Some p -> past_check (p_pc p) = true ->
       exists p0, w_procs w !! pid = Some p0 /\ past_check (p_pc p0) = true) as Hset.
  { intros pid p c s Hp Hc Hpast w2. split; [done|]. split; [done|]. split.
    - intros pid' p' [[-> ->]|[_ H]]%lookup_set; [done|by eapply Hs].
    - intros pid' p' [[-> ->]|[_ H]]%lookup_set; [|by eauto]. intros H. exists p. auto. }
  assert (w_pid w = Some ino /\ w_data w !! ino = Some []
    /\ (forall pid p, w_procs w !! pid = Some p ->
       match p_pc p with PRead _ i => i = ino | PLook _ _ | PRemove _ | PCreate _ | PWrite _ => False | _ => True end)
    /\ forall pid p, w_procs w !! pid = Some p -> past_check (p_pc p) = true ->
       exists p0, w_procs w !! pid = Some p0 /\ past_check (p_pc p0) = true) as Hid.
  { split; [done|]. split; [done|]. split; [done|]. eauto. }
  assert (forall more, match failed more with PRead _ i => i = ino
    | PLook _ _ | PRemove _ | PCreate _ | PWrite _ => False | _ => True end) as Hfail by (by intros []).
  assert (forall more, past_check (failed more) = false) as Hfail' by (by intros []).
  unfold w'. clear w'. destruct e as [pid name server|pid|pid ok|pid]; cbn [step].
  - destruct (w_procs w !! pid) eqn:Ep; [done|]. destruct (pid <? 2 ^ 31)%N; [|done].
    split; [done|]. split; [done|]. split.
    + intros pid' p' [[-> ->]|[_ H]]%lookup_set; [by destruct server|by eapply Hs].
    + intros pid' p' [[-> ->]|[_ H]]%lookup_set; [by destruct server|by eauto].
  - destruct (w_procs w !! pid) as [p|] eqn:Ep; [|done]. pose proof (Hs _ _ Ep) as Hp. unfold step_proc.
    destruct (p_pc p) eqn:Ec; try done.
    + rewrite Hf. by apply (Hset pid p _ (w_sock w)).
    + subst. rewrite Hd. apply (Hset pid p (failed more) (w_sock w)); [done|apply Hfail|]. by rewrite Hfail'.
    + apply (Hset pid p PBind None); by rewrite ?Ec.
    + destruct (w_sock w) eqn:Es; [unfold set_pc; apply (Hset pid p PRefused (w_sock w)); by rewrite ?Ec|].
      apply (Hset pid p PUnlock (Some pid)); by rewrite ?Ec.
  - destruct (w_procs w !! pid) as [p|] eqn:Ep; [|done]. destruct (p_pc p) eqn:Ec; try done.
    apply (Hset pid p _ (w_sock w)); [done|by destruct ok|]. by rewrite Ec.
  - split; [done|]. split; [done|]. split.
    + cbn. intros pid' p' [_ H]%lookup_delete_Some. by eapply Hs.
    + cbn. intros pid' p' [_ H]%lookup_delete_Some. eauto.
Qed.

(** From then on no server ever starts, whatever is done short of removing the file. *)
Theorem C35_empty_file_refuted :
  forall w, pid_text w = Some [] -> is_Some (w_pid w ≫= fun i => w_data w !! i) ->
    (forall pid p, w_procs w !! pid = Some p -> starting (p_pc p) = false) ->
  forall evs pid,
    pid_text (run w evs) = Some []
    /\ (serving (run w evs) pid -> exists p, w_procs w !! pid = Some p /\ past_check (p_pc p) = true).
Proof.
  intros w Ht [t Hdata] Hno evs.
  unfold pid_text in Ht. destruct (w_pid w) as [ino|] eqn:Ef; [|done]. cbn in Hdata, Ht.
  rewrite Hdata in Ht. cbn in Ht. injection Ht as ->.
  assert (forall w2, w_pid w2 = Some ino -> w_data w2 !! ino = Some [] ->
    (forall pid p, w_procs w2 !! pid = Some p ->
       match p_pc p with PRead _ i => i = ino | PLook _ _ | PRemove _ | PCreate _ | PWrite _ => False | _ => True end) ->
    forall pid, pid_text (run w2 evs) = Some []
      /\ forall p, w_procs (run w2 evs) !! pid = Some p -> past_check (p_pc p) = true ->
         exists p0, w_procs w2 !! pid = Some p0 /\ past_check (p_pc p0) = true) as H.
  { induction evs as [|e evs IH]; intros w2 H1 H2 H3 pid.
    - cbn. split; [unfold pid_text; rewrite H1; cbn; by rewrite H2|]. eauto.
    - destruct (stuck_step w2 e ino H1 H2 H3) as (H1' & H2' & H3' & H4').
      destruct (IH (step w2 e) H1' H2' H3' pid) as [Ha Hb]. split; [done|]. intros p Hp Hpc.
      destruct (Hb p Hp Hpc) as (p0 & Hp0 & Hpc0). by eapply H4'. }
  intros pid. destruct (H w Ef Hdata) with (pid := pid) as [Ha Hb].
  - intros pid' p' Hp. pose proof (Hno _ _ Hp) as E. by destruct (p_pc p').
  - split; [done|]. intros [nm Hs]. by eapply Hb.
Qed.
Print Assumptions C35_empty_file_refuted.

(** False when the number of the dead server now belongs to another process of the package's
    name (one of another directory, say), or to the new one itself. *)
Lemma look_fails w q p name more : pid_text w = Some (dec p) -> (p < 2 ^ 31)%N ->
  found (spawned w q (Proc name POther)) (Z.of_N p) = true ->
  run (spawned w q (Proc name (POpen more))) (alone q 3) = spawned w q (Proc name (failed more)).
Proof.
  intros Ht Hp Hfnd. unfold pid_text in Ht. destruct (w_pid w) as [ino|] eqn:Ef; [|done]. cbn in Ht.
  injection Ht as Ht.
  unfold alone. cbn [repeat].
  rewrite step_spawned. unfold step_proc at 1. cbn [p_pc w_pid spawned]. rewrite Ef.
  fold (spawned w q (Proc name (POpen more))). rewrite set_spawned. cbn [p_name].
  rewrite step_spawned. unfold step_proc at 1. cbn [p_pc w_data spawned]. rewrite Ht, (parse_dec p Hp).
  fold (spawned w q (Proc name (PRead more ino))). rewrite set_spawned. cbn [p_name].
  rewrite step_spawned. unfold step_proc at 1. cbn [p_pc].
  assert (found (spawned w q (Proc name (PLook more (Z.of_N p)))) (Z.of_N p) = true) as ->.
  { rewrite <- Hfnd. unfold found, spawned. cbn [w_procs]. destruct (Z.of_N p) as [|p'|]; try done.
    - destruct (decide (q = Z.to_N 0)) as [<-|]; [by rewrite !lookup_insert|by rewrite !lookup_insert_ne].
    - destruct (decide (q = Z.to_N (Zpos p'))) as [<-|]; [by rewrite !lookup_insert|by rewrite !lookup_insert_ne]. }
  rewrite set_spawned. done.
Qed.

Theorem C35_pid_reuse_refuted :
  forall w q p name, ~ alive w q -> (q < 2 ^ 31)%N -> (p < 2 ^ 31)%N -> pid_text w = Some (dec p) ->
    (exists pr, w_procs w !! p = Some pr /\ p_name pr = PKG_NAME)
    \/ (p = q /\ name = PKG_NAME) ->
    refused (run w (Spawn q name true :: alone q 9)) q.
Proof.
  intros w q p name Hq Hlt Hp Ht Hcase.
  assert (w_procs w !! q = None) as Hn by (by apply eq_None_not_Some).
  assert (found (spawned w q (Proc name POther)) (Z.of_N p) = true) as Hfnd.
  { destruct Hcase as [(pr & H1 & H2)|[-> ->]].
    - apply (found_pkg _ p pr); [|done]. cbn. rewrite lookup_insert_ne; [done|]. congruence.
    - eapply found_pkg; [apply look|done]. }
  rewrite run_spawn by done.
  change (alone q 9) with (alone q 3 ++ alone q 3 ++ alone q 3). rewrite !run_app.
  rewrite (look_fails w q p name 2) by done. change (failed 2) with (POpen 1).
  rewrite (look_fails w q p name 1) by done. change (failed 1) with (POpen 0).
  rewrite (look_fails w q p name 0) by done. exists name. apply lookup_insert.
Qed.
Print Assumptions C35_pid_reuse_refuted.

(** An empty file is refused too. *)
Lemma empty_fails w q name more : pid_text w = Some [] ->
  run (spawned w q (Proc name (POpen more))) (alone q 2) = spawned w q (Proc name (failed more)).
Proof.
  intros Ht. unfold pid_text in Ht. destruct (w_pid w) as [ino|] eqn:Ef; [|done]. cbn in Ht.
  injection Ht as Ht. unfold alone. cbn [repeat].
  rewrite step_spawned. unfold step_proc at 1. cbn [p_pc w_pid spawned]. rewrite Ef.
  fold (spawned w q (Proc name (POpen more))). rewrite set_spawned. cbn [p_name].
  rewrite step_spawned. unfold step_proc at 1. cbn [p_pc w_data spawned]. rewrite Ht.
  change (parse_pid []) with (@None Z). fold (spawned w q (Proc name (PRead more ino))). by rewrite set_spawned.
Qed.

Lemma empty_refused w q name : ~ alive w q -> (q < 2 ^ 31)%N -> pid_text w = Some [] ->
  refused (run w (Spawn q name true :: alone q 6)) q.
Proof.
  intros Hq Hlt Ht. assert (w_procs w !! q = None) as Hn by (by apply eq_None_not_Some).
  rewrite run_spawn by done. change (alone q 6) with (alone q 2 ++ alone q 2 ++ alone q 2). rewrite !run_app.
  rewrite (empty_fails w q name 2) by done. change (failed 2) with (POpen 1).
  rewrite (empty_fails w q name 1) by done. change (failed 1) with (POpen 0).
  rewrite (empty_fails w q name 0) by done. exists name. apply lookup_insert.
Qed.

(** Who waits for its passphrase, serves or was refused does nothing by itself. *)
Lemma rests w q p n : w_procs w !! q = Some p -> p_pc p = PUnlock \/ p_pc p = PServing \/ p_pc p = PRefused ->
  run w (alone q n) = w.
Proof.
  intros Hp Hc. induction n as [|n IH]; [done|]. unfold alone. cbn [repeat].
  rewrite (run_step w q p) by done. unfold step_proc. destruct Hc as [->|[->| ->]]; exact IH.
Qed.

Lemma refused_for_good w q m n : refused (run w (alone q m)) q -> ~ serving (run w (alone q n ++ [Passphrase q true])) q.
Proof.
  intros [nm Hr] [nm' Hs]. rewrite run_app in Hs.
  assert (run w (alone q n) = run w (alone q m) -> False) as Hne.
  { intros E. rewrite E in Hs. cbn in Hs. rewrite Hr in Hs. cbn in Hs. rewrite Hr in Hs. done. }
  destruct (Nat.le_ge_cases m n) as [H|H].
  - apply Hne. replace n with (m + (n - m)) by lia. unfold alone. rewrite repeat_app, run_app.
    eapply rests; [exact Hr|]. cbn. tauto.
  - apply Hne. replace m with (n + (m - n)) by lia. unfold alone at 2. rewrite repeat_app, run_app.
    cbn in Hs. destruct (w_procs (run w (alone q n)) !! q) as [p|] eqn:Ep; [|congruence].
    symmetry. eapply rests; [exact Ep|]. destruct (p_pc p) eqn:Ec; try tauto; rewrite Ep in Hs; injection Hs as ->; done.
Qed.

(** A new server can be started exactly when none of this is the case. *)
Theorem C35_exactly :
  forall evs q name,
    let w := run start evs in
    ~ alive w q -> (q < 2 ^ 31)%N ->
    (exists n, reachable_by_clients (run w (Spawn q name true :: alone q n ++ [Passphrase q true])) q)
    <-> pid_text w <> Some [] /\ ~ claimed w /\ (pid_text w = Some (dec q) -> name <> PKG_NAME).
Proof.
  intros evs q name w Hq Hlt. split.
  2: { intros (H1 & H2 & H3). by apply C35_restart_partial. }
  intros (n & [Hs _]). assert (w_procs w !! q = None) as Hn by (by apply eq_None_not_Some).
  assert (forall m, ~ refused (run w (Spawn q name true :: alone q m)) q) as Hnot.
  { intros m Hr. rewrite run_spawn in Hs, Hr by done. by eapply refused_for_good. }
  assert (pid_text w <> Some []) as He.
  { intros Ht. eapply Hnot. by apply (empty_refused w q name). }
  assert (forall p, pid_text w = Some (dec p) ->
    (exists pr, w_procs w !! p = Some pr /\ p_name pr = PKG_NAME) \/ (p = q /\ name = PKG_NAME) -> False) as Hp.
  { intros p Ht Hc. destruct (text_cases w (ginv_run evs) He) as [E|(p' & Hp' & E)]; [congruence|].
    assert (p' = p) as ->.
    { assert (dec p' = dec p) as Ed by congruence. pose proof (digits_dec p') as H1. rewrite Ed, digits_dec in H1. congruence. }
    eapply Hnot. by apply (C35_pid_reuse_refuted w q p name). }
  split; [done|]. split.
  - intros (p & pr & Ht & H1 & H2). apply (Hp p Ht). left. eauto.
  - intros Ht ->. apply (Hp q Ht). by right.
Qed.
Print Assumptions C35_exactly.

(** ** C55: a start that is refused leaves the running server alone *)

(** In the orderly case, whatever others try, a server that clients reach is reached by them
    until it ends.  Missing for the full property: as for C34. *)
Theorem C55_undisturbed_partial :
  forall evs more pid,
    orderly start (evs ++ more) -> reachable_by_clients (run start evs) pid -> Kill pid ∉ more ->
    reachable_by_clients (run start (evs ++ more)) pid.
Proof.
  intros evs more pid Ho. rewrite run_app.
  assert (forall w evs more, orderly w (evs ++ more) -> orderly w evs /\ orderly (run w evs) more) as Hsplit.
  { clear. intros w evs. revert w. induction evs as [|e evs IH]; intros w more H; [done|].
    destruct H as [H1 H2]. apply IH in H2 as [H2 H3]. done. }
  destruct (Hsplit _ _ _ Ho) as [H1 H2]. pose proof (inv_run _ _ inv_start H1) as I.
  clear -I H2. revert I H2. generalize (run start evs) as w. clear evs.
  induction more as [|e more IH]; intros w I Ho Hr Hk; [done|].
  destruct Ho as [He Ho]. cbn. apply IH; [by apply inv_step|done| |].
  2: { intros H. apply Hk. by right. }
  assert (e <> Kill pid) as Hne by (intros ->; apply Hk; left).
  destruct Hr as [[nm Hs] Hsock].
  assert (forall pid' p', w_procs w !! pid' = Some p' -> pid' <> pid -> past_check (p_pc p') = false) as Hoth.
  { intros pid' p' H Hd. destruct (past_check (p_pc p')) eqn:E; [|done]. exfalso. apply Hd.
    by eapply (held_unique w I). }
  destruct e as [q name server|q|q ok|q]; cbn [step].
  - destruct (w_procs w !! q) eqn:Eq; [by split; [exists nm|]|]. destruct (q <? 2 ^ 31)%N; [|by split; [exists nm|]].
    split; [|done]. exists nm. cbn. rewrite lookup_insert_ne by congruence. done.
  - destruct (w_procs w !! q) as [p|] eqn:Eq; [|by split; [exists nm|]].
    destruct (decide (q = pid)) as [->|Hd].
    + rewrite Hs in Eq. injection Eq as <-. unfold step_proc. cbn. by split; [exists nm|].
    + pose proof (Hoth _ _ Eq Hd) as Hpast. unfold step_proc.
      assert (forall c, reachable_by_clients (set_pc w q p c) pid) as Hset.
      { intros c. split; [|done]. exists nm. cbn. by rewrite lookup_insert_ne. }
      destruct (p_pc p) eqn:Ec; try done.
      * destruct (w_pid w); apply Hset.
      * destruct (parse_pid _); apply Hset.
      * destruct (found w pid0); apply Hset.
      * destruct (w_pid w); [|apply Hset]. apply (Hset (PCreate more0)).
      * destruct (w_pid w); [apply Hset|]. apply (Hset (PWrite (w_next w))).
      * apply (Hset PUnbind).
      * by split; [exists nm|].
      * by split; [exists nm|].
  - destruct (w_procs w !! q) as [p|] eqn:Eq; [|by split; [exists nm|]].
    destruct (p_pc p) eqn:Ec; try (by split; [exists nm|]).
    split; [|done]. exists nm. cbn. rewrite lookup_insert_ne; [done|].
    intros ->. rewrite Hs in Eq. injection Eq as <-. done.
  - split; [|done]. exists nm. cbn. rewrite lookup_delete_ne by congruence. done.
Qed.
Print Assumptions C55_undisturbed_partial.

(** False of the program as built: a start with a wrong passphrase is refused only after it
    took the socket. *)
Theorem C55_wrong_passphrase_refuted :
  forall evs first second,
    let w := run start evs in
    (forall pid p, w_procs w !! pid = Some p -> p_name p = EXE_NAME) ->
    reachable_by_clients w first -> pid_text w <> Some [] ->
    ~ alive w second -> (second < 2 ^ 31)%N ->
    exists n, let w' := run w (Spawn second EXE_NAME true :: alone second n ++ [Passphrase second false]) in
      refused w' second /\ serving w' first /\ ~ reachable_by_clients w' first.
Proof.
  intros evs first second w Hnames [[nm Hf] _] Hne Hs Hlt.
  assert (w_procs w !! second = None) as Hn by (by apply eq_None_not_Some).
  assert (first <> second) as Hd by congruence.
  destruct (start_alone w second EXE_NAME false Hn Hlt) as (n & Hp & Hk & _).
  { apply unclaimed; [apply ginv_run|done|done| |done]. intros pid p H _. rewrite (Hnames pid p H). done. }
  exists n. cbv zeta in Hp, Hk |- *. set (w' := run w _) in *. split; [|split].
  - exists EXE_NAME. by rewrite Hp, lookup_insert.
  - exists nm. rewrite Hp, lookup_insert_ne by done. done.
  - intros [_ H]. congruence.
Qed.
Print Assumptions C55_wrong_passphrase_refuted.

(** ** Exactly when a second server gets in, and when a refused one does harm *)

(** The pid file keeps a new process [q] of this name out. *)
Definition barred (w : world) (q : N) (name : bytes) : Prop :=
  pid_text w = Some [] \/ claimed w \/ (pid_text w = Some (dec q) /\ name = PKG_NAME).

(** Then it changes nothing, however far it gets. *)
Lemma barred_alone w q name : ginv w -> w_procs w !! q = None -> (q < 2 ^ 31)%N -> barred w q name ->
  forall n, exists c, run w (Spawn q name true :: alone q n) = spawned w q (Proc name c)
    /\ c <> PUnlock /\ c <> PServing.
Proof.
  intros G Hn Hlt Hb n. rewrite run_spawn by done.
  assert (exists ino, w_pid w = Some ino) as [ino Hi].
  { unfold barred, claimed, pid_text in Hb. destruct (w_pid w) as [ino|]; [by exists ino|].
    destruct Hb as [Hb|[(? & ? & Hb & _)|[Hb _]]]; done. }
  assert (pid_text w = Some (default [] (w_data w !! ino))) as Ht by (unfold pid_text; by rewrite Hi).
  assert (match parse_pid (default [] (w_data w !! ino)) with
          | Some z => forall c, found (spawned w q (Proc name c)) z = true
          | None => True end) as Hp.
  { unfold barred in Hb.
    assert (pid_text w <> Some [] -> exists p, (p < 2 ^ 31)%N /\ default [] (w_data w !! ino) = dec p) as Hd.
    { intros Hne. destruct (text_cases w G Hne) as [E|(p & Hp & E)]; [congruence|]. exists p. split; [done|congruence]. }
    destruct (w_data w !! ino) as [[|b t]|] eqn:Ed; cbn [default from_option id] in *; try done.
    destruct Hd as (p & Hp & E); [by rewrite Ht|]. rewrite E, (parse_dec p Hp). intros c.
    destruct Hb as [Hb|[(p' & pr & Hb & H1 & H2)|[Hb ->]]]; [congruence| |].
    - rewrite Ht in Hb. injection Hb as Hb.
      assert (p' = p) as ->.
      { pose proof (digits_dec p') as H3. rewrite <- Hb, E, digits_dec in H3. congruence. }
      apply (found_pkg _ p pr); [|done]. cbn. rewrite lookup_insert_ne; [done|]. congruence.
    - rewrite Ht in Hb. injection Hb as Hb.
      assert (q = p) as ->.
      { pose proof (digits_dec q) as H3. rewrite <- Hb, E, digits_dec in H3. congruence. }
      eapply found_pkg; [apply look|done]. }
  assert (forall c, (exists m, c = POpen m) \/ (exists m, c = PRead m ino)
      \/ (exists m z, c = PLook m z /\ parse_pid (default [] (w_data w !! ino)) = Some z) \/ c = PRefused ->
      exists c', run (spawned w q (Proc name c)) (alone q n) = spawned w q (Proc name c')
        /\ c' <> PUnlock /\ c' <> PServing) as H; [|apply H; left; by exists 2].
  assert (forall m, (exists m', failed m = POpen m') \/ failed m = PRefused) as Hfail.
  { intros [|m]; [by right|]. left. by exists m. }
  induction n as [|n IH]; intros c Hc.
  - exists c. split; [done|]. destruct Hc as [[? ->]|[[? ->]|[(? & ? & -> & _)| ->]]]; done.
  - unfold alone. cbn [repeat]. fold (alone q n). rewrite step_spawned.
    destruct Hc as [[m ->]|[[m ->]|[(m & z & -> & Hz)| ->]]]; unfold step_proc; cbn [p_pc].
    + cbn [w_pid spawned]. rewrite Hi. fold (spawned w q (Proc name (POpen m))). rewrite set_spawned. cbn [p_name].
      apply IH. right. left. by exists m.
    + cbn [w_data spawned]. fold (spawned w q (Proc name (PRead m ino))).
      destruct (parse_pid (default [] (w_data w !! ino))) as [z|] eqn:Ez.
      * rewrite set_spawned. cbn [p_name]. apply IH. right. right. left. by exists m, z.
      * rewrite set_spawned. cbn [p_name]. apply IH. destruct (Hfail m) as [[m' ->]| ->]; [left; by exists m'|by do 3 right].
    + rewrite Hz in Hp. rewrite (Hp (PLook m z)), set_spawned. cbn [p_name]. apply IH.
      destruct (Hfail m) as [[m' ->]| ->]; [left; by exists m'|by do 3 right].
    + apply IH. by do 3 right.
Qed.

Lemma barred_dec w q name : ginv w -> w_procs w !! q = None ->
  barred w q name \/
  (pid_text w <> Some [] /\ ~ claimed w /\ (pid_text w = Some (dec q) -> name <> PKG_NAME)).
Proof.
  intros G Hn. destruct (decide (pid_text w = Some [])) as [E|Hne]; [by left; left|].
  destruct (text_cases w G Hne) as [E|(p & Hp & E)].
  - right. split; [done|]. split; [intros (? & ? & H & _); congruence|]. congruence.
  - destruct (decide (p = q)) as [->|Hd].
    + destruct (decide (name = PKG_NAME)) as [->|Hm]; [left; right; by right|].
      right. split; [done|]. split; [|done]. intros (p & pr & H1 & H2 & _).
      assert (p = q) as ->.
      { pose proof (digits_dec p) as H3. assert (dec p = dec q) as Ed by congruence.
        rewrite Ed, digits_dec in H3. congruence. }
      congruence.
    + assert (dec p <> dec q) as Hx.
      { intros Ed. pose proof (digits_dec p) as H3. rewrite Ed, digits_dec in H3. congruence. }
      destruct (w_procs w !! p) as [pr|] eqn:Ep.
      * destruct (decide (p_name pr = PKG_NAME)) as [Em|Em]; [left; right; left; by exists p, pr|].
        right. split; [done|]. split; [|congruence]. intros (p' & pr' & H1 & H2 & H4).
        assert (p' = p) as ->.
        { pose proof (digits_dec p') as H3. assert (dec p' = dec p) as Ed by congruence.
          rewrite Ed, digits_dec in H3. congruence. }
        congruence.
      * right. split; [done|]. split; [|congruence]. intros (p' & pr' & H1 & H2 & H4).
        assert (p' = p) as ->.
        { pose proof (digits_dec p') as H3. assert (dec p' = dec p) as Ed by congruence.
          rewrite Ed, digits_dec in H3. congruence. }
        congruence.
Qed.

(** While a server runs, a second one that is started with nothing else going on comes to serve as
    well just when the pid file names no living process of the package's name (nor is empty). *)
Theorem C34_exactly :
  forall evs first second name,
    let w := run start evs in
    serving w first -> ~ alive w second -> (second < 2 ^ 31)%N ->
    (exists n, let w' := run w (Spawn second name true :: alone second n ++ [Passphrase second true]) in
       serving w' first /\ serving w' second)
    <-> pid_text w <> Some [] /\ ~ claimed w /\ (pid_text w = Some (dec second) -> name <> PKG_NAME).
Proof.
  intros evs first second name w [nm Hf] Hs Hlt.
  assert (w_procs w !! second = None) as Hn by (by apply eq_None_not_Some).
  assert (first <> second) as Hd by congruence.
  split.
  - intros (n & _ & H2). destruct (barred_dec w second name (ginv_run evs) Hn) as [Hb|Hb].
    + exfalso. rewrite app_comm_cons, run_app in H2.
      destruct (barred_alone w second name (ginv_run evs) Hn Hlt Hb n) as (c & E & H3 & H4).
      rewrite E in H2. cbn [run fold_left step] in H2. rewrite look in H2. cbn [p_pc] in H2.
      destruct H2 as [nm' H2].
      destruct c; try done; rewrite look in H2; congruence.
    + done.
  - intros (H1 & H2 & H3).
    destruct (start_alone w second name true Hn Hlt) as (n & Hp & _ & _).
    { apply unclaimed; [apply ginv_run|done|done| |done]. intros pid p H Ht Hm. apply H2. by exists pid, p. }
    exists n. cbv zeta in Hp |- *. split.
    + exists nm. by rewrite Hp, lookup_insert_ne.
    + exists name. by rewrite Hp, lookup_insert.
Qed.
Print Assumptions C34_exactly.

(** And a start that ends refused makes a server unreachable just in the same case: when it would
    have succeeded with the right passphrase. *)
Theorem C55_exactly :
  forall evs first second name,
    let w := run start evs in
    reachable_by_clients w first -> ~ alive w second -> (second < 2 ^ 31)%N ->
    (exists n ok, let w' := run w (Spawn second name true :: alone second n ++ [Passphrase second ok]) in
       refused w' second /\ ~ reachable_by_clients w' first)
    <-> pid_text w <> Some [] /\ ~ claimed w /\ (pid_text w = Some (dec second) -> name <> PKG_NAME).
Proof.
  intros evs first second name w [[nm Hf] Hk0] Hs Hlt.
  assert (w_procs w !! second = None) as Hn by (by apply eq_None_not_Some).
  assert (first <> second) as Hd by congruence. split.
  - intros (n & ok & _ & H2). destruct (barred_dec w second name (ginv_run evs) Hn) as [Hb|Hb]; [|done].
    exfalso. apply H2. rewrite app_comm_cons, run_app.
    destruct (barred_alone w second name (ginv_run evs) Hn Hlt Hb n) as (c & E & H3 & H4).
    rewrite E. cbn [run fold_left step]. rewrite look. cbn [p_pc].
    assert (match c with
            | PUnlock => set_pc (spawned w second (Proc name c)) second (Proc name c) (if ok then PServing else PRefused)
            | _ => spawned w second (Proc name c)
            end = spawned w second (Proc name c)) as -> by (by destruct c).
    split; [|done]. exists nm. cbn. by rewrite lookup_insert_ne.
  - intros (H1 & H2 & H3).
    destruct (start_alone w second name false Hn Hlt) as (n & Hp & Hk & _).
    { apply unclaimed; [apply ginv_run|done|done| |done]. intros pid p H Ht Hm. apply H2. by exists pid, p. }
    exists n, false. cbv zeta in Hp, Hk |- *. split.
    + exists name. by rewrite Hp, lookup_insert.
    + intros [_ H]. congruence.
Qed.
Print Assumptions C55_exactly.

(** ** Examples *)

Definition normal (pid : N) (name : bytes) : list event :=
  Spawn pid name true :: alone pid 8 ++ [Passphrase pid true].

(** A server, a refused second one, a crash and a restart, with another program around. *)
Example C34_ex :
  let evs := normal 10 PKG_NAME ++ [Spawn 20 (str "sh") false] ++ (Spawn 11 PKG_NAME true :: alone 11 9)
    ++ [Kill 10] ++ normal 12 PKG_NAME in
  orderly start evs /\ serving (run start evs) 12 /\ refused (run start evs) 11.
Proof.
  cbv zeta. split.
  - assert (forall w evs, (fix ok (w : world) (evs : list event) : bool :=
      match evs with
      | [] => true
      | e :: evs =>
          match e with
          | Spawn _ name true => beq name PKG_NAME && forallb (fun x => negb (starting (p_pc x.2))) (map_to_list (w_procs w))
          | _ => true
          end && ok (step w e) evs
      end) w evs = true -> orderly w evs) as H.
    { intros w evs. revert w. induction evs as [|e evs IH]; intros w; [done|]. cbn [orderly].
      intros [H1 H2]%andb_true_iff. split; [|by apply IH].
      destruct e as [q name [|]|q|q ok|q]; try done. apply andb_true_iff in H1 as [H1 H3].
      split; [by apply beq_true|]. intros pid p Hp. apply elem_of_map_to_list, elem_of_list_In in Hp.
      rewrite forallb_forall in H3. apply H3 in Hp. by apply negb_true_iff in Hp. }
    apply H. by vm_compute.
  - split; exists PKG_NAME; by vm_compute.
Qed.

Example C34_name_ex :
  let w := run start (normal 10 EXE_NAME) in
  serving w 10 /\ pid_text w = Some (str "10") /\ ~ alive w 11
  /\ (forall pid p, w_procs w !! pid = Some p -> p_name p = EXE_NAME)
  /\ reachable_by_clients w 10.
Proof.
  cbv zeta. assert (w_procs (run start (normal 10 EXE_NAME)) = {[10%N := Proc EXE_NAME PServing]}) as E
    by (apply map_eq; intros i; vm_compute; by destruct i).
  split; [exists EXE_NAME; by rewrite E|]. split; [by vm_compute|].
  split; [unfold alive; rewrite E; intros [x Hx]; done|]. split.
  - intros pid p H. rewrite E in H. apply lookup_singleton_Some in H as [_ <-]. done.
  - split; [exists EXE_NAME; by rewrite E|by vm_compute].
Qed.

(** The server dies; another starts. *)
Example C35_ex :
  let w := run start (normal 10 EXE_NAME ++ [Kill 10]) in
  pid_text w = Some (str "10") /\ ~ claimed w /\ ~ alive w 11
  /\ reachable_by_clients (run w (normal 11 EXE_NAME)) 11.
Proof.
  cbv zeta. assert (w_procs (run start (normal 10 EXE_NAME ++ [Kill 10])) = ∅) as E
    by (apply map_eq; intros i; vm_compute; by destruct i).
  split; [by vm_compute|]. split; [intros (p & pr & _ & H & _); by rewrite E in H|].
  split; [unfold alive; rewrite E; intros [x Hx]; done|].
  split; [exists EXE_NAME|]; by vm_compute.
Qed.

(** The recorded number went to another program of that name. *)
Example C35_reuse_ex :
  let w := run start (normal 10 PKG_NAME ++ [Kill 10; Spawn 10 PKG_NAME false]) in
  pid_text w = Some (dec 10) /\ (exists pr, w_procs w !! 10%N = Some pr /\ p_name pr = PKG_NAME)
  /\ refused (run w (Spawn 11 PKG_NAME true :: alone 11 9)) 11.
Proof.
  cbv zeta. split; [by vm_compute|]. split; [by eexists; vm_compute|]. exists PKG_NAME. by vm_compute.
Qed.

(** A second server comes and is refused, the first goes on. *)
Example C55_ex :
  let evs := normal 10 PKG_NAME in let more := Spawn 11 PKG_NAME true :: alone 11 9 in
  reachable_by_clients (run start evs) 10 /\ Kill 10 ∉ more
  /\ refused (run start (evs ++ more)) 11 /\ reachable_by_clients (run start (evs ++ more)) 10.
Proof.
  cbv zeta. split; [split; [exists PKG_NAME; by vm_compute|by vm_compute]|]. split.
  - intros H. apply elem_of_list_In in H. vm_compute in H.
    repeat (destruct H as [H|H]; [discriminate H|]). done.
  - split; [exists PKG_NAME; by vm_compute|]. split; [exists PKG_NAME; by vm_compute|by vm_compute].
Qed.

(** The same history under the two names. *)
Example C34_exactly_ex :
  (let w := run start (normal 10 EXE_NAME) in
   serving w 10 /\ ~ alive w 11 /\ pid_text w = Some (dec 10) /\ ~ claimed w
   /\ serving (run w (normal 11 EXE_NAME)) 10 /\ serving (run w (normal 11 EXE_NAME)) 11)
  /\ (let w := run start (normal 10 PKG_NAME) in
      reachable_by_clients w 10 /\ claimed w /\ ~ serving (run w (normal 11 PKG_NAME)) 11
      /\ reachable_by_clients (run w (normal 11 PKG_NAME)) 10).
Proof.
  assert (w_procs (run start (normal 10 EXE_NAME)) = {[10%N := Proc EXE_NAME PServing]}) as E
    by (apply map_eq; intros i; vm_compute; by destruct i).
  cbv zeta. split.
  - split; [exists EXE_NAME; by rewrite E|].
    split; [unfold alive; rewrite E; intros [x Hx]; done|]. split; [by vm_compute|].
    split; [|split; exists EXE_NAME; by vm_compute].
    intros (p & pr & _ & H & Hm). rewrite E in H. apply lookup_singleton_Some in H as [_ <-]. discriminate Hm.
  - split; [split; [exists PKG_NAME|]; by vm_compute|].
    split; [exists 10%N; eexists; split; [by vm_compute|]; split; [by vm_compute|done]|].
    split; [intros [nm H]; vm_compute in H; discriminate H|].
    split; [exists PKG_NAME|]; by vm_compute.
Qed.
