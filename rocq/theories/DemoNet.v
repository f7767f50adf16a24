(** * DemoNet: a small keystore with clients over byte streams, to try the theorems of [PropertiesNet] on *)

From Verif Require Import Base Utf8 Crypto Toy Types Codec Secret Store StoreProofs Lru Server System
  ServerVocab Wire Handshake Client Asks WorldVocab Net NetVocab NetProofs NetProofs2.
From Verif Require Demo DemoWorld.

Notation env := DemoWorld.env.
Notation drawn := DemoWorld.drawn.

Definition drawn_keys (b : byte) : eph :=
  Eph (Demo.fill 32 b) (Demo.fill 32 x51) (Demo.fill 32 x52) (Demo.fill 24 x53) (Demo.fill 32 x54) (Demo.fill 32 x55)
    (Demo.fill 24 x56).

(** The bytes under way, in two pieces. *)
Definition carry (n : net sql_store env) (cid : nat) (up : bool) : list nevent :=
  match n_links n !! cid with
  | Some l =>
      let h := if up then x_up l else x_down l in
      let b := drop (length (ch_fed h)) (t_wire (ch_snd h)) in
      [NDeliver cid up (take 7 b); NDeliver cid up (drop 7 b)]
  | None => []
  end.

(** Events that depend on what has happened before. *)
Definition script := list (net sql_store env -> list nevent).
Fixpoint play (n : net sql_store env) (s : script) : list nevent :=
  match s with
  | [] => []
  | f :: s => let es := f n in es ++ play (fold_left (nstep sql_store env) es n) s
  end.

Definition ask_part (cid k : nat) (id : string) (a : ask) : script :=
  [fun _ => [NAsk cid (drawn id) a; NClient cid (Begin k); NWrite cid k None; NClient cid (Sent k true)];
   fun n => carry n cid true].
Definition serve_part (cid k : nat) (b : byte) : script :=
  [fun _ => NServe cid :: repeat (NServer (EvStep cid k (Demo.fine b)) 0) 15;
   fun n => carry n cid false].
Definition ncall (cid k : nat) (id : string) (a : ask) (b : byte) : script :=
  ask_part cid k id a ++ serve_part cid k b ++ [fun _ => [NTake cid; NClient cid (Poll k)]].

(** One client makes a seed, another one looks it up and signs. *)
Definition script1 : script :=
  [fun _ => [NConnect 1 Demo.demo_seed (drawn_keys x50)]]
  ++ ncall 1 0 "a0" (AUnlock DemoWorld.pass) x00 ++ ncall 1 1 "a1" (ANewSeed (str "s") None true) x0a
  ++ [fun _ => [NConnect 2 Demo.demo_seed (drawn_keys x60)]] ++ ncall 2 0 "b0" (AUnlock DemoWorld.pass) x00.
Definition script2 : script :=
  ncall 2 1 "b1" (AGet (str "s")) x00 ++ ncall 2 2 "b2" (ASign (si_ed DemoWorld.infoS) None (str "data")) x00.

Definition one : list nevent := Eval vm_compute in play (ninit sql_store env) script1.
Definition two : list nevent := Eval vm_compute in play (nrun sql_store env one) script2.

(** The second client asks again, and while its answer is under way ... *)
Definition pending : list nevent :=
  Eval vm_compute in play (nrun sql_store env (one ++ two)) (ask_part 2 3 "b3" AList ++ serve_part 2 3 x00).

(** ... the network changes one bit of it, and sends the server an old message again. *)
Definition flip (b : bytes) : bytes := match rev b with x :: r => rev ((if Byte.eqb x x00 then x01 else x00) :: r) | [] => [] end.
Definition tamper : list nevent :=
  Eval vm_compute in
    play (nrun sql_store env (one ++ two))
      (ask_part 2 3 "b3" AList ++ take 1 (serve_part 2 3 x00)
       ++ [fun n => match n_links n !! 2 with
                    | Some l =>
                        let h := x_down l in
                        [NDeliver 2 false (flip (drop (length (ch_fed h)) (t_wire (ch_snd h)))); NTake 2;
                         NDeliver 2 true (t_wire (ch_snd (x_up l))); NServe 2]
                    | None => []
                    end]).

(** ** Computable checks *)

Definition link_is (evs : list nevent) (cid : nat) (f : nlink env -> bool) : bool :=
  match n_links (nrun sql_store env evs) !! cid with Some l => f l | None => false end.
Lemma link_is_ok evs cid f : link_is evs cid f = true -> exists l, nlink_at sql_store env evs cid l /\ f l = true.
Proof. unfold link_is, nlink_at. destruct (n_links _ !! cid) as [l|]; [by exists l|done]. Qed.

(** At all times [f] holds of all connections. *)
Fixpoint always (f : nlink env -> bool) (n : net sql_store env) (evs : list nevent) : bool :=
  forallb (fun x => f (snd x)) (map_to_list (n_links n))
  && match evs with [] => true | e :: evs => always f (nstep sql_store env n e) evs end.

Lemma always_ok f evs : forall n pre cid l, always f n evs = true -> pre `prefix_of` evs ->
  n_links (fold_left (nstep sql_store env) pre n) !! cid = Some l -> f l = true.
Proof.
  assert (H0 : forall (n : net sql_store env) cid l, forallb (fun x => f (snd x)) (map_to_list (n_links n)) = true ->
    n_links n !! cid = Some l -> f l = true).
  { intros n cid l H Hl. rewrite forallb_forall in H. apply (H (cid, l)). apply elem_of_list_In. by apply elem_of_map_to_list. }
  induction evs as [|e evs IH]; intros n pre cid l H [z Hz] Hl; cbn [always] in H; apply andb_prop in H as [H1 H2].
  - destruct pre; [|done]. by eapply H0.
  - destruct pre as [|e' pre]; [by eapply H0|]. cbn in Hz. injection Hz as <- Hz.
    eapply (IH (nstep sql_store env n e) pre cid l); [done|by exists z|done].
Qed.

Fixpoint agree (out : list (bytes * bytes * bool)) (got : list bytes) : bool :=
  match got, out with
  | [], _ => true
  | c :: got, (_, c', true) :: out => beq c c' && agree out got
  | _, _ => false
  end.
Lemma agree_ok (h : chan env) : agree (ch_out h) (ch_got h) = true -> ~ misread env h.
Proof.
  intros H (i & c & Hc & Hn). revert i Hc Hn H. generalize (ch_out h) as out. induction (ch_got h) as [|c0 got IH]; intros out i Hc Hn H; [done|].
  cbn in H. destruct out as [|[[p c'] [|]] out]; try done. apply andb_prop in H as [H1 H2]. apply beq_true in H1 as <-.
  destruct i as [|i]; [injection Hc as ->; by apply (Hn p)|]. by apply (IH out i).
Qed.

Definition all_agree (l : nlink env) : bool :=
  agree (ch_out (x_up l)) (ch_got (x_up l)) && agree (ch_out (x_down l)) (ch_got (x_down l)).
Lemma not_forged evs : always all_agree (ninit sql_store env) evs = true -> ~ forged sql_store env evs.
Proof.
  intros H (p & cid & l & Hp & Hl & Hm). pose proof (always_ok _ _ _ p cid l H Hp Hl) as E.
  unfold all_agree in E. apply andb_prop in E as [E1 E2].
  destruct Hm as [Hm|Hm]; [by apply (agree_ok (x_up l))|by apply (agree_ok (x_down l))].
Qed.

Definition honestb (h : chan env) : bool :=
  bool_decide (ch_fed h `prefix_of` t_wire (ch_snd h))
  && forallb (fun x => N.leb (N.of_nat (length x.1.2)) MAX_FRAME) (ch_out h).
Lemma honestb_ok h : honestb h = true -> honest env h.
Proof.
  unfold honestb. intros H. apply andb_prop in H as [H1 H2]. split; [by apply (bool_decide_eq_true_1 _ H1)|].
  intros x Hx. rewrite forallb_forall in H2. apply N.leb_le. apply H2. by apply elem_of_list_In.
Qed.
Lemma faithful_ok evs : always (fun l => honestb (x_up l) && honestb (x_down l)) (ninit sql_store env) evs = true ->
  faithful sql_store env evs.
Proof.
  intros H p cid l Hp Hl. pose proof (always_ok _ _ _ p cid l H Hp Hl) as E. apply andb_prop in E as [E1 E2].
  split; by apply honestb_ok.
Qed.

Definition typedb (e : nevent) : bool :=
  match e with
  | NAsk _ (Draws id h1 h2 _) a =>
      match a with
      | AHello _ | AUnlock _ | AList => true
      | AGet t | ANewSeed t _ _ => utf8 t && N.ltb (N.of_nat (length t)) (2 ^ 32)
      | ASign k _ m => Nat.eqb (length k) 32 && N.ltb (N.of_nat (length m)) (2 ^ 32)
      | _ => false
      end && utf8 id && N.ltb (N.of_nat (length id)) (2 ^ 32) && Nat.eqb (length h1) 24 && Nat.eqb (length h2) 24
  | NClient _ (NewCall _) => false
  | _ => true
  end.
Lemma typedb_ok evs : forallb typedb evs = true -> Forall ntyped evs.
Proof.
  intros H. apply Forall_forall. intros e He. rewrite forallb_forall in H. specialize (H e (proj1 (elem_of_list_In _ _) He)).
  destruct e as [| [] [id h1 h2 lm] a|cid e| | | | | |]; try done.
  1-2: cbn [typedb] in H; repeat (apply andb_prop in H as [H ?]);
    repeat match goal with
    | X : N.ltb _ _ = true |- _ => apply N.ltb_lt in X
    | X : Nat.eqb _ _ = true |- _ => apply Nat.eqb_eq in X
    end;
    (split; [|done]); destruct a; try done; repeat (apply andb_prop in H as [H ?]);
    repeat match goal with
    | X : N.ltb _ _ = true |- _ => apply N.ltb_lt in X
    | X : Nat.eqb _ _ = true |- _ => apply Nat.eqb_eq in X
    end; done.
  by destruct e.
Qed.

Definition napart (evs : list nevent) : bool :=
  forallb (fun x => bool_decide (NoDup (map (fun c => msg_id (c_req c)) (k_calls (x_cli (snd x))))))
    (map_to_list (n_links (nrun sql_store env evs))).
Lemma napart_ids evs : napart evs = true -> nids_differ sql_store env evs.
Proof.
  intros H cid l Hl. unfold napart in H. rewrite forallb_forall in H.
  assert (Hi : In (cid, l) (map_to_list (n_links (nrun sql_store env evs)))).
  { apply elem_of_list_In. by apply elem_of_map_to_list. }
  by apply (bool_decide_eq_true_1 _ (H _ Hi)).
Qed.

#[local] Existing Instance Demo.api_eq_dec.
(** What call [k] gave back. *)
Definition ngave (evs : list nevent) (cid k : nat) (id : string) (a : ask) : option (res value) :=
  match n_links (nrun sql_store env evs) !! cid with
  | Some l =>
      match k_calls (x_cli l) !! k with
      | Some c =>
          match c_st c with
          | CEnd o => if bool_decide (c_req c = request_of toy (x_enc l) (drawn id) a)
                      then match o with Answer _ _ => give_back toy (x_dec l) a (c_req c) o | _ => None end else None
          | _ => None
          end
      | None => None
      end
  | None => None
  end.
Lemma ngave_gives evs cid k id a v : text_ok (str id) -> ngave evs cid k id a = Some v ->
  ngives sql_store env evs cid k a v /\ nreplied sql_store env evs cid k.
Proof.
  intros Hid. unfold ngave. destruct (n_links _ !! cid) as [l|] eqn:El; [|done].
  destruct (k_calls (x_cli l) !! k) as [c|] eqn:Ec; [|done]. destruct (c_st c) as [| | |o] eqn:Es; try done.
  case_bool_decide as Hq; [|done]. destruct o as [n m| | | |] eqn:Eo; try done. intros Hv. split.
  - exists l, c, (drawn id), (Answer n m). done.
  - by exists l, c, n, m.
Qed.

Lemma calm_nsmooth evs cid k : DemoWorld.calm sql_store cid (init sql_store) (nserver_evs sql_store env evs) = true ->
  nsmooth sql_store env evs cid k.
Proof.
  intros H l cl c tid rq _ (p & Hp & Hc & Hq) _. pose proof (DemoWorld.calm_all sql_store cid _ _ p c H Hp Hc) as HF.
  rewrite Forall_forall in HF. apply HF. by eapply elem_of_list_lookup_2.
Qed.
Lemma ngave_well evs cid k id a v : text_ok (str id) -> ngave evs cid k id a = Some v ->
  DemoWorld.calm sql_store cid (init sql_store) (nserver_evs sql_store env evs) = true -> nwell sql_store env evs cid k a v.
Proof.
  intros Hid H Hs. destruct (ngave_gives _ _ _ _ _ _ Hid H). split; [done|]. split; [done|]. by apply calm_nsmooth.
Qed.
Lemma nabsent evs cid k : link_is evs cid (fun l => Nat.leb (length (k_calls (x_cli l))) k) = true ->
  nnot_made sql_store env evs cid k.
Proof.
  intros H l c [Hl Hc]. apply link_is_ok in H as (l' & Hl' & H). unfold nlink_at in *. rewrite Hl in Hl'. injection Hl' as <-.
  apply Nat.leb_le in H. apply lookup_lt_Some in Hc. lia.
Qed.
