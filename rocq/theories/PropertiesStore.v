(** * PropertiesStore: the storage backends are interchangeable (C10) *)

From Verif Require Import Base Utf8 Toy Types Codec CodecProofs CodecProofs2 Secret Store StoreProofs.

(** ** The operations of a store and what the caller sees of them *)

Inductive store_op :=
| OWrite (e : entry)
| OGet (k : key)
| OList.

(** An answer, without the wording of errors. *)
Inductive store_answer :=
| AWrite (ok : bool)
| AGet (found : option entry)
| AList (infos : option (list entry_info)).

(** Equal up to the order of listings. *)
Definition same_answer (a b : store_answer) : Prop :=
  match a, b with
  | AList (Some l), AList (Some l') => l ≡ₚ l'
  | _, _ => a = b
  end.

Definition opt_of {A} (r : res A) : option A := match r with Ok a => Some a | Err _ => None end.

Fixpoint run_ops (S : store_impl) (s : st S) (ops : list store_op) : list store_answer :=
  match ops with
  | [] => []
  | OWrite e :: ops =>
      AWrite (is_ok (fst (st_write S s e))) :: run_ops S (snd (st_write S s e)) ops
  | OGet k :: ops => AGet (opt_of (st_get S s k)) :: run_ops S s ops
  | OList :: ops => AList (opt_of (st_list S s)) :: run_ops S s ops
  end.

(** What the answers should be, given the entries stored so far: a write succeeds if and
    only if none of the tag and public keys is taken. *)
Definition shares_key (e e' : entry) : bool :=
  beq (tag_of e) (tag_of e')
  || match seed_info_of e, seed_info_of e' with
     | Some a, Some b => beq (si_ed a) (si_ed b) || beq (si_x a) (si_x b)
     | _, _ => false
     end.
Definition found_by (k : key) (e : entry) : bool :=
  match k, seed_info_of e with
  | ByTag t, _ => beq (tag_of e) t
  | ByEd pk, Some si => beq (si_ed si) pk
  | ByX pk, Some si => beq (si_x si) pk
  | _, None => false
  end.

Fixpoint ideal (L : list entry) (ops : list store_op) : list store_answer :=
  match ops with
  | [] => []
  | OWrite e :: ops =>
      if existsb (shares_key e) L then AWrite false :: ideal L ops
      else AWrite true :: ideal (L ++ [e]) ops
  | OGet k :: ops => AGet (find (found_by k) L) :: ideal L ops
  | OList :: ops => AList (Some (map info_of L)) :: ideal L ops
  end.

(** What the types say of the entries written. *)
Definition op_ok (o : store_op) : Prop := match o with OWrite e => entry_ok e | _ => True end.

Lemma beq_sym a b : beq a b = beq b a.
Proof.
  destruct (beq a b) eqn:E1, (beq b a) eqn:E2; try done.
  - apply beq_true in E1. subst. by rewrite beq_refl in E2.
  - apply beq_true in E2. subst. by rewrite beq_refl in E1.
Qed.

Lemma taken_shares L e : taken L e = existsb (shares_key e) L.
Proof.
  apply eq_true_iff_eq. unfold taken. rewrite !existsb_exists. split.
  - intros (k & Hk & H). apply existsb_exists in H as (e' & He' & Hu). exists e'. split; [done|].
    unfold shares_key, keys_of in *. destruct Hk as [<-|Hk].
    + cbn in Hu. by rewrite beq_sym, Hu.
    + apply orb_true_iff. right. destruct (seed_info_of e) as [si|]; [|done].
      destruct Hk as [<-|[<-|[]]]; cbn in Hu; destruct (seed_info_of e') as [si'|]; try done;
        rewrite beq_sym in Hu; rewrite Hu; by rewrite ?orb_true_r.
  - intros (e' & He' & H). unfold shares_key, keys_of in *. apply orb_true_iff in H as [H|H].
    + exists (ByTag (tag_of e)). split; [by left|]. apply existsb_exists. exists e'. split; [done|].
      cbn. by rewrite beq_sym.
    + destruct (seed_info_of e) as [si|]; [|done]. destruct (seed_info_of e') as [si'|] eqn:E'; [|done].
      apply orb_true_iff in H as [H|H].
      * exists (ByEd (si_ed si)). split; [by right; left|]. apply existsb_exists. exists e'.
        split; [done|]. cbn. by rewrite E', beq_sym.
      * exists (ByX (si_x si)). split; [by right; right; left|]. apply existsb_exists. exists e'.
        split; [done|]. cbn. by rewrite E', beq_sym.
Qed.

Lemma under_found k e : under k e = found_by k e.
Proof. unfold under, found_by. by destruct k, (seed_info_of e). Qed.

Lemma find_ext {A} (f g : A -> bool) l : (forall x, f x = g x) -> find f l = find g l.
Proof. intros H. induction l as [|a l IH]; [done|]. cbn. by rewrite H, IH. Qed.

Lemma ideal_run S (SO : StoreOk S) : forall ops s L,
  st_rel S SO s L -> Forall op_ok ops -> Forall2 same_answer (run_ops S s ops) (ideal L ops).
Proof.
  induction ops as [|[e|k|] ops IH]; intros s L Hr Hok; [constructor|..];
    apply Forall_cons in Hok as [Ho Hok]; cbn [run_ops ideal].
  - pose proof (st_write_ok S SO s L e Hr Ho) as H. unfold spec_write in H.
    rewrite taken_shares in H. destruct (existsb (shares_key e) L); destruct H as [H1 H2].
    + rewrite H1. constructor; [done|]. by apply IH.
    + rewrite H1. constructor; [done|]. by apply IH.
  - constructor; [|by apply IH]. pose proof (st_get_ok S SO s L k Hr) as H. unfold spec_get in H.
    rewrite (find_ext _ _ _ (under_found k)) in H. cbn.
    destruct (find (found_by k) L) as [e|]; [by rewrite H|]. by destruct (st_get S s k).
  - constructor; [|by apply IH]. destruct (st_list_ok S SO s L Hr) as (l & -> & H). done.
Qed.

(** ** C10 *)

(** Each backend answers every sequence of operations as it should. *)
Theorem C10_memory_store_right :
  forall ops, Forall op_ok ops ->
    Forall2 same_answer (run_ops mem_store (st_init mem_store) ops) (ideal [] ops).
Proof. intros ops H. apply (ideal_run _ mem_store_ok); [apply (st_init_ok _ mem_store_ok)|done]. Qed.
Print Assumptions C10_memory_store_right.

Theorem C10_sqlite_store_right :
  forall ops, Forall op_ok ops ->
    Forall2 same_answer (run_ops sql_store (st_init sql_store) ops) (ideal [] ops).
Proof. intros ops H. apply (ideal_run _ sql_store_ok); [apply (st_init_ok _ sql_store_ok)|done]. Qed.
Print Assumptions C10_sqlite_store_right.

Lemma same_answer_trans a b c : same_answer a b -> same_answer c b -> same_answer a c.
Proof.
  destruct a as [| |[l|]], b as [| |[l'|]], c as [| |[l''|]]; cbn; try congruence.
  intros H1 H2. etrans; [exact H1|]. by symmetry.
Qed.

(** So they answer alike. *)
Theorem C10_same_answers :
  forall ops, Forall op_ok ops ->
    Forall2 same_answer (run_ops mem_store (st_init mem_store) ops)
                        (run_ops sql_store (st_init sql_store) ops).
Proof.
  intros ops H. pose proof (C10_memory_store_right ops H) as H1.
  pose proof (C10_sqlite_store_right ops H) as H2. revert H1 H2.
  generalize (run_ops mem_store (st_init mem_store) ops) as A.
  generalize (run_ops sql_store (st_init sql_store) ops) as B.
  generalize (ideal [] ops) as I.
  intros I B A H1. revert B. induction H1 as [|a i A I Hai HAI IH]; intros B HB.
  - by inversion HB.
  - inversion HB as [|b ? B' ? Hbi HBI]; subst. constructor; [by eapply same_answer_trans|by apply IH].
Qed.
Print Assumptions C10_same_answers.

(** A closed store opened again by a later process: the sqlite store answers as if it had
    not been closed. *)
Theorem C10_sqlite_reopened :
  forall ops ops', Forall op_ok ops -> Forall op_ok ops' ->
    let end_state := fold_left (fun s o => match o with OWrite e => snd (st_write sql_store s e) | _ => s end)
                       ops (st_init sql_store) in
    Forall2 same_answer (run_ops sql_store (st_reopen sql_store end_state) ops')
                        (drop (length ops) (ideal [] (ops ++ ops'))).
Proof.
  intros ops ops' Hok Hok'. cbv zeta.
  assert (G : forall ops s L, st_rel _ sql_store_ok s L -> Forall op_ok ops ->
    exists L', st_rel _ sql_store_ok
        (fold_left (fun s o => match o with OWrite e => snd (st_write sql_store s e) | _ => s end) ops s) L'
      /\ drop (length ops) (ideal L (ops ++ ops')) = ideal L' ops').
  { clear ops Hok. induction ops as [|[e|k|] ops IH]; intros s L Hr Hok.
    - by exists L.
    - apply Forall_cons in Hok as [Ho Hok]. cbn [fold_left app ideal].
      pose proof (st_write_ok _ sql_store_ok s L e Hr Ho) as H. unfold spec_write in H.
      rewrite taken_shares in H. destruct (existsb (shares_key e) L); destruct H as [H1 H2]; by apply IH.
    - apply Forall_cons in Hok as [Ho Hok]. by apply IH.
    - apply Forall_cons in Hok as [Ho Hok]. by apply IH. }
  destruct (G ops _ _ (st_init_ok _ sql_store_ok) Hok) as (L' & Hr & ->).
  apply (ideal_run _ sql_store_ok); [|done]. exact (st_reopen_ok _ sql_store_ok _ _ Hr).
Qed.
Print Assumptions C10_sqlite_reopened.

(** Two seeds, a duplicate tag, a duplicate key, lookups and a listing. *)
Definition ex_info (b : byte) : seed_info := SeedInfo (repeat b 32) (repeat b 32) true.
Definition ex_sec : secret := Sec (repeat x00 24) (repeat x00 49).
Definition ex_ops : list store_op :=
  [OWrite (ESeed (str "a") (ex_info x01) ex_sec);
   OWrite (EDeep (str "b") (ex_info x02) (repeat x00 16) 1 2 ex_sec);
   OWrite (ESeed (str "a") (ex_info x03) ex_sec);
   OWrite (ESeed (str "c") (ex_info x02) ex_sec);
   OGet (ByEd (repeat x02 32)); OGet (ByTag (str "c")); OList].
Example C10_ex :
  Forall op_ok ex_ops
  /\ run_ops sql_store (st_init sql_store) ex_ops
     = [AWrite true; AWrite true; AWrite false; AWrite false;
        AGet (Some (EDeep (str "b") (ex_info x02) (repeat x00 16) 1 2 ex_sec)); AGet None;
        AList (Some [ISeed (str "a") (ex_info x01); IDeep (str "b") (ex_info x02)])].
Proof.
  split; [|by vm_compute].
  unfold ex_ops. repeat constructor; cbn; try done; try (by vm_compute).
Qed.
