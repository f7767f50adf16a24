(** * PropertiesMigrate: encrypting an existing database (C33) *)

From Verif Require Import Base Migrate.

(** ** C33: encrypting an existing database survives a crash *)

(** Vocabulary: an unencrypted database and nothing else; the entries a started server finds;
    a sequence of starts, each dying after so many steps or running to its end. *)
Definition unencrypted {A} (a : A) : files A := Files (Some (Plain a)) None.
Definition finds {A} (empty : A) (key salt : bytes) (d : files A) (a : A) : Prop :=
  exists d', whole empty key salt true d = (MEnd (Ok tt), d') /\ f_store d' = Some (Cipher key salt a).
Definition attempts {A} (empty : A) (key salt : bytes) (starts : list (bool * nat)) (d : files A) : files A :=
  fold_left (fun d s => (attempt empty key salt s.1 s.2 d).2) starts d.
(** The file holds these entries. *)
Definition holds {A} (f : option (dbfile A)) (a : A) : Prop :=
  f = Some (Plain a) \/ exists k s, f = Some (Cipher k s a).

Lemma ended {A} (empty : A) key salt mig n r (d : files A) : msteps empty key salt mig n (MEnd r) d = (MEnd r, d).
Proof. by induction n. Qed.

Lemma opens_own {A} (empty : A) key salt a : opens empty key salt (Some (Cipher key salt a)) = Some (Cipher key salt a).
Proof. cbn. by rewrite !beq_refl. Qed.

(** What an attempt makes of an unencrypted database. *)
Lemma attempt_plain {A} (empty : A) key salt n a :
  attempt empty key salt true n (unencrypted a) =
  match n with
  | 0 => (MOpen, unencrypted a)
  | 1 => (MExport, unencrypted a)
  | 2 => (MRemove, Files (Some (Plain a)) (Some (Cipher key salt a)))
  | 3 => (MRename, Files None (Some (Cipher key salt a)))
  | 4 => (MReopen, Files (Some (Cipher key salt a)) None)
  | _ => (MEnd (Ok tt), Files (Some (Cipher key salt a)) None)
  end.
Proof.
  destruct n as [|[|[|[|[|n]]]]]; try done. unfold attempt. cbn [msteps mstep opens f_store unencrypted f_enc].
  rewrite !beq_refl. cbn [andb]. apply ended.
Qed.

Lemma attempt_plain_off {A} (empty : A) key salt n a :
  (attempt empty key salt false n (unencrypted a)).2 = unencrypted a.
Proof. destruct n as [|n]; [done|]. unfold attempt. cbn. by rewrite ended. Qed.

(** A database of this key. *)
Lemma attempt_own {A} (empty : A) key salt mig n a e :
  (attempt empty key salt mig n (Files (Some (Cipher key salt a)) e)).2 = Files (Some (Cipher key salt a)) e
  /\ whole empty key salt mig (Files (Some (Cipher key salt a)) e) = (MEnd (Ok tt), Files (Some (Cipher key salt a)) e).
Proof.
  split; [|unfold whole, attempt, enough; cbn; by rewrite !beq_refl].
  destruct n as [|n]; [done|]. unfold attempt. cbn [msteps mstep f_store]. rewrite opens_own. by rewrite ended.
Qed.

(** Not interrupted, the entries are there, and the unencrypted file is gone. *)
Theorem C33_uninterrupted :
  forall A (empty : A) key salt a,
    finds empty key salt (unencrypted a) a
    /\ (whole empty key salt true (unencrypted a)).2 = Files (Some (Cipher key salt a)) None.
Proof.
  intros A empty key salt a. unfold finds, whole, enough. rewrite attempt_plain.
  split; [|done]. by eexists.
Qed.
Print Assumptions C33_uninterrupted.

(** Any number of starts, with or without migration, dying anywhere as long as none of them
    leaves the "-encrypted" file behind: a later start finds the entries.
    Missing for the full property: dying between the export and its replacing the store file
    ([C33_blocked_refuted], [C33_emptied_refuted]). *)
Theorem C33_survives_partial :
  forall A (empty : A) key salt a starts,
    (forall some others, starts = some ++ others ->
       f_enc (attempts empty key salt some (unencrypted a)) = None) ->
    finds empty key salt (attempts empty key salt starts (unencrypted a)) a.
Proof.
  intros A empty key salt a starts Hs.
  assert (attempts empty key salt starts (unencrypted a) = unencrypted a
    \/ attempts empty key salt starts (unencrypted a) = Files (Some (Cipher key salt a)) None) as H.
  { assert (forall d, d = unencrypted a \/ d = Files (Some (Cipher key salt a)) None ->
      (forall some others, starts = some ++ others -> f_enc (attempts empty key salt some d) = None) ->
      attempts empty key salt starts d = unencrypted a
      \/ attempts empty key salt starts d = Files (Some (Cipher key salt a)) None) as H; [|auto].
    clear Hs. induction starts as [|[mig n] starts IH]; intros d Hd Hs; [done|].
    unfold attempts. cbn [fold_left fst snd]. apply IH.
    - pose proof (Hs [(mig, n)] starts eq_refl) as Hn. cbn [attempts fold_left fst snd] in Hn.
      destruct Hd as [->| ->].
      + destruct mig; [|left; apply attempt_plain_off]. rewrite attempt_plain in Hn |- *.
        destruct n as [|[|[|[|[|n]]]]]; cbn in Hn; auto; done.
      + right. by apply attempt_own.
    - intros some others ->. by apply (Hs ((mig, n) :: some) others). }
  destruct H as [->| ->].
  - by apply C33_uninterrupted.
  - eexists. split; [apply (attempt_own _ _ _ _ 0)|done].
Qed.
Print Assumptions C33_survives_partial.

(** Whatever happens, the entries are in one of the two files. *)
Theorem C33_never_gone :
  forall A (empty : A) key salt a starts,
    let d := attempts empty key salt starts (unencrypted a) in
    holds (f_store d) a \/ holds (f_enc d) a.
Proof.
  intros A empty key salt a starts. cbv zeta.
  assert (forall d, (f_store d = Some (Plain a) /\ (f_enc d = None \/ f_enc d = Some (Cipher key salt a)))
    \/ (f_store d = Some (Cipher key salt a) /\ f_enc d = None)
    \/ ((f_store d = None \/ exists x, f_store d = Some (Cipher key salt x)) /\ f_enc d = Some (Cipher key salt a)) ->
    holds (f_store (attempts empty key salt starts d)) a \/ holds (f_enc (attempts empty key salt starts d)) a) as H.
  2: { apply H. left. auto. }
  induction starts as [|[mig n] starts IH]; intros d Hd.
  - unfold holds. cbn. destruct Hd as [[-> _]|[[-> _]|[_ ->]]]; eauto.
  - unfold attempts. cbn [fold_left fst snd]. apply IH.
    destruct d as [m e]. cbn [f_store f_enc] in Hd. destruct Hd as [[-> [-> | ->]]|[[-> ->]|[Hm ->]]].
    + destruct mig.
      * change (Files (Some (Plain a)) None) with (unencrypted a). rewrite attempt_plain.
        destruct n as [|[|[|[|[|n]]]]]; cbn; eauto 10.
      * change (Files (Some (Plain a)) None) with (unencrypted a). rewrite attempt_plain_off. cbn. eauto.
    + left. unfold attempt. destruct n as [|n]; [cbn; eauto|]. destruct mig; cbn; [|rewrite ended; cbn; eauto].
      destruct n as [|n]; [cbn; eauto|]. cbn. rewrite ended. cbn. eauto.
    + destruct (attempt_own empty key salt mig n a None) as [-> _]. cbn. auto.
    + right. right. destruct Hm as [->|[x ->]].
      * unfold attempt. destruct n as [|n]; [cbn; eauto|]. cbn. rewrite ended. cbn. eauto.
      * destruct (attempt_own empty key salt mig n x (Some (Cipher key salt a))) as [-> _]. cbn. eauto.
Qed.
Print Assumptions C33_never_gone.

(** False of the code, first: dying after the export and before the removal.  No later start
    with migration succeeds. *)
Theorem C33_blocked_refuted :
  forall A (empty : A) key salt a,
    exists n, let d := (attempt empty key salt true n (unencrypted a)).2 in
    forall starts, attempts empty key salt starts d = d
      /\ forall mig, exists e, (whole empty key salt mig (attempts empty key salt starts d)).1 = MEnd (Err e).
Proof.
  intros A empty key salt a. exists 2. cbv zeta. rewrite attempt_plain. cbn [snd]. intros starts.
  assert (attempts empty key salt starts (Files (Some (Plain a)) (Some (Cipher key salt a)))
    = Files (Some (Plain a)) (Some (Cipher key salt a))) as E.
  { induction starts as [|[mig n] starts IH]; [done|]. unfold attempts. cbn [fold_left fst snd].
    assert ((attempt empty key salt mig n (Files (Some (Plain a)) (Some (Cipher key salt a)))).2
      = Files (Some (Plain a)) (Some (Cipher key salt a))) as ->; [|done].
    unfold attempt. destruct n as [|n]; [done|]. destruct mig; cbn; [|by rewrite ended].
    destruct n as [|n]; [done|]. cbn. by rewrite ended. }
  rewrite E. split; [done|]. intros []; by eexists.
Qed.
Print Assumptions C33_blocked_refuted.

(** Second: dying between the removal and the renaming.  Every later start succeeds, with no
    entries at all. *)
Theorem C33_emptied_refuted :
  forall A (empty : A) key salt a, empty <> a ->
    exists n, let d := (attempt empty key salt true n (unencrypted a)).2 in
    forall starts, finds empty key salt (attempts empty key salt starts d) empty
      /\ ~ finds empty key salt (attempts empty key salt starts d) a.
Proof.
  intros A empty key salt a Hne. exists 3. cbv zeta. rewrite attempt_plain. cbn [snd]. intros starts.
  assert (finds empty key salt (attempts empty key salt starts (Files None (Some (Cipher key salt a)))) empty) as H.
  { assert (attempts empty key salt starts (Files None (Some (Cipher key salt a))) = Files None (Some (Cipher key salt a))
      \/ attempts empty key salt starts (Files None (Some (Cipher key salt a)))
        = Files (Some (Cipher key salt empty)) (Some (Cipher key salt a))) as H.
    { assert (forall d, d = Files None (Some (Cipher key salt a))
        \/ d = Files (Some (Cipher key salt empty)) (Some (Cipher key salt a)) ->
        attempts empty key salt starts d = Files None (Some (Cipher key salt a))
        \/ attempts empty key salt starts d = Files (Some (Cipher key salt empty)) (Some (Cipher key salt a))) as H; [|auto].
      induction starts as [|[mig n] starts IH]; intros d Hd; [done|]. unfold attempts. cbn [fold_left fst snd].
      apply IH. destruct Hd as [-> | ->].
      - unfold attempt. destruct n as [|n]; [auto|]. cbn. rewrite ended. auto.
      - right. apply attempt_own. }
    destruct H as [-> | ->]; eexists; [split; [reflexivity|done]|split; [apply (attempt_own _ _ _ _ 0)|done]]. }
  split; [done|]. destruct H as (d' & H1 & H2). intros (d2 & H3 & H4). congruence.
Qed.
Print Assumptions C33_emptied_refuted.

(** All the states that starts can leave behind. *)
Lemma left_behind {A} (empty : A) key salt a starts :
  let d := attempts empty key salt starts (unencrypted a) in
  let c := Some (Cipher key salt a) in
  d = unencrypted a \/ d = Files c None \/ d = Files (Some (Plain a)) c \/ d = Files None c
  \/ d = Files (Some (Cipher key salt empty)) c.
Proof.
  cbv zeta. induction starts as [|[mig n] starts IH] using rev_ind; [by left|].
  unfold attempts. rewrite fold_left_app. cbn [fold_left fst snd].
  change (fold_left _ starts (unencrypted a)) with (attempts empty key salt starts (unencrypted a)).
  destruct IH as [->|[->|[->|[->| ->]]]].
  - destruct mig; [|left; apply attempt_plain_off]. rewrite attempt_plain.
    destruct n as [|[|[|[|[|n]]]]]; cbn; auto.
  - right. left. apply attempt_own.
  - right. right. left. unfold attempt. destruct n as [|n]; [done|]. destruct mig; cbn; [|by rewrite ended].
    destruct n as [|n]; [done|]. cbn. by rewrite ended.
  - unfold attempt. destruct n as [|n]; [auto|]. cbn. rewrite ended. auto.
  - do 4 right. apply attempt_own.
Qed.

(** So the entries are found exactly when no start has died in this window: exactly when
    there is no "-encrypted" file. *)
Theorem C33_exactly :
  forall A (empty : A) key salt a, empty <> a ->
  forall starts, let d := attempts empty key salt starts (unencrypted a) in
    finds empty key salt d a <-> f_enc d = None.
Proof.
  intros A empty key salt a Hne starts. cbv zeta.
  destruct (left_behind empty key salt a starts) as [->|[->|[->|[->| ->]]]].
  - split; [done|]. intros _. apply C33_uninterrupted.
  - split; [done|]. intros _. eexists. split; [apply (attempt_own _ _ _ _ 0)|done].
  - split; [|done]. intros (d' & H & _). done.
  - split; [|done]. intros (d' & H & H'). vm_compute in H. injection H as <-. cbn in H'. by injection H'.
  - split; [|done]. intros (d' & H & H'). rewrite (proj2 (attempt_own empty key salt true 0 empty _)) in H.
    injection H as <-. cbn in H'. by injection H'.
Qed.
Print Assumptions C33_exactly.

(** An encrypted database is never changed by a start, with whatever key, nor an unencrypted one
    when migration is not asked for. *)
Theorem C33_encrypted_untouched :
  forall A (empty : A) key salt starts k s a e,
    attempts empty key salt starts (Files (Some (Cipher k s a)) e) = Files (Some (Cipher k s a)) e.
Proof.
  intros A empty key salt starts k s a e. induction starts as [|[mig n] starts IH]; [done|].
  unfold attempts. cbn [fold_left fst snd].
  assert ((attempt empty key salt mig n (Files (Some (Cipher k s a)) e)).2 = Files (Some (Cipher k s a)) e) as ->; [|done].
  unfold attempt. destruct n as [|n]; [done|]. cbn. destruct (beq k key && beq s salt); [by rewrite ended|].
  destruct mig; [|by rewrite ended]. destruct n as [|n]; [done|]. cbn. by rewrite ended.
Qed.
Print Assumptions C33_encrypted_untouched.

Theorem C33_unasked_untouched :
  forall A (empty : A) key salt a n, (attempt empty key salt false n (unencrypted a)).2 = unencrypted a.
Proof. intros. apply attempt_plain_off. Qed.
Print Assumptions C33_unasked_untouched.

(** Three starts, two of which die, and the entries. *)
Example C33_ex :
  finds [] (str "key") (str "salt")
    (attempts [] (str "key") (str "salt") [(true, 1); (false, 7); (true, 4)] (unencrypted [str "a"; str "b"]))
    [str "a"; str "b"].
Proof. eexists. by vm_compute. Qed.
