(** * ServerProofs: every handler only ever sends good messages *)

From Verif Require Import Base Utf8 Crypto Types Codec CodecProofs2 Secret Store StoreProofs
  Lru Server System ServerSpec.

Section Logic.
  Variable g : genv.
  Hypothesis HC : CryptoOk (g_crypto g).
  Notation C := (g_crypto g).

  (** The request: fixed while it is handled. *)
  Variable enc_key dec_key : bytes.
  Variable L0 : list entry.
  Variable u0 : bool.
  Variable rq : api.

  Definition wf (w : world) : Prop :=
    L0 `prefix_of` w_L w
    /\ (u0 = true -> w_unl w = true)
    /\ Forall (stored_ok g) (w_L w)
    /\ distinct (w_L w).

  Definition fut (w w' : world) : Prop := wle w w' /\ wf w'.

  Definition cached (w : world) (q : key) (f : full) : Prop :=
    f_entry f ∈ w_L w /\ q ∈ keys_of (f_entry f) /\ gen_full g (f_entry f) = Ok f.

  Definition ask_ok (w : world) (i k d : bytes) : Prop :=
    g_fallback g = true /\ w_unl w = true /\ (exists dp, rq = ReqSign i k dp d)
    /\ (w_fail w = true \/ forall e, e ∈ L0 -> ByEd k ∉ keys_of e).

  Definition may_write (w : world) (e : entry) : Prop :=
    w_unl w = true /\ asked g dec_key rq (w_L w) e.

  Definition may_unlock : Prop :=
    exists i s, rq = ReqUnlock i s /\ unlock_pk g dec_key s = Ok (g_id_pk g).

  (** What a program may do from the world [w] on, whatever the others do. *)
  Fixpoint ok {A} (w : world) (p : prog A) (Q : world -> A -> Prop) : Prop :=
    match p with
    | Ret a => forall w', fut w w' -> Q w' a
    | LoadUnlocked k => forall w', fut w w' -> ok w' (k (w_unl w')) Q
    | SetUnlocked k =>
        may_unlock /\ forall w', fut w w' -> w_unl w' = true -> ok w' k Q
    | Rand n k => forall w' b, fut w w' -> length b = n -> ok w' (k b) Q
    | StWrite e k =>
        (stored_ok g e /\ may_write w e) /\
        forall w', fut w w' ->
          (e ∈ w_L w' -> ok w' (k (Ok tt)) Q)
          /\ forall er, w_fail w' = true \/ taken (w_L w') e = true -> ok w' (k (Err er)) Q
    | StList k =>
        forall w', fut w w' ->
          (forall l, l ≡ₚ map info_of (w_L w') -> ok w' (k (Ok l)) Q)
          /\ forall er, w_fail w' = true -> ok w' (k (Err er)) Q
    | StGet q k =>
        forall w', fut w w' ->
          (forall e, e ∈ w_L w' -> q ∈ keys_of e -> ok w' (k (Ok e)) Q)
          /\ forall er, w_fail w' = true \/ (forall e, e ∈ w_L w' -> q ∉ keys_of e) ->
               ok w' (k (Err er)) Q
    | CacheGet q k =>
        forall w', fut w w' ->
          ok w' (k None) Q /\ forall f, cached w' q f -> ok w' (k (Some f)) Q
    | CachePut f k =>
        (f_entry f ∈ w_L w /\ gen_full g (f_entry f) = Ok f)
        /\ forall w', fut w w' -> ok w' k Q
    | CertGen k =>
        forall w', fut w w' ->
          (forall gc, g_rcgen g gc = true -> gencert_okb gc = true -> ok w' (k (Ok gc)) Q)
          /\ forall er, w_fail w' = true -> ok w' (k (Err er)) Q
    | AskFallback i pk d k =>
        forall w', fut w w' ->
          ask_ok w' i pk d /\
          forall w'' r, fut w' w'' -> FbCall i pk d r ∈ w_fb w'' ->
            (forall s, r = Ok s -> length s = 64) -> ok w'' (k r) Q
    | Send m k =>
        forall w', fut w w' ->
          good g enc_key dec_key L0 u0 rq w' m /\
          forall w'' r, fut w' w'' -> (is_ok r = false -> w_fail w'' = true) ->
            ok w'' (k r) Q
    | Crash => False
    end.

  Lemma wle_refl w : wle w w.
  Proof. by repeat split. Qed.

  Lemma wle_trans w1 w2 w3 : wle w1 w2 -> wle w2 w3 -> wle w1 w3.
  Proof.
    intros (A1 & A2 & A3 & A4) (B1 & B2 & B3 & B4). repeat split; auto.
    - by transitivity (w_L w2).
    - by transitivity (w_fb w2).
  Qed.

  Lemma fut_refl w : wf w -> fut w w.
  Proof. intros H. split; [apply wle_refl|done]. Qed.

  Lemma fut_trans w1 w2 w3 : wle w1 w2 -> fut w2 w3 -> fut w1 w3.
  Proof. intros H [H1 H2]. split; [by eapply wle_trans|done]. Qed.

  Lemma asked_app L z e : asked g dec_key rq L e -> asked g dec_key rq (L ++ z) e.
  Proof.
    destruct rq; cbn [asked]; try done.
    - intros (si & seed & e2 & seed2 & H1 & H2 & H3 & H4). exists si, seed, e2, seed2.
      split; [done|]. split; [done|]. split; [|done]. apply elem_of_app. by left.
    - intros (si & e0 & seed & H1 & H2). exists si, e0, seed. split; [|done].
      apply elem_of_app. by left.
  Qed.

  Lemma ok_mono {A} (p : prog A) w w' Q : wle w w' -> ok w p Q -> ok w' p Q.
  Proof.
    intros Hle. assert (Hf : forall v, fut w' v -> fut w v) by eauto using fut_trans.
    destruct p; cbn [ok]; try (intros; eauto; fail).
    - intros [H1 H2]. split; [done|]. intros; auto.
    - intros [[H1 [H1' H1'']] H2]. split; [|intros; auto]. split; [done|].
      split; [destruct Hle as (_ & H & _); auto|]. destruct Hle as ([k' Hk'] & _).
      rewrite Hk'. by apply asked_app.
    - intros [[H1 H1'] H2]. split; [|intros; auto]. split; [|done].
      destruct Hle as ([k Hk] & _). rewrite Hk. apply elem_of_app. by left.
  Qed.

  Lemma ok_conseq {A} (p : prog A) w (Q Q' : world -> A -> Prop) :
    (forall w a, Q w a -> Q' w a) -> ok w p Q -> ok w p Q'.
  Proof.
    intros HQ. revert w.
    induction p as [a|k IH|k IH|n k IH|e k IH|k IH|q k IH|q k IH|fe k IH|k IH|i pk d k IH|m k IH|];
      intros w; cbn [ok].
    - intros H w' Hf. auto.
    - intros H w' Hf. auto.
    - intros [H1 H2]. split; [done|]. intros w' Hf Hu. auto.
    - intros H w' b Hf Hb. auto.
    - intros [H1 H2]. split; [done|]. intros w' Hf. destruct (H2 w' Hf). split; intros; auto.
    - intros H w' Hf. destruct (H w' Hf). split; intros; auto.
    - intros H w' Hf. destruct (H w' Hf). split; intros; auto.
    - intros H w' Hf. destruct (H w' Hf). split; intros; auto.
    - intros [H1 H2]. split; [done|]. intros w' Hf. auto.
    - intros H w' Hf. destruct (H w' Hf). split; intros; auto.
    - intros H w' Hf. destruct (H w' Hf). split; [done|]. intros; auto.
    - intros H w' Hf. destruct (H w' Hf). split; [done|]. intros; auto.
    - done.
  Qed.

  Lemma ok_bind {A B} (p : prog A) (f : A -> prog B) w Q :
    ok w p (fun w a => ok w (f a) Q) -> wf w -> ok w (bind p f) Q.
  Proof.
    revert w.
    induction p as [a|k IH|k IH|n k IH|e k IH|k IH|q k IH|q k IH|fe k IH|k IH|i pk d k IH|m k IH|];
      intros w; cbn [ok bind].
    - intros H Hw. apply H. by apply fut_refl.
    - intros H Hw w' Hf. apply IH; [by apply H|apply Hf].
    - intros [H1 H2] Hw. split; [done|]. intros w' Hf Hu. apply IH; [by apply H2|apply Hf].
    - intros H Hw w' b Hf Hb. apply IH; [by apply H|apply Hf].
    - intros [H1 H2] Hw. split; [done|]. intros w' Hf. destruct (H2 w' Hf) as [H3 H4].
      split; intros; (apply IH; [auto|apply Hf]).
    - intros H Hw w' Hf. destruct (H w' Hf) as [H3 H4].
      split; intros; (apply IH; [auto|apply Hf]).
    - intros H Hw w' Hf. destruct (H w' Hf) as [H3 H4].
      split; intros; (apply IH; [auto|apply Hf]).
    - intros H Hw w' Hf. destruct (H w' Hf) as [H3 H4].
      split; intros; (apply IH; [auto|apply Hf]).
    - intros [H1 H2] Hw. split; [done|]. intros w' Hf. apply IH; [auto|apply Hf].
    - intros H Hw w' Hf. destruct (H w' Hf) as [H3 H4].
      split; intros; (apply IH; [auto|apply Hf]).
    - intros H Hw w' Hf. destruct (H w' Hf) as [H3 H4]. split; [done|].
      intros w'' r Hf' H5 H6. apply IH; [auto|apply Hf'].
    - intros H Hw w' Hf. destruct (H w' Hf) as [H3 H4]. split; [done|].
      intros w'' r Hf' H5. apply IH; [auto|apply Hf'].
    - done.
  Qed.

  (** The [?] operator. *)
  Lemma ok_bindr {A B} (p : prog (res A)) (f : A -> prog (res B)) w
      (P : world -> A -> Prop) (E : world -> bytes -> Prop) (Q : world -> res B -> Prop) :
    ok w p (fun w r => match r with Ok a => P w a | Err e => E w e end) ->
    wf w ->
    (forall w' a, fut w w' -> P w' a -> ok w' (f a) Q) ->
    (forall w' e, fut w w' -> E w' e -> Q w' (Err e)) ->
    ok w (bindr p f) Q.
  Proof.
    intros Hp Hw Hok Herr. unfold bindr. apply ok_bind; [|done].
    assert (Hstr : forall (q : prog (res A)) u, wle w u ->
       ok u q (fun w r => match r with Ok a => P w a | Err e => E w e end) ->
       ok u q (fun w' r => ok w' (orelse f r) Q)).
    { clear Hp Hw p. intros q.
      induction q as [a|k IH|k IH|n k IH|e k IH|k IH|q k IH|q k IH|fe k IH|k IH|i pk d k IH|m k IH|];
        intros u Hu; cbn [ok].
      - intros H w' Hf. destruct a as [a|e]; cbn [orelse].
        + apply Hok; [by eapply fut_trans|auto].
        + intros w'' Hf''. assert (fut u w'') by (eapply fut_trans; [apply Hf|done]).
          apply Herr; [by eapply fut_trans|auto].
      - intros H w' Hf. apply IH; [eapply wle_trans; [done|apply Hf]|auto].
      - intros [H1 H2]. split; [done|]. intros w' Hf Hu'.
        apply IH; [eapply wle_trans; [done|apply Hf]|auto].
      - intros H w' b Hf Hb. apply IH; [eapply wle_trans; [done|apply Hf]|auto].
      - intros [H1 H2]. split; [done|]. intros w' Hf. destruct (H2 w' Hf) as [H3 H4].
        split; intros; (apply IH; [eapply wle_trans; [done|apply Hf]|auto]).
      - intros H w' Hf. destruct (H w' Hf) as [H3 H4].
        split; intros; (apply IH; [eapply wle_trans; [done|apply Hf]|auto]).
      - intros H w' Hf. destruct (H w' Hf) as [H3 H4].
        split; intros; (apply IH; [eapply wle_trans; [done|apply Hf]|auto]).
      - intros H w' Hf. destruct (H w' Hf) as [H3 H4].
        split; intros; (apply IH; [eapply wle_trans; [done|apply Hf]|auto]).
      - intros [H1 H2]. split; [done|]. intros w' Hf.
        apply IH; [eapply wle_trans; [done|apply Hf]|auto].
      - intros H w' Hf. destruct (H w' Hf) as [H3 H4].
        split; intros; (apply IH; [eapply wle_trans; [done|apply Hf]|auto]).
      - intros H w' Hf. destruct (H w' Hf) as [H3 H4]. split; [done|].
        intros w'' r Hf' H5 H6. apply IH; [|auto].
        eapply wle_trans; [done|]. eapply wle_trans; [apply Hf|apply Hf'].
      - intros H w' Hf. destruct (H w' Hf) as [H3 H4]. split; [done|].
        intros w'' r Hf' H5. apply IH; [|auto].
        eapply wle_trans; [done|]. eapply wle_trans; [apply Hf|apply Hf'].
      - done. }
    apply Hstr; [apply wle_refl|done].
  Qed.

  Lemma ok_rand n w (Q : world -> res bytes -> Prop) :
    (forall w' b, fut w w' -> length b = n -> Q w' (Ok b)) -> ok w (rand n) Q.
  Proof.
    intros H w' b Hf Hb. cbn [ok]. intros w'' Hf'. apply H; [|done].
    eapply fut_trans; [apply Hf|done].
  Qed.

  Lemma wle_in w w' e : wle w w' -> e ∈ w_L w -> e ∈ w_L w'.
  Proof. intros ([k Hk] & _) H. rewrite Hk. apply elem_of_app. by left. Qed.

  Lemma wf_L0 w e : wf w -> e ∈ L0 -> e ∈ w_L w.
  Proof. intros ([k Hk] & _) H. rewrite Hk. apply elem_of_app. by left. Qed.

  Lemma wf_stored w e : wf w -> e ∈ w_L w -> stored_ok g e.
  Proof. intros (_ & _ & H & _) He. by eapply Forall_forall in H. Qed.

  Lemma wf_unique w e e' q : wf w -> e ∈ w_L w -> e' ∈ w_L w ->
    q ∈ keys_of e -> q ∈ keys_of e' -> e = e'.
  Proof.
    intros (_ & _ & _ & HD) H1 H2 H3 H4.
    pose proof (distinct_get _ _ _ HD H1 H3) as E1.
    pose proof (distinct_get _ _ _ HD H2 H4) as E2. congruence.
  Qed.

  (** ** Looking up an entry *)

  (** What the cached form of an entry says. *)
  Definition full_ok (f : full) : Prop :=
    match f_entry f with
    | ESeed _ si _ => exists seed, plain_seed g (f_entry f) seed
        /\ f_seed f = Some seed /\ f_exportable f = si_exportable si
        /\ f_ed_sk f = Some (sign_sk C seed) /\ f_x_sk f = Some (box_sk C seed)
    | _ => f_seed f = None /\ f_exportable f = false /\ f_ed_sk f = None /\ f_x_sk f = None
    end.

  Lemma gen_full_stored e : stored_ok g e ->
    exists f, gen_full g e = Ok f /\ f_entry f = e /\ full_ok f.
  Proof.
    intros [He Hs]. destruct e as [t si sec|t si salt ops mem sec|t ci sec].
    - destruct Hs as (seed & Ho & Hl & Hed & Hx). cbn [gen_full]. rewrite Ho. cbn [rbind].
      rewrite Hed, Hx, !beq_refl. cbn [negb]. eexists. split; [reflexivity|]. split; [done|].
      cbn [full_ok f_entry]. exists seed. split; [|done]. cbn [plain_seed].
      split; [done|]. split; [done|]. split; [done|done].
    - eexists. split; [reflexivity|]. done.
    - eexists. split; [reflexivity|]. done.
  Qed.

  Lemma gen_full_entry e f : gen_full g e = Ok f -> f_entry f = e.
  Proof.
    destruct e as [t si sec|t si salt ops mem sec|t ci sec]; cbn [gen_full].
    - destruct (sec_open C 32 (g_bidi g) sec) as [seed|]; [|done]. cbn [rbind].
      destruct (negb (beq (sign_pk C seed) (si_ed si))); [done|].
      destruct (negb (beq (box_pk C seed) (si_x si))); [done|]. by intros [= <-].
    - by intros [= <-].
    - by intros [= <-].
  Qed.

  Lemma gen_full_ok w e f : wf w -> e ∈ w_L w -> gen_full g e = Ok f -> full_ok f.
  Proof.
    intros Hw He Hg. destruct (gen_full_stored e) as (f' & Hg' & _ & Hf); [by eapply wf_stored|].
    congruence.
  Qed.

  Definition found (q : key) (w : world) (f : full) : Prop :=
    f_entry f ∈ w_L w /\ q ∈ keys_of (f_entry f) /\ full_ok f.

  Definition missing (q : key) (w : world) : Prop :=
    w_fail w = true \/ forall e, e ∈ L0 -> q ∉ keys_of e.

  Lemma ok_get_full q w (Q : world -> res full -> Prop) :
    (forall w' f, fut w w' -> found q w' f -> Q w' (Ok f)) ->
    (forall w' er, fut w w' -> missing q w' -> Q w' (Err er)) ->
    ok w (get_full g q) Q.
  Proof.
    intros HQ HE. unfold get_full. cbn [ok]. intros w1 Hf1. split.
    - unfold bindr. cbn [bind ok]. intros w2 Hf2.
      assert (Hf : fut w w2) by (eapply fut_trans; [apply Hf1|done]). split.
      + intros e He Hq. cbn [orelse].
        destruct (gen_full_stored e) as (f & Hg & <- & Hfo); [by eapply wf_stored; [apply Hf2|]|].
        rewrite Hg. cbn [orelse ok]. split; [done|]. intros w3 Hf3 w4 Hf4.
        assert (Hle : wle w2 w4) by (eapply wle_trans; [apply Hf3|apply Hf4]).
        apply HQ.
        * eapply fut_trans; [apply Hf|]. split; [done|apply Hf4].
        * split; [|done]. by eapply wle_in.
      + intros er Hm. cbn [orelse ok]. intros w3 Hf3. apply HE.
        * eapply fut_trans; [apply Hf|done].
        * destruct Hm as [Hm|Hm]; [left|right].
          { destruct Hf3 as [(_ & _ & H & _) _]. auto. }
          { intros e He. apply Hm. eapply wf_L0; [apply Hf2|done]. }
    - intros f (He & Hq & Hg). cbn [ok]. intros w2 Hf2. apply HQ.
      + eapply fut_trans; [apply Hf1|done].
      + split; [eapply wle_in; [apply Hf2|done]|]. split; [done|].
        eapply gen_full_ok; [apply Hf1|exact He|exact Hg].
  Qed.

  (** ** Sending *)

  Lemma ok_send m w (Q : world -> res unit -> Prop) :
    (forall w', fut w w' -> good g enc_key dec_key L0 u0 rq w' m) ->
    (forall w' r, fut w w' -> (is_ok r = false -> w_fail w' = true) -> Q w' r) ->
    ok w (send m) Q.
  Proof.
    intros Hg HQ. unfold send. cbn [ok]. intros w1 Hf1. split; [auto|].
    intros w2 r Hf2 Hr w3 Hf3. apply HQ.
    - eapply fut_trans; [apply Hf1|]. eapply fut_trans; [apply Hf2|done].
    - intros E. destruct Hf3 as [(_ & _ & H & _) _]. auto.
  Qed.

  (** The postcondition of every handler. *)
  Definition post (w : world) (r : res unit) : Prop :=
    is_ok r = false -> excuse g dec_key L0 u0 rq w.

  Lemma ok_send_post m w :
    (forall w', fut w w' -> right_answer g enc_key dec_key L0 rq w' m) ->
    ok w (send m) post.
  Proof.
    intros H. apply ok_send.
    - intros w' Hf. left. auto.
    - intros w' r Hf Hr E. left. auto.
  Qed.

  Lemma ok_check w (p : prog (res unit)) :
    open_request rq = false ->
    (forall w', fut w w' -> w_unl w' = true -> ok w' p post) ->
    ok w (check_unlocked p) post.
  Proof.
    intros Ho Hp. unfold check_unlocked. cbn [ok]. intros w' Hf.
    destruct (w_unl w') eqn:E; [auto|]. cbn [fail ok]. intros w'' Hf' _. right. left.
    split; [done|]. destruct u0 eqn:Eu; [|done].
    destruct Hf as (_ & _ & H & _). rewrite H in E; done.
  Qed.

  Lemma ok_fail w e : (forall w', fut w w' -> excuse g dec_key L0 u0 rq w') ->
    ok w (fail e : prog (res unit)) post.
  Proof. intros H. cbn [fail ok]. intros w' Hf _. auto. Qed.

  Lemma fut_unl w w' : fut w w' -> w_unl w = true -> w_unl w' = true.
  Proof. intros [(_ & H & _) _]. done. Qed.

  Lemma fut_fail w w' : fut w w' -> w_fail w = true -> w_fail w' = true.
  Proof. intros [(_ & _ & H & _) _]. done. Qed.

  Lemma fut_in w w' e : fut w w' -> e ∈ w_L w -> e ∈ w_L w'.
  Proof. intros [H _]. by apply wle_in. Qed.

  Lemma fut_tr w1 w2 w3 : fut w1 w2 -> fut w2 w3 -> fut w1 w3.
  Proof. intros [H _]. by apply fut_trans. Qed.

  (** ** Storing a seed *)

  Lemma seed_info_of_seed seed x : length seed = 32 ->
    seed_info_ok (SeedInfo (sign_pk C seed) (box_pk C seed) x)
    /\ keys_match g (SeedInfo (sign_pk C seed) (box_pk C seed) x) seed.
  Proof.
    intros Hl. split; [|by split].
    split; cbn [si_ed si_x]; [by apply (sign_pk_len C HC)|].
    unfold box_pk. apply (x_base_len C HC). by apply (box_sk_len C HC).
  Qed.

  Lemma taken_clash w e t seed si : taken (w_L w) e = true ->
    tag_of e = t -> seed_info_of e = Some si -> keys_match g si seed -> clash g w t seed.
  Proof.
    intros (k & e' & Hk & He' & Hk')%taken_spec Ht Hsi (_ & Hed & Hx). exists e'.
    split; [done|]. apply keys_cases in Hk as [->|(si' & Hsi' & [->| ->])].
    - left. apply keys_cases in Hk' as [[= E]|(si'' & _ & [E|E])]; congruence.
    - right; left. rewrite Hsi in Hsi'. injection Hsi' as <-. by rewrite <- Hed.
    - right; right. rewrite Hsi in Hsi'. injection Hsi' as <-. by rewrite <- Hx.
  Qed.

  Definition was_stored (t : bytes) (d : option dlp) (x : bool) (seed : bytes)
      (w : world) (si : seed_info) : Prop :=
    si_exportable si = x /\ exists e, e ∈ w_L w /\ holds_seed g dec_key e t d si seed.

  Lemma ok_insert_seed seed t x w (Q : world -> res seed_info -> Prop) :
    wf w -> w_unl w = true ->
    (forall w' e si, fut w w' -> si_exportable si = x -> holds_seed g dec_key e t None si seed ->
       asked g dec_key rq (w_L w') e) ->
    length seed = 32 -> text_ok t ->
    (forall w' si, fut w w' -> was_stored t None x seed w' si -> Q w' (Ok si)) ->
    (forall w' er, fut w w' -> w_fail w' = true \/ clash g w' t seed -> Q w' (Err er)) ->
    ok w (insert_seed g seed t x) Q.
  Proof.
    intros Hw Hu Hwr Hl Ht HQ HE. unfold insert_seed.
    eapply (ok_bindr _ _ _ (fun _ b => length b = 24) (fun _ _ => False));
      [by apply ok_rand|done| |done].
    intros w1 hdr Hf1 Hhdr.
    destruct (seed_info_of_seed seed x Hl) as [Hsi Hkm].
    set (si := SeedInfo (sign_pk C seed) (box_pk C seed) x) in *.
    set (e := ESeed t si (sec_encrypt C (g_bidi g) hdr seed)).
    assert (Hplain : plain_seed g e seed).
    { split; [|done]. rewrite <- Hl at 1. apply (sec_open_encrypt C HC). }
    unfold bindr. cbn [bind ok]. split.
    { split; [|split; [by eapply fut_unl|by apply (Hwr w1 e si Hf1 eq_refl); eexists]].
      split; [|by exists seed]. split; [done|]. split; [done|].
      pose proof (sec_encrypt_ok C HC (g_bidi g) hdr seed Hhdr) as H.
      by rewrite Hl in H. }
    intros w2 Hf2. split.
    - intros He. cbn [orelse ok]. intros w3 Hf3. apply HQ.
      + eapply fut_tr; [done|]. by eapply fut_tr.
      + split; [done|]. exists e. split; [by eapply fut_in|]. by eexists.
    - intros er Her. cbn [orelse ok]. intros w3 Hf3. apply HE.
      + eapply fut_tr; [done|]. by eapply fut_tr.
      + destruct Her as [Her|Her]; [left; by eapply fut_fail|right].
        assert (Hc : clash g w2 t seed) by (eapply taken_clash; [exact Her|done..]).
        destruct Hc as (e' & He' & Hc). exists e'. split; [by eapply fut_in|done].
  Qed.

  Lemma ok_insert_deep seed t ops mem pass x w (Q : world -> res seed_info -> Prop) d :
    wf w -> w_unl w = true ->
    (forall w' e si, fut w w' -> si_exportable si = x -> holds_seed g dec_key e t (Some d) si seed ->
       asked g dec_key rq (w_L w') e) ->
    length seed = 32 -> text_ok t -> dlp_ok d ->
    dl_ops d = ops -> dl_mem d = mem -> sec_open C 64 dec_key (dl_pass d) = Ok pass ->
    (forall w' si, fut w w' -> was_stored t (Some d) x seed w' si -> Q w' (Ok si)) ->
    (forall w' er, fut w w' ->
       w_fail w' = true \/ clash g w' t seed \/ bad_deep g dec_key (Some d) -> Q w' (Err er)) ->
    ok w (insert_deep_locked_seed g seed t ops mem pass x) Q.
  Proof.
    intros Hw Hu Hwr Hl Ht (Ho & Hm & _) <- <- Hpass HQ HE. unfold insert_deep_locked_seed.
    eapply (ok_bindr _ _ _ (fun _ b => length b = 16) (fun _ _ => False));
      [by apply ok_rand|done| |done].
    intros w1 salt Hf1 Hsalt.
    destruct (argon2id C pass salt (dl_ops d) (dl_mem d)) as [k|er] eqn:Ek; cbn [orelse].
    2:{ cbn [ok]. intros w2 Hf2. apply HE; [by eapply fut_tr|]. right. right.
        exists d. split; [done|]. right. exists pass, salt. by rewrite Ek. }
    eapply (ok_bindr _ _ _ (fun _ b => length b = 24) (fun _ _ => False));
      [by apply ok_rand|apply Hf1| |done].
    intros w2 hdr Hf2 Hhdr.
    destruct (seed_info_of_seed seed x Hl) as [Hsi Hkm].
    set (si := SeedInfo (sign_pk C seed) (box_pk C seed) x) in *.
    set (e := EDeep t si salt (dl_ops d) (dl_mem d) (sec_encrypt C k hdr seed)).
    assert (Hlocked : locked_seed g e pass seed).
    { exists k. split; [done|]. split; [|done]. rewrite <- Hl at 1.
      apply (sec_open_encrypt C HC). }
    unfold bindr. cbn [bind ok]. split.
    { split; [split|split]; [| |by do 2 (eapply fut_unl; [done|])|].
      3:{ apply (Hwr w2 e si); [by eapply fut_tr|done|]. by eexists _, _, _. }
      - split; [done|]. split; [done|]. split; [done|]. split; [done|]. split; [done|].
        pose proof (sec_encrypt_ok C HC k hdr seed Hhdr) as H. by rewrite Hl in H.
      - exists pass, seed. split; [by eapply sec_open_length|done]. }
    intros w3 Hf3. split.
    - intros He. cbn [orelse ok]. intros w4 Hf4. apply HQ.
      + eapply fut_tr; [done|]. eapply fut_tr; [done|]. by eapply fut_tr.
      + split; [done|]. exists e. split; [by eapply fut_in|].
        exists pass, salt, (sec_encrypt C k hdr seed). done.
    - intros er Her. cbn [orelse ok]. intros w4 Hf4. apply HE.
      + eapply fut_tr; [done|]. eapply fut_tr; [done|]. by eapply fut_tr.
      + destruct Her as [Her|Her]; [left; by eapply fut_fail|right; left].
        assert (Hc : clash g w3 t seed) by (eapply taken_clash; [exact Her|done..]).
        destruct Hc as (e' & He' & Hc). exists e'. split; [by eapply fut_in|done].
  Qed.

  Lemma ok_store_seed seed t d x w (Q : world -> res seed_info -> Prop) :
    wf w -> w_unl w = true ->
    (forall w' e si, fut w w' -> si_exportable si = x -> holds_seed g dec_key e t d si seed ->
       asked g dec_key rq (w_L w') e) ->
    length seed = 32 -> text_ok t -> opt_ok dlp_ok d ->
    (forall w' si, fut w w' -> was_stored t d x seed w' si -> Q w' (Ok si)) ->
    (forall w' er, fut w w' ->
       w_fail w' = true \/ clash g w' t seed \/ bad_deep g dec_key d -> Q w' (Err er)) ->
    ok w (store_seed g dec_key seed t d x) Q.
  Proof.
    intros Hw Hu Hwr Hl Ht Hd HQ HE. destruct d as [d|]; cbn [store_seed].
    - unfold open_pass. destruct (sec_open C 64 dec_key (dl_pass d)) as [pass|er] eqn:Ep;
        cbn [orelse].
      + by eapply ok_insert_deep.
      + cbn [ok]. intros w' Hf. apply HE; [done|]. right. right. exists d.
        split; [done|]. left. by rewrite Ep.
    - apply ok_insert_seed; try done. intros w' er Hf H. apply HE; [done|tauto].
  Qed.

End Logic.
