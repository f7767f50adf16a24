(** * ServerProofs2: each handler, one by one *)

From Verif Require Import Base Utf8 Crypto Types Codec CodecProofs2 Secret Store StoreProofs
  Lru Server System ServerSpec ServerProofs.

Section Handlers.
  Variable g : genv.
  Hypothesis HC : CryptoOk (g_crypto g).
  Notation C := (g_crypto g).
  Variable enc dec : bytes.
  Variable L0 : list entry.
  Variable u0 : bool.

  Notation okp rq w p := (ok g enc dec L0 u0 rq w p (post g dec L0 u0 rq)).
  Notation wf := (wf g L0 u0).
  Notation fut := (fut g L0 u0).

  (** Looking up an entry and going on. *)
  Lemma okp_get_full rq q w (f : full -> prog (res unit)) :
    wf w ->
    (forall w' fl, fut w w' -> found g q w' fl -> okp rq w' (f fl)) ->
    (forall w', fut w w' -> (forall e, e ∈ L0 -> q ∉ keys_of e) ->
       own_excuse g dec L0 rq w') ->
    okp rq w (bindr (get_full g q) f).
  Proof.
    intros Hw Hf Hm.
    eapply (ok_bindr _ _ _ _ _ _ _ _ _ (found g q) (fun w _ => missing L0 q w)).
    - eapply ok_get_full; auto.
    - done.
    - done.
    - intros w' e Hf' Hmiss _. destruct Hmiss as [H|H]; [by left|]. right. right. auto.
  Qed.

  Lemma okp_rand rq n w (f : bytes -> prog (res unit)) :
    wf w ->
    (forall w' b, fut w w' -> length b = n -> okp rq w' (f b)) ->
    okp rq w (bindr (rand n) f).
  Proof.
    intros Hw Hf.
    eapply (ok_bindr _ _ _ _ _ _ _ _ _ (fun _ b => length b = n) (fun _ _ => False)); auto.
    - by apply ok_rand.
    - done.
  Qed.

  Lemma okp_or {A} rq w (r : res A) (f : A -> prog (res unit)) :
    (forall a, r = Ok a -> okp rq w (f a)) ->
    (is_ok r = false -> forall w', fut w w' -> own_excuse g dec L0 rq w') ->
    okp rq w (orelse f r).
  Proof.
    intros H1 H2. destruct r as [a|e]; cbn [orelse]; [auto|].
    cbn [ok]. intros w' Hf _. right. right. auto.
  Qed.

  Lemma okp_send rq m w :
    (forall w', fut w w' -> right_answer g enc dec L0 rq w' m) -> okp rq w (send m).
  Proof. apply ok_send_post. Qed.

  Lemma okp_check rq w p :
    open_request rq = false ->
    (forall w', fut w w' -> w_unl w' = true -> okp rq w' p) ->
    okp rq w (check_unlocked p).
  Proof. apply ok_check. Qed.

  Lemma fut_wf w w' : fut w w' -> wf w'.
  Proof. by intros []. Qed.

  Hint Resolve fut_wf : core.

  Ltac futs := first [eassumption
    | match goal with H : ServerProofs.fut _ _ _ ?a _ |- ServerProofs.fut _ _ _ ?a _ =>
        eapply fut_tr; [exact H|]; futs end].
  Ltac unl := match goal with H : w_unl _ = true |- w_unl _ = true =>
    eapply fut_unl; [|exact H]; futs end.
  Ltac inL := match goal with H : ?e ∈ w_L _ |- ?e ∈ w_L _ =>
    eapply fut_in; [|exact H]; futs end.
  Ltac failed := match goal with H : w_fail _ = true |- w_fail _ = true =>
    eapply fut_fail; [|exact H]; futs end.

  (** Only a seed that is not deep locked has its secrets at hand. *)
  Lemma full_seed f : full_ok g f -> forall seed, f_seed f = Some seed ->
    plain_seed g (f_entry f) seed /\ f_exportable f = exportable (f_entry f).
  Proof.
    unfold full_ok, exportable. intros H seed Hs.
    destruct (f_entry f) as [t si sec|t si salt o m sec|t ci sec].
    - destruct H as (s & Hp & Hfs & Hx & _). assert (s = seed) as -> by congruence.
      split; [done|]. by rewrite Hx.
    - destruct H as (H & _). congruence.
    - destruct H as (H & _). congruence.
  Qed.

  Lemma full_plain f seed : full_ok g f -> plain_seed g (f_entry f) seed ->
    f_seed f = Some seed /\ f_ed_sk f = Some (sign_sk C seed)
    /\ f_x_sk f = Some (box_sk C seed) /\ f_exportable f = exportable (f_entry f).
  Proof.
    unfold full_ok, exportable. intros H Hp.
    destruct (f_entry f) as [t si sec|t si salt o m sec|t ci sec]; try done.
    destruct H as (s & Hp' & Hfs & Hx & He & Hxs).
    assert (s = seed) as -> by (destruct Hp as [Hp _], Hp' as [Hp' _]; congruence).
    auto.
  Qed.

  Lemma full_none f : full_ok g f ->
    (f_seed f = None \/ f_ed_sk f = None \/ f_x_sk f = None) ->
    forall seed, ~ plain_seed g (f_entry f) seed.
  Proof.
    intros H Hn seed Hp. destruct (full_plain f seed H Hp) as (E1 & E2 & E3 & _).
    destruct Hn as [Hn|[Hn|Hn]]; congruence.
  Qed.

  Lemma full_ed f k : full_ok g f -> f_ed_sk f = Some k ->
    exists seed, plain_seed g (f_entry f) seed /\ k = sign_sk C seed.
  Proof.
    unfold full_ok. intros H Hs.
    destruct (f_entry f) as [t si sec|t si salt o m sec|t ci sec].
    - destruct H as (s & Hp & Hfs & Hx & He & _). exists s. split; [done|congruence].
    - destruct H as (_ & _ & H & _). congruence.
    - destruct H as (_ & _ & H & _). congruence.
  Qed.

  Lemma full_x f k : full_ok g f -> f_x_sk f = Some k ->
    exists seed, plain_seed g (f_entry f) seed /\ k = box_sk C seed.
  Proof.
    unfold full_ok. intros H Hs.
    destruct (f_entry f) as [t si sec|t si salt o m sec|t ci sec].
    - destruct H as (s & Hp & Hfs & Hx & He & Hx'). exists s. split; [done|congruence].
    - destruct H as (_ & _ & _ & H). congruence.
    - destruct H as (_ & _ & _ & H). congruence.
  Qed.

  Lemma plain_keys e seed : plain_seed g e seed ->
    length seed = 32 /\ ByEd (sign_pk C seed) ∈ keys_of e /\ ByX (box_pk C seed) ∈ keys_of e.
  Proof.
    destruct e as [t si sec|t si salt o m sec|t ci sec]; try done.
    intros (_ & Hl & Hed & Hx). split; [done|]. rewrite <- Hed, <- Hx.
    split; [by apply keys_ed|by apply keys_x].
  Qed.

  Lemma keys_tag_inv e t : ByTag t ∈ keys_of e -> tag_of e = t.
  Proof. intros [[= ->]|(si & _ & [E|E])]%keys_cases; done. Qed.

  Lemma plain_ed e seed k : plain_seed g e seed -> ByEd k ∈ keys_of e -> k = sign_pk C seed.
  Proof.
    intros Hp [E|(si & Hsi & [[= ->]|E])]%keys_cases; try done.
    destruct e as [t si' sec|t si' salt o m sec|t ci sec]; try done.
    destruct Hp as (_ & _ & H & _). cbn in Hsi. by injection Hsi as <-.
  Qed.

  Lemma plain_x e seed k : plain_seed g e seed -> ByX k ∈ keys_of e -> k = box_pk C seed.
  Proof.
    intros Hp [E|(si & Hsi & [E|[= ->]])]%keys_cases; try done.
    destruct e as [t si' sec|t si' salt o m sec|t ci sec]; try done.
    destruct Hp as (_ & _ & _ & H). cbn in Hsi. by injection Hsi as <-.
  Qed.

  (** The entry found is the one that was there when the request came in. *)
  Lemma found_L0 w q f e : wf w -> found g q w f -> e ∈ L0 -> q ∈ keys_of e -> e = f_entry f.
  Proof.
    intros Hw (H1 & H2 & _) He Hq.
    eapply wf_unique; [exact Hw|by eapply wf_L0|exact H1|exact Hq|exact H2].
  Qed.

  Lemma h_hello_ok w id : wf w -> okp (ReqHello id) w (h_hello g id).
  Proof. intros Hw. apply okp_send. intros w' Hf. by split. Qed.

  Lemma h_unlock_ok w id s : wf w -> okp (ReqUnlock id s) w (h_unlock g dec id s).
  Proof.
    intros Hw. unfold h_unlock. apply okp_or.
    - intros pk Hpk. destruct (beq (g_id_pk g) pk) eqn:E.
      + apply beq_true in E as <-. cbn [ok]. split; [by exists id, s|].
        intros w' Hf Hu. apply okp_send. intros w'' Hf''. split; [done|]. split; [done|].
        by eapply fut_unl.
      + apply beq_false in E. apply ok_fail. intros w' Hf. right. right. cbn. congruence.
    - intros H w' Hf. cbn. by destruct (unlock_pk g dec s).
  Qed.

  Lemma h_get_entry_ok w id t : wf w -> okp (ReqGetEntry id t) w (h_get_entry g id t).
  Proof.
    intros Hw. apply okp_check; [done|]. intros w1 Hf1 Hu.
    apply okp_get_full; [eauto| |].
    - intros w2 f Hf2 (He & Hq & _). apply okp_send. intros w3 Hf3.
      split; [done|]. split; [unl|]. exists (f_entry f). split; [inL|].
      split; [by apply keys_tag_inv|done].
    - intros w2 Hf2 Hm e He Ht. apply (Hm e He). rewrite <- Ht. apply keys_tag.
  Qed.

  Lemma h_list_ok w id : wf w -> okp (ReqListEntries id) w (h_list id).
  Proof.
    intros Hw. apply okp_check; [done|]. intros w1 Hf1 Hu. unfold bindr. cbn [bind ok].
    intros w2 Hf2. split.
    - intros l Hl. cbn [orelse]. apply okp_send. intros w3 Hf3. split; [done|].
      split; [unl|]. exists (w_L w2). split; [apply Hf2|]. split; [apply Hf3|done].
    - intros er Her. cbn [orelse ok]. intros w3 Hf3 _. left. by eapply fut_fail.
  Qed.

  Lemma h_new_seed_ok w id t d x : wf w -> api_ok (ReqNewSeed id t d x) ->
    okp (ReqNewSeed id t d x) w (h_new_seed g dec id t d x).
  Proof.
    intros Hw (_ & Ht & Hd). apply okp_check; [done|]. intros w1 Hf1 Hu.
    eapply (ok_bindr _ _ _ _ _ _ _ _ _
      (fun w si => exists seed, was_stored g dec t d x seed w si)
      (fun w _ => w_fail w = true \/ own_excuse g dec L0 (ReqNewSeed id t d x) w)).
    - destruct d as [d|].
      + unfold open_pass. destruct (sec_open C 64 dec (dl_pass d)) as [pass|er] eqn:Ep;
          cbn [orelse].
        * unfold new_deep_locked_seed.
          eapply (ok_bindr _ _ _ _ _ _ _ _ _ (fun _ b => length b = 32) (fun _ _ => False));
            [by apply ok_rand|eauto| |done].
          intros w2 seed Hf2 Hl. eapply ok_insert_deep; try done; [eauto|unl| | |].
          { intros w3 e si Hf3 Hx Hh. by exists si, seed. }
          { intros w3 si Hf3 H. by exists seed. }
          { intros w3 er Hf3 [H|[H|H]]; [by left|right..].
            - right. by exists seed.
            - by left. }
        * cbn [ok]. intros w2 Hf2. right. left. exists d. split; [done|]. left. by rewrite Ep.
      + unfold new_seed.
        eapply (ok_bindr _ _ _ _ _ _ _ _ _ (fun _ b => length b = 32) (fun _ _ => False));
          [by apply ok_rand|eauto| |done].
        intros w2 seed Hf2 Hl. eapply ok_insert_seed; try done; [eauto|unl| | |].
        { intros w3 e si Hf3 Hx Hh. by exists si, seed. }
        { intros w3 si Hf3 H. by exists seed. }
        { intros w3 er Hf3 [H|H]; [by left|right; right]. by exists seed. }
    - eauto.
    - intros w2 si Hf2 (seed & Hx & e & He & Hh). apply okp_send. intros w3 Hf3.
      split; [done|]. split; [unl|]. split; [done|]. split; [done|].
      exists e, seed. split; [inL|done].
    - intros w2 e Hf2 [H|H] _; [by left|right; by right].
  Qed.

  (** Answering after a seed has been stored. *)
  Lemma okp_store rq w seed t d x (f : seed_info -> prog (res unit)) :
    wf w -> w_unl w = true ->
    (forall w' e si, fut w w' -> si_exportable si = x -> holds_seed g dec e t d si seed ->
       asked g dec rq (w_L w') e) ->
    length seed = 32 -> text_ok t -> opt_ok dlp_ok d ->
    (forall w' si, fut w w' -> was_stored g dec t d x seed w' si -> okp rq w' (f si)) ->
    (forall w', fut w w' -> clash g w' t seed \/ bad_deep g dec d -> own_excuse g dec L0 rq w') ->
    okp rq w (bindr (store_seed g dec seed t d x) f).
  Proof.
    intros Hw Hu Hwr Hl Ht Hd HQ HE.
    eapply (ok_bindr _ _ _ _ _ _ _ _ _ (was_stored g dec t d x seed)
      (fun w _ => w_fail w = true \/ clash g w t seed \/ bad_deep g dec d)).
    - apply ok_store_seed; auto.
    - done.
    - done.
    - intros w' e Hf H _. destruct H as [H|H]; [by left|right; right; auto].
  Qed.

  Lemma h_export_ok w id t s r d : wf w ->
    okp (ReqExportSeed id t s r d) w (h_export g id t s r).
  Proof.
    intros Hw. apply okp_check; [done|]. intros w1 Hf1 Hu.
    apply okp_get_full; [eauto| |].
    2:{ intros w2 Hf2 Hm e e2 He _ Ht _. exfalso. apply (Hm e He). rewrite <- Ht. apply keys_tag. }
    intros w2 sf Hf2 Hsf.
    apply okp_get_full; [eauto| |].
    2:{ intros w3 Hf3 Hm e e2 _ He2 _ Hk. exfalso. by apply (Hm e2 He2). }
    intros w3 ef Hf3 Hef.
    apply okp_rand; [eauto|]. intros w4 n Hf4 Hn.
    pose proof Hsf as (Hs1 & Hs2 & Hs3). pose proof Hef as (He1 & He2 & He3).
    apply okp_or.
    - intros c Hc. destruct (f_x_sk ef) as [xsk|] eqn:Ex; [|done].
      destruct (f_seed sf) as [seed|] eqn:Es; [|done].
      destruct (f_exportable sf) eqn:Eexp; [|done]. cbn [negb] in Hc.
      apply okp_send. intros w5 Hf5. split; [done|]. split; [unl|]. split; [done|].
      destruct (full_seed _ Hs3 _ Es) as [Hp Hexp].
      destruct (full_x _ _ He3 Ex) as (seed2 & Hp2 & ->).
      exists (f_entry sf), seed, (f_entry ef), seed2.
      split; [inL|]. split; [by apply keys_tag_inv|]. split; [done|].
      split; [congruence|]. split; [inL|]. split; [done|].
      split; [by eapply plain_x|done].
    - intros Hc w5 Hf5 e e2 He He2' Ht Hk.
      assert (e = f_entry sf) as ->.
      { eapply found_L0; [|exact Hsf|done|rewrite <- Ht; apply keys_tag]. eauto. }
      assert (e2 = f_entry ef) as -> by (eapply found_L0; [|exact Hef|done|done]; eauto).
      destruct (f_x_sk ef) as [xsk|] eqn:Ex.
      + destruct (f_seed sf) as [seed|] eqn:Es.
        * destruct (full_seed _ Hs3 _ Es) as [Hp Hexp].
          destruct (f_exportable sf) eqn:Eexp; [|left; congruence]. cbn [negb] in Hc.
          destruct (full_x _ _ He3 Ex) as (seed2 & Hp2 & ->).
          right. right. right. by exists n, seed, seed2.
        * right. left. apply full_none; auto.
      + right. right. left. apply full_none; auto.
  Qed.

  Lemma h_import_ok w id s r d n c t x : wf w -> api_ok (ReqImportSeed id s r d n c t x) ->
    okp (ReqImportSeed id s r d n c t x) w (h_import g dec id s r d n c t x).
  Proof.
    intros Hw (_ & _ & _ & Hd & _ & _ & Ht). apply okp_check; [done|]. intros w0 Hf0 Hu0.
    apply okp_check; [done|]. intros w1 Hf1 Hu.
    apply okp_get_full; [eauto| |].
    2:{ intros w2 Hf2 Hm. right. left. intros e2 seed2 seed He2 Hp -> _ _.
        apply (Hm e2 He2). by destruct (plain_keys _ _ Hp) as (_ & _ & ?). }
    intros w2 f Hf2 Hfound. pose proof Hfound as (H1 & H2 & H3).
    apply okp_or.
    - intros seed Hseed.
      destruct (Nat.eqb_spec (length c) (32 + MACBYTES)) as [Hlc|]; [|done]. cbn [negb] in Hseed.
      destruct (f_x_sk f) as [xsk|] eqn:Ex; [|done].
      destruct (full_x _ _ H3 Ex) as (seed2 & Hp2 & ->).
      assert (Hl : length seed = 32) by (apply (box_open_len C HC) in Hseed; lia).
      assert (Hr : r = box_pk C seed2) by (by eapply plain_x).
      apply okp_store; [eauto|unl| |done..| |].
      + intros w3 e si Hf3 Hx Hh. exists si, seed, (f_entry f), seed2.
        split; [done|]. split; [done|]. split; [inL|done].
      + intros w3 si Hf3 (Hx & e & He & Hh). apply okp_send. intros w4 Hf4.
        split; [done|]. split; [unl|]. split; [done|]. split; [done|].
        exists e, seed, (f_entry f), seed2.
        split; [inL|]. split; [done|]. split; [done|]. split; [done|]. split; [inL|done].
      + intros w3 Hf3 [Hc|Hb]; [|by left]. right. right.
        exists (f_entry f), seed2, seed. split; [inL|]. done.
    - intros Hc w3 Hf3. right. left. intros e2 seed2 seed He2 Hp Hr Hl Ho.
      assert (e2 = f_entry f) as ->.
      { eapply found_L0; [|exact Hfound|done|]; [eauto|]. rewrite Hr.
        by destruct (plain_keys _ _ Hp) as (_ & _ & ?). }
      destruct (full_plain _ _ H3 Hp) as (_ & _ & Ex & _). rewrite Ex, Ho in Hc.
      apply (box_open_len C HC) in Ho.
      destruct (Nat.eqb_spec (length c) (32 + MACBYTES)); [done|lia].
  Qed.

  Lemma derive_path_length seed p : length seed = 32 -> length (derive_path g seed p) = 32.
  Proof.
    unfold derive_path. revert seed. induction p as [|i p IH]; intros seed H; [done|].
    cbn [fold_left]. apply IH. apply (kdf_len C HC).
  Qed.

  Lemma derive_source_ok e d seed x : stored_ok g e ->
    derive_source g dec e d = Ok (seed, x) ->
    source_seed g dec e d seed /\ x = exportable e /\ length seed = 32.
  Proof.
    intros [_ Hst]. destruct e as [t si sec|t si salt ops mem sec|t ci sec], d as [d|];
      cbn [derive_source]; try done.
    - destruct (sec_open C 32 (g_bidi g) sec) as [s|] eqn:Eo; [|done]. intros [= <- <-].
      destruct Hst as (s' & Ho & Hk). assert (s' = s) as -> by congruence.
      split; [by split|]. split; [done|apply Hk].
    - unfold deep_key, open_pass. destruct (sec_open C 64 dec (dl_pass d)) as [p|] eqn:Ep; [|done].
      cbn [rbind]. destruct (argon2id C p salt (dl_ops d) (dl_mem d)) as [k|] eqn:Ek; [|done].
      cbn [rbind]. destruct (sec_open C 32 k sec) as [s|] eqn:Eo; [|done]. intros [= <- <-].
      split; [by exists p, k|]. split; [done|]. by eapply sec_open_length.
  Qed.

  Lemma derive_source_err e d : is_ok (derive_source g dec e d) = false ->
    forall seed, ~ source_seed g dec e d seed.
  Proof.
    destruct e as [t si sec|t si salt ops mem sec|t ci sec], d as [d|];
      cbn [derive_source source_seed]; intros He seed; try (by intros []).
    - intros (Ho & _). by rewrite Ho in He.
    - intros (p & k & Hp & Hk & Ho). unfold deep_key, open_pass in He.
      rewrite Hp in He. cbn [rbind] in He. rewrite Hk in He. cbn [rbind] in He.
      by rewrite Ho in He.
  Qed.

  Lemma h_derive_ok w id s sd t td p : wf w -> api_ok (ReqDeriveSeed id s sd t td p) ->
    okp (ReqDeriveSeed id s sd t td p) w (h_derive g dec id s sd t td p).
  Proof.
    intros Hw (_ & _ & _ & Ht & Htd & _). apply okp_check; [done|]. intros w1 Hf1 Hu.
    unfold bindr at 1. cbn [bind ok]. intros w2 Hf2. split.
    - intros e He Hq. cbn [orelse]. apply keys_tag_inv in Hq.
      apply okp_or.
      + intros [seed x] Hsrc. cbn [fst snd].
        destruct (derive_source_ok e sd seed x) as (Hs & Hx & Hl);
          [eapply wf_stored; [|exact He]; eauto|done|].
        apply okp_store; [eauto|unl| |by apply derive_path_length|done|done| |].
        * intros w3 e2 si Hf3 Hx' Hh. exists si, e, seed. split; [inL|]. split; [done|].
          split; [done|]. split; [congruence|done].
        * intros w3 si Hf3 (Hx' & e2 & He2 & Hh). apply okp_send. intros w4 Hf4.
          split; [done|]. split; [unl|]. exists e, seed, e2.
          split; [inL|]. split; [done|]. split; [done|]. split; [inL|].
          split; [congruence|done].
        * intros w3 Hf3 [Hc|Hb]; [|by left]. right. right. exists e, seed.
          split; [inL|]. done.
      + intros Hsrc w3 Hf3. right. left. intros e' seed He' Ht' Hs.
        assert (e' = e) as ->.
        { eapply (wf_unique g L0 u0 w2 e' e (ByTag s)).
          - eauto.
          - eapply wf_L0; [eauto|done].
          - done.
          - rewrite <- Ht'. apply keys_tag.
          - rewrite <- Hq. apply keys_tag. }
        by eapply derive_source_err.
    - intros er Hm. cbn [orelse ok]. intros w3 Hf3 _. destruct Hm as [Hm|Hm].
      + left. by eapply fut_fail.
      + right. right. right. left. intros e seed He Hte _. apply (Hm e).
        * eapply wf_L0; [|done]. eauto.
        * rewrite <- Hte. apply keys_tag.
  Qed.

  Lemma sign_key_ok f d k : full_ok g f -> sign_key g dec f d = Ok k ->
    exists seed, signing_seed g dec (f_entry f) d seed /\ k = sign_sk C seed.
  Proof.
    unfold full_ok, sign_key, signing_seed.
    destruct (f_entry f) as [t si sec|t si salt ops mem sec|t ci sec]; [| |].
    - intros (seed & Hp & _ & _ & He & _). rewrite He. intros [= <-]. by exists seed.
    - intros _. destruct d as [s|]; [|by destruct (f_ed_sk f)].
      intros H. assert (H' : rbind (deep_key g dec s ops mem salt) (fun k => rmap (sign_sk C)
        (sec_open C 32 k sec)) = Ok k) by (by destruct (f_ed_sk f)). clear H. revert H'.
      unfold deep_key, open_pass. destruct (sec_open C 64 dec s) as [p|] eqn:Ep; [|done].
      cbn [rbind]. destruct (argon2id C p salt ops mem) as [k'|] eqn:Ek; [|done].
      cbn [rbind]. destruct (sec_open C 32 k' sec) as [sd|] eqn:Eo; [|done]. intros [= <-].
      exists sd. split; [|done]. by exists s, p, k'.
    - intros _. by destruct (f_ed_sk f).
  Qed.

  Lemma sign_key_err f d : full_ok g f -> is_ok (sign_key g dec f d) = false ->
    forall seed, ~ signing_seed g dec (f_entry f) d seed.
  Proof.
    unfold full_ok, sign_key, signing_seed. intros Hf He seed.
    destruct (f_entry f) as [t si sec|t si salt ops mem sec|t ci sec]; [| |by intros []].
    - destruct Hf as (s & Hp & _ & _ & H & _). by rewrite H in He.
    - intros (s & p & k & -> & Hp & Hk & Ho).
      assert (He' : is_ok (rbind (deep_key g dec s ops mem salt) (fun k => rmap (sign_sk C)
        (sec_open C 32 k sec))) = false) by (by destruct (f_ed_sk f)).
      unfold deep_key, open_pass in He'. rewrite Hp in He'. cbn [rbind] in He'.
      rewrite Hk in He'. cbn [rbind] in He'. by rewrite Ho in He'.
  Qed.

  Lemma h_sign_ok w id k d data : wf w ->
    okp (ReqSign id k d data) w (h_sign g dec id k d data).
  Proof.
    intros Hw. apply okp_check; [done|]. intros w1 Hf1 Hu.
    apply ok_bind; [|eauto].
    apply ok_get_full.
    - intros w2 f Hf2 Hfound. pose proof Hfound as (H1 & H2 & H3). apply okp_or.
      + intros sk Hsk. destruct (sign_key_ok _ _ _ H3 Hsk) as (seed & Hs & ->).
        apply okp_send. intros w3 Hf3. split; [done|]. split; [unl|]. left.
        exists (f_entry f), seed. split; [inL|]. done.
      + intros Herr w3 Hf3. split.
        * intros e seed He Hk.
          assert (e = f_entry f) as -> by (eapply found_L0; [|exact Hfound|done|done]; eauto).
          by eapply sign_key_err.
        * intros _ _. right. exists (f_entry f). split; [inL|done].
    - intros w2 er Hf2 Hm. destruct (g_fallback g) eqn:Efb.
      + unfold bindr. cbn [bind ok]. intros w3 Hf3.
        assert (Hm3 : w_fail w3 = true \/ forall e, e ∈ L0 -> ByEd k ∉ keys_of e).
        { destruct Hm as [Hm|Hm]; [left; by eapply fut_fail|by right]. }
        split.
        { split; [done|]. split; [unl|]. split; [by exists d|done]. }
        intros w4 r Hf4 Hr Hlen. destruct r as [sig|e]; cbn [orelse].
        * apply okp_send. intros w5 Hf5. split; [done|]. split; [unl|]. right.
          split; [done|]. split.
          { destruct Hf5 as [(_ & _ & _ & [z Hz]) _]. rewrite Hz. apply elem_of_app. by left. }
          split; [auto|].
          destruct Hm3 as [Hm3|Hm3]; [left|by right].
          failed.
        * cbn [ok]. intros w5 Hf5 _. destruct Hm3 as [Hm3|Hm3].
          { left. failed. }
          right. right. split.
          { intros e' seed He' Hk. exfalso. by apply (Hm3 e'). }
          intros _ _. left. exists e.
          destruct Hf5 as [(_ & _ & _ & [z Hz]) _]. rewrite Hz. apply elem_of_app. by left.
      + cbn [fail ok]. intros w3 Hf3 _. destruct Hm as [Hm|Hm].
        * left. failed.
        * right. right. split; [|congruence].
          intros e' seed He' Hk. exfalso. by apply (Hm e').
  Qed.

  Lemma h_box_ok w id s r d data : wf w ->
    okp (ReqBox id s r d data) w (h_box g id s r data).
  Proof.
    intros Hw. apply okp_check; [done|]. intros w1 Hf1 Hu.
    apply okp_get_full; [eauto| |].
    2:{ intros w2 Hf2 Hm e seed He Hp ->. exfalso. apply (Hm e He).
        by destruct (plain_keys _ _ Hp) as (_ & _ & ?). }
    intros w2 f Hf2 Hfound. pose proof Hfound as (H1 & H2 & H3).
    apply okp_rand; [eauto|]. intros w3 n Hf3 Hn. apply okp_or.
    - intros c Hc. destruct (f_x_sk f) as [xsk|] eqn:Ex; [|done].
      destruct (full_x _ _ H3 Ex) as (seed & Hp & ->).
      apply okp_send. intros w4 Hf4. split; [done|]. split; [unl|]. split; [done|].
      exists (f_entry f), seed. split; [inL|]. split; [done|]. split; [by eapply plain_x|done].
    - intros Hc w4 Hf4 e seed He Hp Hs. exists n. split; [done|].
      assert (e = f_entry f) as ->.
      { eapply found_L0; [|exact Hfound|done|]; [eauto|]. rewrite Hs.
        by destruct (plain_keys _ _ Hp) as (_ & _ & ?). }
      destruct (full_plain _ _ H3 Hp) as (_ & _ & Ex & _). by rewrite Ex in Hc.
  Qed.

  Lemma h_box_open_ok w id s r d n c : wf w ->
    okp (ReqBoxOpen id s r d n c) w (h_box_open g id s r n c).
  Proof.
    intros Hw. apply okp_check; [done|]. intros w1 Hf1 Hu.
    apply okp_get_full; [eauto| |].
    2:{ intros w2 Hf2 Hm e seed He Hp ->. exfalso. apply (Hm e He).
        by destruct (plain_keys _ _ Hp) as (_ & _ & ?). }
    intros w2 f Hf2 Hfound. pose proof Hfound as (H1 & H2 & H3). apply okp_or.
    - intros m Hm. destruct (Nat.ltb_spec (length c) MACBYTES); [done|].
      destruct (f_x_sk f) as [xsk|] eqn:Ex; [|done].
      destruct (full_x _ _ H3 Ex) as (seed & Hp & ->).
      apply okp_send. intros w4 Hf4. split; [done|]. split; [unl|].
      exists (f_entry f), seed. split; [inL|]. split; [done|]. split; [by eapply plain_x|done].
    - intros Hc w4 Hf4 e seed He Hp Hs msg Ho.
      assert (e = f_entry f) as ->.
      { eapply found_L0; [|exact Hfound|done|]; [eauto|]. rewrite Hs.
        by destruct (plain_keys _ _ Hp) as (_ & _ & ?). }
      destruct (full_plain _ _ H3 Hp) as (_ & _ & Ex & _). rewrite Ex, Ho in Hc.
      apply (box_open_len C HC) in Ho. destruct (Nat.ltb_spec (length c) MACBYTES); [lia|done].
  Qed.

  Lemma h_box_sign_ok w id s r d data : wf w ->
    okp (ReqBoxSign id s r d data) w (h_box_sign g id s r data).
  Proof.
    intros Hw. apply okp_check; [done|]. intros w1 Hf1 Hu.
    apply okp_get_full; [eauto| |].
    2:{ intros w2 Hf2 Hm e seed xp xs He Hp ->. exfalso. apply (Hm e He).
        by destruct (plain_keys _ _ Hp) as (_ & ? & _). }
    intros w2 f Hf2 Hfound. pose proof Hfound as (H1 & H2 & H3).
    apply okp_rand; [eauto|]. intros w3 n Hf3 Hn. apply okp_or.
    - intros c Hc. destruct (f_ed_sk f) as [esk|] eqn:Ex; [|done].
      destruct (full_ed _ _ H3 Ex) as (seed & Hp & ->).
      destruct (ed_pk_to_x C r) as [xp|] eqn:Exp; [|done]. cbn [rbind] in Hc.
      destruct (ed_sk_to_x C (sign_sk C seed)) as [xs|] eqn:Exs; [|done]. cbn [rbind] in Hc.
      apply okp_send. intros w4 Hf4. split; [done|]. split; [unl|]. split; [done|].
      exists (f_entry f), seed, xp, xs. split; [inL|]. split; [done|].
      split; [by eapply plain_ed|done].
    - intros Hc w4 Hf4 e seed xp xs He Hp Hs Hxp Hxs. exists n. split; [done|].
      assert (e = f_entry f) as ->.
      { eapply found_L0; [|exact Hfound|done|]; [eauto|]. rewrite Hs.
        by destruct (plain_keys _ _ Hp) as (_ & ? & _). }
      destruct (full_plain _ _ H3 Hp) as (_ & Ex & _ & _).
      rewrite Ex, Hxp in Hc. cbn [rbind] in Hc. by rewrite Hxs in Hc.
  Qed.

  Lemma h_box_sign_open_ok w id s r d n c : wf w ->
    okp (ReqBoxSignOpen id s r d n c) w (h_box_sign_open g id s r n c).
  Proof.
    intros Hw. apply okp_check; [done|]. intros w1 Hf1 Hu.
    apply okp_get_full; [eauto| |].
    2:{ intros w2 Hf2 Hm e seed xp xs He Hp ->. exfalso. apply (Hm e He).
        by destruct (plain_keys _ _ Hp) as (_ & ? & _). }
    intros w2 f Hf2 Hfound. pose proof Hfound as (H1 & H2 & H3). apply okp_or.
    - intros m Hc. destruct (Nat.ltb_spec (length c) MACBYTES); [done|].
      destruct (f_ed_sk f) as [esk|] eqn:Ex; [|done].
      destruct (full_ed _ _ H3 Ex) as (seed & Hp & ->).
      destruct (ed_pk_to_x C s) as [xp|] eqn:Exp; [|done]. cbn [rbind] in Hc.
      destruct (ed_sk_to_x C (sign_sk C seed)) as [xs|] eqn:Exs; [|done]. cbn [rbind] in Hc.
      apply okp_send. intros w4 Hf4. split; [done|]. split; [unl|].
      exists (f_entry f), seed, xp, xs. split; [inL|]. split; [done|].
      split; [by eapply plain_ed|done].
    - intros Hc w4 Hf4 e seed xp xs He Hp Hs Hxp Hxs msg Ho.
      assert (e = f_entry f) as ->.
      { eapply found_L0; [|exact Hfound|done|]; [eauto|]. rewrite Hs.
        by destruct (plain_keys _ _ Hp) as (_ & ? & _). }
      destruct (full_plain _ _ H3 Hp) as (_ & Ex & _ & _).
      rewrite Ex, Hxp in Hc. cbn [rbind] in Hc. rewrite Hxs in Hc. cbn [rbind] in Hc.
      rewrite Ho in Hc. apply (box_open_len C HC) in Ho.
      destruct (Nat.ltb_spec (length c) MACBYTES); [lia|done].
  Qed.

  Definition cert_stored (t : bytes) (w : world) (r : res cert_info) : Prop :=
    match r with
    | Ok ci => exists gc sec, g_rcgen g gc = true /\ ci = cert_of g gc /\ ECert t ci sec ∈ w_L w
                 /\ cert_priv g (ECert t ci sec) (gc_priv gc)
    | Err _ => w_fail w = true \/ exists e, e ∈ w_L w /\ tag_of e = t
    end.

  Lemma ok_new_cert id w t : wf w -> w_unl w = true -> text_ok t ->
    ok g enc dec L0 u0 (ReqNewCert id t) w (new_wka_tls_cert g t) (cert_stored t).
  Proof.
    intros Hw Hu Ht. unfold new_wka_tls_cert. unfold bindr at 1. cbn [bind ok].
    intros w2 Hf2. split.
    - intros gc Hrc Hgc. cbn [orelse].
      eapply (ok_bindr _ _ _ _ _ _ _ _ _ (fun _ b => length b = 24) (fun _ _ => False));
        [by apply ok_rand|eauto| |done].
      intros w3 hdr Hf3 Hhdr. unfold bindr. cbn [bind ok].
      set (sec := sec_encrypt C (g_bidi g) hdr (gc_priv gc)).
      assert (Hp : cert_priv g (ECert t (cert_of g gc) sec) (gc_priv gc)).
      { cbn [cert_priv]. apply (sec_open_any_encrypt C HC). }
      unfold gencert_okb in Hgc. rewrite !andb_true_iff, !N.ltb_lt in Hgc.
      destruct Hgc as [[[Hg1 Hg2] Hg3] Hg4].
      split.
      { split; [|split; [unl|by exists gc, sec]]. split; [|by exists gc]. split; [done|]. split.
        - split; [split; [done|]|split].
          + cbn [ci_sni]. eapply N.lt_trans; [exact Hg2|done].
          + apply (blake2b_len C HC).
          + cbn [ci_cert]. eapply N.lt_trans; [exact Hg4|done].
        - split; [done|]. unfold bin_ok, sec, sec_encrypt. cbn [s_cipher].
          rewrite (ss_push_len C HC). unfold ABYTES.
          rewrite Nat2N.inj_add. change (N.of_nat 17) with 17%N.
          change (2 ^ 30)%N with 1073741824%N in *. change (3 * 1073741824)%N with 3221225472%N.
          lia. }
      intros w4 Hf4. split.
      + intros He. cbn [orelse ok]. intros w5 Hf5. exists gc, sec.
        split; [done|]. split; [done|]. split; [inL|done].
      + intros er Her. cbn [orelse ok]. intros w5 Hf5.
        destruct Her as [Her|Her]; [left; failed|]. right.
        apply taken_spec in Her as (k & e' & Hk & He' & Hk'). exists e'. split; [inL|].
        apply keys_cases in Hk as [->|(si & Hsi & _)]; [|done].
        by apply keys_tag_inv in Hk'.
    - intros er Her. cbn [orelse ok]. intros w3 Hf3. left. failed.
  Qed.

  Lemma h_new_cert_ok w id t : wf w -> api_ok (ReqNewCert id t) ->
    okp (ReqNewCert id t) w (h_new_cert g id t).
  Proof.
    intros Hw (_ & Ht). apply okp_check; [done|]. intros w1 Hf1 Hu.
    eapply (ok_bindr _ _ _ _ _ _ _ _ _
      (fun w ci => cert_stored t w (Ok ci)) (fun w e => cert_stored t w (Err e))).
    - assert (H : ok g enc dec L0 u0 (ReqNewCert id t) w1 (new_wka_tls_cert g t) (cert_stored t))
        by (apply ok_new_cert; eauto). exact H.
    - eauto.
    - intros w2 ci Hf2 (gc & sec & Hrc & Hci & He & Hp). apply okp_send. intros w3 Hf3.
      split; [done|]. split; [unl|]. split; [done|]. exists gc, sec.
      split; [done|]. split; [done|]. split; [inL|done].
    - intros w2 e Hf2 [H|H] _; [by left|right; by right].
  Qed.

  Lemma h_cert_key_ok w id t : wf w ->
    okp (ReqCertKey id t) w (h_cert_key g enc id t).
  Proof.
    intros Hw. apply okp_check; [done|]. intros w1 Hf1 Hu.
    apply okp_get_full; [eauto| |].
    2:{ intros w2 Hf2 Hm e priv He Ht. exfalso. apply (Hm e He). rewrite <- Ht. apply keys_tag. }
    intros w2 f Hf2 Hfound. pose proof Hfound as (H1 & H2 & H3).
    assert (Hno : (forall priv, ~ cert_priv g (f_entry f) priv) ->
        okp (ReqCertKey id t) w2 (fail (str "invalid entry type"))).
    { intros Hn. apply ok_fail. intros w3 Hf3. right. right. intros e priv He Ht.
      assert (e = f_entry f) as ->; [|auto].
      eapply found_L0; [|exact Hfound|done|]; [eauto|]. rewrite <- Ht. apply keys_tag. }
    destruct (f_entry f) as [t' si sec|t' si salt ops mem sec|t' ci sec] eqn:Ee.
    - apply Hno. by intros priv [].
    - apply Hno. by intros priv [].
    - assert (Hs : stored_ok g (ECert t' ci sec)) by (eapply wf_stored; [|exact H1]; eauto).
      destruct Hs as (_ & gc & _ & _ & Hp). cbn [cert_priv] in Hp. rewrite Hp. cbn [orelse].
      apply okp_rand; [eauto|]. intros w3 hdr Hf3 Hhdr. apply okp_send. intros w4 Hf4.
      split; [done|]. split; [unl|]. exists (ECert t' ci sec), (gc_priv gc), hdr.
      split; [inL|]. split; [by apply keys_tag_inv|]. done.
  Qed.

  Lemma h_sbox_ok w id t d data : wf w ->
    okp (ReqSecretBox id t d data) w (h_sbox g id t data).
  Proof.
    intros Hw. apply okp_check; [done|]. intros w1 Hf1 Hu.
    apply okp_get_full; [eauto| |].
    2:{ intros w2 Hf2 Hm e seed He Ht. exfalso. apply (Hm e He). rewrite <- Ht. apply keys_tag. }
    intros w2 f Hf2 Hfound. pose proof Hfound as (H1 & H2 & H3).
    apply okp_rand; [eauto|]. intros w3 n Hf3 Hn. apply okp_or.
    - intros c Hc. destruct (f_seed f) as [seed|] eqn:Es; [|done]. injection Hc as <-.
      destruct (full_seed _ H3 _ Es) as [Hp _].
      apply okp_send. intros w4 Hf4. split; [done|]. split; [unl|]. split; [done|].
      exists (f_entry f), seed. split; [inL|]. split; [by apply keys_tag_inv|done].
    - intros Hc w4 Hf4 e seed He Ht Hp.
      assert (e = f_entry f) as ->.
      { eapply found_L0; [|exact Hfound|done|]; [eauto|]. rewrite <- Ht. apply keys_tag. }
      destruct (full_plain _ _ H3 Hp) as (Ex & _). by rewrite Ex in Hc.
  Qed.

  Lemma h_sbox_open_ok w id t d n c : wf w ->
    okp (ReqSecretBoxOpen id t d n c) w (h_sbox_open g id t n c).
  Proof.
    intros Hw. apply okp_check; [done|]. intros w1 Hf1 Hu.
    apply okp_get_full; [eauto| |].
    2:{ intros w2 Hf2 Hm e seed He Ht. exfalso. apply (Hm e He). rewrite <- Ht. apply keys_tag. }
    intros w2 f Hf2 Hfound. pose proof Hfound as (H1 & H2 & H3). apply okp_or.
    - intros m Hc. destruct (Nat.ltb_spec (length c) MACBYTES); [done|].
      destruct (f_seed f) as [seed|] eqn:Es; [|done].
      destruct (full_seed _ H3 _ Es) as [Hp _].
      apply okp_send. intros w4 Hf4. split; [done|]. split; [unl|].
      exists (f_entry f), seed. split; [inL|]. split; [by apply keys_tag_inv|done].
    - intros Hc w4 Hf4 e seed He Ht Hp msg Ho.
      assert (e = f_entry f) as ->.
      { eapply found_L0; [|exact Hfound|done|]; [eauto|]. rewrite <- Ht. apply keys_tag. }
      destruct (full_plain _ _ H3 Hp) as (Ex & _). rewrite Ex, Ho in Hc.
      apply (sbox_open_len C HC) in Ho. destruct (Nat.ltb_spec (length c) MACBYTES); [lia|done].
  Qed.

  Theorem dispatch_ok rq w : wf w -> api_ok rq ->
    okp rq w (dispatch g enc dec rq).
  Proof.
    intros Hw Ha. destruct rq; cbn [dispatch];
      try (apply ok_fail; intros w' Hf; right; right; exact I).
    - by apply h_hello_ok.
    - by apply h_unlock_ok.
    - by apply h_get_entry_ok.
    - by apply h_list_ok.
    - by apply h_new_seed_ok.
    - by apply h_export_ok.
    - by apply h_import_ok.
    - by apply h_derive_ok.
    - by apply h_sign_ok.
    - by apply h_box_ok.
    - by apply h_box_open_ok.
    - by apply h_box_sign_ok.
    - by apply h_box_sign_open_ok.
    - by apply h_new_cert_ok.
    - by apply h_cert_key_ok.
    - by apply h_sbox_ok.
    - by apply h_sbox_open_ok.
  Qed.
End Handlers.
