(** * SigningProofs: the server and its fallback signer together *)

From Verif Require Import Base Crypto Types Codec Secret Lru Store Server System ServerSpec ServerVocab ServerProofs SystemProofs ServerTheorems
  Fallback PropertiesFallback Signing SigningVocab.

(** ** Calls of the fallback signer *)

Definition grown (e : fevent) (cs cs' : list fcall) : Prop :=
  forall k c, cs !! k = Some c ->
  exists c', cs' !! k = Some c' /\ fc_req c' = fc_req c /\ (forall o, fc_st c = FEnd o -> fc_st c' = FEnd o)
    /\ (fc_st c' = FEnd Dropped -> fc_st c = FEnd Dropped \/ e = Drop k).

Lemma grown_refl e cs : grown e cs cs.
Proof. intros k c H. exists c. auto. Qed.
Lemma grown_mail e cs k m : grown e cs (alter (mail_to m) k cs).
Proof.
  intros j c H. destruct (decide (j = k)) as [->|Hne].
  - rewrite list_lookup_alter, H. exists (mail_to m c). rewrite mail_req, mail_st. auto.
  - rewrite list_lookup_alter_ne by done. exists c. auto.
Qed.
Lemma grown_imap e cs P m : grown e cs (imap (fun k c => if P k c : bool then mail_to m c else c) cs).
Proof.
  intros j c H. rewrite list_lookup_imap, H. cbn. eexists. split; [reflexivity|].
  destruct (P j c); [rewrite mail_req, mail_st|]; auto.
Qed.
Lemma grown_insert e cs k r s m s' m' : cs !! k = Some (FCall r s m) -> (forall o, s <> FEnd o) ->
  (s' = FEnd Dropped -> e = Drop k) -> grown e cs (<[k := FCall r s' m']> cs).
Proof.
  intros Hk Hs Hd j c H. destruct (decide (j = k)) as [->|Hne].
  - rewrite list_lookup_insert by (by eapply lookup_lt_Some). rewrite Hk in H. injection H as <-.
    eexists. split; [reflexivity|]. split; [done|]. split; [intros o E; by destruct (Hs o)|]. cbn. auto.
  - rewrite list_lookup_insert_ne by done. exists c. auto.
Qed.
Lemma grown_fend e w k r s m o : f_calls w !! k = Some (FCall r s m) -> (forall o, s <> FEnd o) -> (o = Dropped -> e = Drop k) ->
  grown e (f_calls w) (f_calls (fend w k o)).
Proof.
  intros Hk Hs Hd j c H. cbn. destruct (decide (j = k)) as [->|Hne].
  - rewrite list_lookup_alter, H. rewrite Hk in H. injection H as <-. eexists. split; [reflexivity|]. split; [done|].
    split; [intros o' E; by destruct (Hs o')|]. cbn. intros [= ->]. auto.
  - rewrite list_lookup_alter_ne by done. exists c. auto.
Qed.
Lemma forget_calls w h : f_calls (forget w h) = f_calls w.
Proof. unfold forget. by case_bool_decide. Qed.

Lemma fstep_grown w e w' : fstep w e = Some w' -> grown e (f_calls w) (f_calls w').
Proof.
  intros H. destruct e; cbn [fstep] in H.
  - destruct (f_calls w !! k) as [[r [] m]|] eqn:Ek; try done.
    assert (forall w', Some (if can then
        set_c (FWorld (Some (length (f_programs w)))
          (f_programs (match f_cur w with Some h => forget w h | None => w end) ++ [new_program])
          (f_calls (match f_cur w with Some h => forget w h | None => w end))) k (FCall r (FSend (length (f_programs w))) m)
        else fend w k NoSigner) = Some w' -> grown (Get k can) (f_calls w) (f_calls w')) as Hspawn.
    { intros w1 [= <-]. destruct can; [|by eapply grown_fend].
      assert (f_calls (match f_cur w with Some h => forget w h | None => w end) = f_calls w) as E
        by (destruct (f_cur w); [apply forget_calls|done]).
      cbn. rewrite E. by eapply grown_insert. }
    destruct (f_cur w) as [h|]; [|by apply Hspawn].
    destruct (f_programs w !! h) as [p|]; [|by apply Hspawn]. destruct (g_alive p); [|by apply Hspawn].
    injection H as <-. by eapply grown_insert.
  - destruct (f_calls w !! k) as [[r [] m]|] eqn:Ek; try done. destruct (f_programs w !! g) as [p|]; [|done].
    destruct (g_write p) eqn:E; [ | | | |injection H as <-; by eapply grown_fend]; (destruct (_ <? _)%N; [|done]); injection H as <-;
      by eapply grown_insert.
  - destruct (f_programs w !! g) as [p|]; [|done]. destruct (g_write p), (g_queue p) as [|i q]; try done.
    + destruct (has_senders w g); [done|]. injection H as <-. apply grown_refl.
    + destruct (f_calls w !! i); [|done]. destruct (g_running p); injection H as <-.
      * destruct (g_pending p !! _); cbn; [apply grown_mail|apply grown_refl].
      * apply grown_mail.
  - destruct (f_programs w !! g) as [p|]; [|done]. destruct (g_write p); try done. destruct (g_in p); [done|].
    destruct (f_calls w !! k); [|done]. injection H as <-. destruct (g_pending p !! _); cbn; [apply grown_mail|apply grown_refl].
  - destruct (f_programs w !! g) as [p|]; [|done]. destruct (g_write p); try done. injection H as <-.
    rewrite forget_calls. apply grown_refl.
  - destruct (f_programs w !! g) as [p|]; [|done]. destruct (g_write p); try done. injection H as <-. apply grown_imap.
  - destruct (f_programs w !! g) as [p|]; [|done]. destruct (g_read p); try done.
    destruct (g_lines p !! g_nread p); [|destruct (g_out p); [done|]; injection H as <-; apply grown_refl].
    injection H as <-. unfold read_line. destruct (verdict l) as [[[id r]|] b]; [|apply grown_refl].
    destruct (g_pending p !! id); [apply grown_mail|apply grown_refl].
  - destruct (f_programs w !! g) as [p|]; [|done]. destruct (g_read p); try done. injection H as <-.
    rewrite forget_calls. apply grown_refl.
  - destruct (f_programs w !! g) as [p|]; [|done]. destruct (g_read p); try done. injection H as <-. apply grown_imap.
  - destruct (f_calls w !! k) as [[r [] []]|] eqn:Ek; try done; injection H as <-; by eapply grown_fend.
  - injection H as <-. intros k c Hk. exists c. cbn. split; [by apply lookup_app_l_Some|]. auto.
  - destruct (f_calls w !! k) as [[r [] m]|] eqn:Ek; try done; injection H as <-; by eapply grown_fend.
  - destruct (f_programs w !! g) as [p|]; [|done]. destruct (g_write p); try done. destruct (g_in p); [|done]. injection H as <-. apply grown_refl.
  - destruct (f_programs w !! g) as [p|]; [|done]. destruct (g_out p); [|done]. injection H as <-. apply grown_refl.
  - destruct (f_programs w !! g) as [p|]; [|done]. injection H as <-. apply grown_refl.
  - destruct (f_programs w !! g) as [p|]; [|done]. injection H as <-. apply grown_refl.
  - destruct (f_programs w !! g) as [p|]; [|done]. injection H as <-. apply grown_refl.
Qed.

(** Only a new call makes more calls. *)
Lemma fstep_calls w e w' : fstep w e = Some w' -> (forall r, e <> Call r) -> length (f_calls w') = length (f_calls w).
Proof.
  intros H Hn. destruct e; cbn [fstep] in H; try (by destruct (Hn r)).
  - destruct (f_calls w !! k) as [[r [] m]|] eqn:Ek; try done.
    assert (forall w', Some (if can then
        set_c (FWorld (Some (length (f_programs w)))
          (f_programs (match f_cur w with Some h => forget w h | None => w end) ++ [new_program])
          (f_calls (match f_cur w with Some h => forget w h | None => w end))) k (FCall r (FSend (length (f_programs w))) m)
        else fend w k NoSigner) = Some w' -> length (f_calls w') = length (f_calls w)) as Hspawn.
    { intros w1 [= <-]. destruct can; cbn; [|by rewrite alter_length]. rewrite insert_length. destruct (f_cur w); [by rewrite forget_calls|done]. }
    destruct (f_cur w) as [h|]; [|by apply Hspawn].
    destruct (f_programs w !! h) as [p|]; [|by apply Hspawn]. destruct (g_alive p); [|by apply Hspawn].
    injection H as <-. cbn. by rewrite insert_length.
  - destruct (f_calls w !! k) as [[r [] m]|] eqn:Ek; try done. destruct (f_programs w !! g) as [p|]; [|done].
    destruct (g_write p); [ | | | |injection H as <-; cbn; by rewrite alter_length]; (destruct (_ <? _)%N; [|done]); injection H as <-; cbn; by rewrite insert_length.
  - destruct (f_programs w !! g) as [p|]; [|done]. destruct (g_write p), (g_queue p) as [|i q]; try done.
    + destruct (has_senders w g); [done|]. by injection H as <-.
    + destruct (f_calls w !! i); [|done]. destruct (g_running p); injection H as <-; [destruct (g_pending p !! _)|]; cbn; by rewrite ?alter_length.
  - destruct (f_programs w !! g) as [p|]; [|done]. destruct (g_write p); try done. destruct (g_in p); [done|].
    destruct (f_calls w !! k); [|done]. injection H as <-. destruct (g_pending p !! _); cbn; by rewrite ?alter_length.
  - destruct (f_programs w !! g) as [p|]; [|done]. destruct (g_write p); try done. injection H as <-. by rewrite forget_calls.
  - destruct (f_programs w !! g) as [p|]; [|done]. destruct (g_write p); try done. injection H as <-. cbn. by rewrite imap_length.
  - destruct (f_programs w !! g) as [p|]; [|done]. destruct (g_read p); try done.
    destruct (g_lines p !! g_nread p); [|destruct (g_out p); [done|]; by injection H as <-].
    injection H as <-. unfold read_line. destruct (verdict l) as [[[id r]|] b]; [|done]. destruct (g_pending p !! id); cbn; by rewrite ?alter_length.
  - destruct (f_programs w !! g) as [p|]; [|done]. destruct (g_read p); try done. injection H as <-. by rewrite forget_calls.
  - destruct (f_programs w !! g) as [p|]; [|done]. destruct (g_read p); try done. injection H as <-. cbn. by rewrite imap_length.
  - destruct (f_calls w !! k) as [[r [] []]|] eqn:Ek; try done; injection H as <-; cbn; by rewrite alter_length.
  - destruct (f_calls w !! k) as [[r [] m]|] eqn:Ek; try done; injection H as <-; cbn; by rewrite alter_length.
  - destruct (f_programs w !! g) as [p|]; [|done]. destruct (g_write p); try done. destruct (g_in p); [|done]. by injection H as <-.
  - destruct (f_programs w !! g) as [p|]; [|done]. destruct (g_out p); [|done]. by injection H as <-.
  - destruct (f_programs w !! g) as [p|]; [|done]. by injection H as <-.
  - destruct (f_programs w !! g) as [p|]; [|done]. by injection H as <-.
  - destruct (f_programs w !! g) as [p|]; [|done]. by injection H as <-.
Qed.

(** ** The server *)

(** Programs that never ask the fallback signer. *)
Fixpoint silent {A} (p : prog A) : Prop :=
  match p with
  | Ret _ | Crash => True
  | LoadUnlocked k => forall x, silent (k x)
  | SetUnlocked k => silent k
  | Rand _ k => forall x, silent (k x)
  | StWrite _ k => forall x, silent (k x)
  | StList k => forall x, silent (k x)
  | StGet _ k => forall x, silent (k x)
  | CacheGet _ k => forall x, silent (k x)
  | CachePut _ k => silent k
  | CertGen k => forall x, silent (k x)
  | AskFallback _ _ _ _ => False
  | Send _ k => forall x, silent (k x)
  end.

Lemma silent_bind {A B} (p : prog A) (f : A -> prog B) : silent p -> (forall a, silent (f a)) -> silent (bind p f).
Proof. intros Hp Hf. induction p; cbn in *; auto. Qed.
Lemma silent_orelse {A B} (f : A -> prog (res B)) r : (forall a, silent (f a)) -> silent (orelse f r).
Proof. destruct r; cbn; auto. Qed.
Lemma silent_bindr {A B} (p : prog (res A)) (f : A -> prog (res B)) : silent p -> (forall a, silent (f a)) -> silent (bindr p f).
Proof. intros. apply silent_bind; [done|]. intros. by apply silent_orelse. Qed.

(** Programs that ask at most once. *)
Fixpoint once {A} (p : prog A) : Prop :=
  match p with
  | Ret _ | Crash => True
  | LoadUnlocked k => forall x, once (k x)
  | SetUnlocked k => once k
  | Rand _ k => forall x, once (k x)
  | StWrite _ k => forall x, once (k x)
  | StList k => forall x, once (k x)
  | StGet _ k => forall x, once (k x)
  | CacheGet _ k => forall x, once (k x)
  | CachePut _ k => once k
  | CertGen k => forall x, once (k x)
  | AskFallback _ _ _ k => forall x, silent (k x)
  | Send _ k => forall x, once (k x)
  end.

Lemma silent_once {A} (p : prog A) : silent p -> once p.
Proof. induction p; cbn; auto; done. Qed.
Lemma once_bind_silent {A B} (p : prog A) (f : A -> prog B) : silent p -> (forall a, once (f a)) -> once (bind p f).
Proof. intros Hp Hf. induction p; cbn in *; auto; done. Qed.

(** Programs of at most [n] steps. *)
Fixpoint within {A} (n : nat) (p : prog A) : Prop :=
  match p, n with
  | Ret _, _ => True
  | LoadUnlocked k, Datatypes.S n => forall x, within n (k x)
  | SetUnlocked k, Datatypes.S n => within n k
  | Rand _ k, Datatypes.S n => forall x, within n (k x)
  | StWrite _ k, Datatypes.S n => forall x, within n (k x)
  | StList k, Datatypes.S n => forall x, within n (k x)
  | StGet _ k, Datatypes.S n => forall x, within n (k x)
  | CacheGet _ k, Datatypes.S n => forall x, within n (k x)
  | CachePut _ k, Datatypes.S n => within n k
  | CertGen k, Datatypes.S n => forall x, within n (k x)
  | AskFallback _ _ _ k, Datatypes.S n => forall x, within n (k x)
  | Send _ k, Datatypes.S n => forall x, within n (k x)
  | Crash, Datatypes.S _ => True
  | _, 0 => False
  end.

Ltac unfold_handlers :=
  unfold h_hello, h_unlock, h_get_entry, h_list, h_new_seed, h_derive, h_export, h_import, h_sign, h_box, h_box_open,
    h_box_sign, h_box_sign_open, h_new_cert, h_cert_key, h_sbox, h_sbox_open, store_seed, check_unlocked, get_full,
    ignore, new_seed, insert_seed, new_deep_locked_seed, insert_deep_locked_seed, new_wka_tls_cert, rand, send, fail.

Lemma silent_direct g d : silent (direct_prog g d).
Proof.
  destruct d; cbn [direct_prog]; unfold_handlers;
    repeat first [apply silent_bindr|apply silent_orelse|intros ?|progress cbn [silent]|done|case_match].
Qed.
Lemma once_dispatch g enc dec a : once (dispatch g enc dec a).
Proof.
  destruct a; cbn [dispatch].
  all: try (apply silent_once; unfold_handlers;
    repeat first [done|apply silent_bindr|apply silent_orelse|intros ?|progress cbn [silent]|case_match]; fail).
  unfold_handlers. cbn [once]. intros u. destruct u; [|done]. apply once_bind_silent.
  - cbn [silent]. intros [f|]; [done|]. apply silent_bindr; [done|]. intros e. by apply silent_orelse.
  - intros [f|e]; [destruct (sign_key g dec f deep); done|]. destruct (g_fallback g); [|done]. cbn. intros [sig|er]; done.
Qed.
Lemma within_more {A} (p : prog A) : forall n m, n <= m -> within n p -> within m p.
Proof. induction p; intros [|n1] [|m1] Hm Hn; cbn in *; try done; try lia; try (intros x; eapply H; [|apply Hn]; lia); by (eapply IHp; [|exact Hn]; lia). Qed.
Lemma within_bind {A B} (p : prog A) (f : A -> prog B) m : (forall a, within m (f a)) -> forall n, within n p -> within (n + m) (bind p f).
Proof.
  intros Hf. induction p; intros n1 Hp; cbn [bind]; try by (eapply within_more; [|apply Hf]; lia).
  all: destruct n1 as [|n1]; cbn in *; try done; try (intros x; by apply H); by apply IHp.
Qed.
Lemma within_orelse {A B} (f : A -> prog (res B)) r n : (forall a, within n (f a)) -> within n (orelse f r).
Proof. destruct r; cbn; [auto|by destruct n]. Qed.
Lemma within_bindr {A B} (p : prog (res A)) (f : A -> prog (res B)) n m : within n p -> (forall a, within m (f a)) -> within (n + m) (bindr p f).
Proof. intros. apply within_bind; [|done]. intros. by apply within_orelse. Qed.
Lemma within_checked {A} (p : prog (res A)) n : within n p -> within (Datatypes.S n) (check_unlocked p).
Proof. intros Hp. cbn. intros []; [done|by destruct n]. Qed.
Lemma within_get_full g q : within 3 (get_full g q).
Proof. cbn. intros [f|]; [done|]. cbn. intros [e|]; [|done]. cbn. by destruct (gen_full g e). Qed.
Lemma within_insert_seed g s t x : within 2 (insert_seed g s t x).
Proof. cbn. intros hdr []; done. Qed.
Lemma within_new_seed g t x : within 3 (new_seed g t x).
Proof. cbn. intros s hdr []; done. Qed.
Lemma within_insert_deep g s t o m p x : within 3 (insert_deep_locked_seed g s t o m p x).
Proof. cbn. intros salt. destruct (argon2id _ _ _ _ _); cbn; [|done]. intros hdr []; done. Qed.
Lemma within_new_deep g t o m p x : within 4 (new_deep_locked_seed g t o m p x).
Proof. apply (within_bindr _ _ 1 3); [by cbn|]. intros s. apply within_insert_deep. Qed.
Lemma within_cert g t : within 3 (new_wka_tls_cert g t).
Proof. cbn. intros [gc|]; cbn; [|done]. intros hdr []; done. Qed.
Lemma within_store g dec s t d x : within 3 (store_seed g dec s t d x).
Proof.
  unfold store_seed. destruct d as [d|].
  - apply within_orelse. intros p. apply within_insert_deep.
  - apply (within_more _ 2); [lia|]. apply within_insert_seed.
Qed.
Lemma within_send m : within 1 (send m).
Proof. done. Qed.

Lemma within_dispatch g enc dec a : within 10 (dispatch g enc dec a).
Proof.
  destruct a; cbn [dispatch]; try done.
  - unfold h_unlock. apply within_orelse. intros pk. by destruct (beq _ _).
  - apply within_checked, (within_bindr _ _ 3 6); [apply within_get_full|]. intros; by apply (within_more _ 1); [lia|].
  - apply within_checked, (within_bindr _ _ 1 8); [done|]. intros; by apply (within_more _ 1); [lia|].
  - apply within_checked, (within_bindr _ _ 4 5); [|intros; by apply (within_more _ 1); [lia|]].
    destruct deep as [d|].
    + apply within_orelse. intros p. apply within_new_deep.
    + apply (within_more _ 3); [lia|]. apply within_new_seed.
  - apply within_checked, (within_bindr _ _ 3 6); [apply within_get_full|]. intros sf.
    apply (within_bindr _ _ 3 3); [apply within_get_full|]. intros ef. apply (within_bindr _ _ 1 2); [done|].
    intros nonce. apply within_orelse. intros c. by apply (within_more _ 1); [lia|].
  - apply within_checked, within_checked, (within_bindr _ _ 3 5); [apply within_get_full|]. intros f. apply within_orelse. intros sd.
    apply (within_bindr _ _ 3 2); [apply within_store|]. intros; by apply (within_more _ 1); [lia|].
  - apply within_checked, (within_bindr _ _ 1 8); [done|]. intros e. apply within_orelse. intros sx.
    apply (within_bindr _ _ 3 5); [apply within_store|]. intros; by apply (within_more _ 1); [lia|].
  - apply within_checked. refine (within_bind _ _ 6 _ 3 _); [|apply within_get_full]. intros [f|e].
    + apply within_orelse. intros k. by apply (within_more _ 1); [lia|].
    + destruct (g_fallback g); [|done]. apply (within_bindr _ _ 1 5); [done|]. intros; by apply (within_more _ 1); [lia|].
  - apply within_checked, (within_bindr _ _ 3 6); [apply within_get_full|]. intros f. apply (within_bindr _ _ 1 5); [done|].
    intros nonce. apply within_orelse. intros c. by apply (within_more _ 1); [lia|].
  - apply within_checked, (within_bindr _ _ 3 6); [apply within_get_full|]. intros f. apply within_orelse. intros c. by apply (within_more _ 1); [lia|].
  - apply within_checked, (within_bindr _ _ 3 6); [apply within_get_full|]. intros f. apply (within_bindr _ _ 1 5); [done|].
    intros nonce. apply within_orelse. intros c. by apply (within_more _ 1); [lia|].
  - apply within_checked, (within_bindr _ _ 3 6); [apply within_get_full|]. intros f. apply within_orelse. intros c. by apply (within_more _ 1); [lia|].
  - apply within_checked, (within_bindr _ _ 3 6); [apply within_cert|]. intros; by apply (within_more _ 1); [lia|].
  - apply within_checked, (within_bindr _ _ 3 6); [apply within_get_full|]. intros f. destruct (f_entry f); try done.
    destruct (sec_open_any _ _ _) as [r|]; [|done]. apply within_orelse. intros ?. apply (within_bindr _ _ 1 5); [done|].
    intros; by apply (within_more _ 1); [lia|].
  - apply within_checked, (within_bindr _ _ 3 6); [apply within_get_full|]. intros f. apply (within_bindr _ _ 1 5); [done|].
    intros nonce. apply within_orelse. intros c. by apply (within_more _ 1); [lia|].
  - apply within_checked, (within_bindr _ _ 3 6); [apply within_get_full|]. intros f. apply within_orelse. intros c. by apply (within_more _ 1); [lia|].
Qed.

Section Server.
  Variable S : store_impl.
  Variable g : genv.

  Lemma step1_fb {A} sh unl (p : prog A) o : (forall i pk d k, p <> AskFallback i pk d k) -> sh_fb S (r_sh S (step1 S g sh unl p o)) = sh_fb S sh.
  Proof.
    intros Hp. destruct p; cbn [step1]; try done.
    - destruct (o_fail o); [done|]. by destruct (st_write S (sh_store S sh) e).
    - by destruct (o_fail o).
    - by destruct (o_fail o).
    - destruct q; cbn [cache_get]; by destruct (Lru.lru_get _ _).
    - unfold cache_put. by destruct (f_entry f).
    - destruct (o_cert o); [|done]. by destruct (_ && _).
    - exfalso. by eapply Hp.
  Qed.

  Lemma silent_step {A} sh unl (p : prog A) o p' : silent p -> r_prog S (step1 S g sh unl p o) = Some p' -> silent p'.
  Proof.
    intros Hp. destruct p; cbn [step1]; try (intros [= <-]; by apply Hp); try done.
    - destruct (o_fail o); [|destruct (st_write S (sh_store S sh) e)]; intros [= <-]; apply Hp.
    - destruct (o_fail o); intros [= <-]; apply Hp.
    - destruct (o_fail o); intros [= <-]; apply Hp.
    - destruct (cache_get S sh q). intros [= <-]. apply Hp.
    - destruct (o_cert o) as [gc|]; [destruct (_ && _)|]; intros [= <-]; apply Hp.
  Qed.

  Lemma direct_fb os : forall sh p, silent p -> sh_fb S (run_direct S g sh p os) = sh_fb S sh.
  Proof.
    induction os as [|o os IH]; intros sh p Hp; cbn [run_direct]; [done|].
    assert (sh_fb S (r_sh S (step1 S g sh true p o)) = sh_fb S sh) as E by (apply step1_fb; by intros ? ? ? ? ->).
    destruct (r_prog S (step1 S g sh true p o)) as [p'|] eqn:Ep; [|done]. rewrite <- E. apply IH. by eapply silent_step.
  Qed.

  Definition before_signer (s : sys S) (cid tid : nat) : option sign_req := handler S s cid tid ≫= to_sign.

  Lemma srv_fb s e : e <> EvRestart -> (forall cid tid o, e = EvStep cid tid o -> before_signer s cid tid = None) ->
    sh_fb S (s_sh S (step S g s e)) = sh_fb S (s_sh S s).
  Proof.
    intros Hr Hs. destruct e as [cid rx tx|cid raw|cid tid o|cid tid er|cid|d os|]; cbn [step]; try done.
    - destruct (s_conns S s !! cid); [done|]. by destruct (_ && _).
    - by destruct (s_conns S s !! cid).
    - specialize (Hs _ _ _ eq_refl). unfold before_signer, handler in Hs. destruct (s_conns S s !! cid) as [c|]; [|done].
      unfold step_thread. destruct (c_thr S c !! tid) as [[p|er]|]; [|by destruct (c_reqs S c !! tid)|done].
      assert (sh_fb S (r_sh S (step1 S g (s_sh S s) (c_unl S c) p o)) = sh_fb S (s_sh S s)) as E
        by (apply step1_fb; by intros ? ? ? ? ->).
      by destruct (r_prog S _).
    - by destruct (s_conns S s !! cid).
    - by destruct (s_conns S s !! cid).
    - destruct (direct_okb d); [|done]. apply direct_fb, silent_direct.
  Qed.

  Lemma mark_len rqs tid b : length (mark_fail S rqs tid b) = length rqs.
  Proof. apply alter_length. Qed.

  (** The requests of a connection stay; a handler goes on only by its own steps. *)
  Lemma srv_conns s e cid c : e <> EvRestart -> s_conns S s !! cid = Some c ->
    exists c', s_conns S (step S g s e) !! cid = Some c' /\ length (c_reqs S c) <= length (c_reqs S c')
      /\ forall tid p, tid < length (c_reqs S c) -> c_thr S c' !! tid = Some (Running p) ->
           exists p0, c_thr S c !! tid = Some (Running p0) /\ (p0 = p \/ exists o, e = EvStep cid tid o).
  Proof.
    intros Hr Hc.
    assert (s_conns S s !! cid = Some c /\ length (c_reqs S c) <= length (c_reqs S c)
      /\ forall tid p, tid < length (c_reqs S c) -> c_thr S c !! tid = Some (Running p) ->
           exists p0, c_thr S c !! tid = Some (Running p0) /\ (p0 = p \/ exists o, e = EvStep cid tid o)) as H0.
    { split; [done|]. split; [lia|]. intros tid p _ H. exists p. auto. }
    assert (forall i (c1 : conn S) sh, i <> cid -> exists c', s_conns S (Sys S sh (<[i := c1]> (s_conns S s))) !! cid = Some c' /\ length (c_reqs S c) <= length (c_reqs S c')
      /\ forall tid p, tid < length (c_reqs S c) -> c_thr S c' !! tid = Some (Running p) ->
           exists p0, c_thr S c !! tid = Some (Running p0) /\ (p0 = p \/ exists o, e = EvStep cid tid o)) as Hne.
    { intros i c1 sh Hi. exists c. cbn. by rewrite lookup_insert_ne. }
    destruct e as [i rx tx|i raw|i tid o|i tid er|i|d os|]; cbn [step]; try done.
    - destruct (s_conns S s !! i) eqn:Ei; [by exists c|]. destruct (_ && _); [|by exists c]. apply Hne. congruence.
    - destruct (s_conns S s !! i) as [ci|] eqn:Ei; [|by exists c]. destruct (decide (i = cid)) as [->|Hn]; [|by apply Hne].
      rewrite Hc in Ei. injection Ei as <-. eexists. cbn. rewrite lookup_insert. split; [done|].
      unfold receive. destruct (_ && _); [|apply H0]. destruct (decode_api raw) as [a|]; [|apply H0]. cbn.
      rewrite app_length. split; [lia|]. intros t p Ht Hp. exists p. split; [|by left]. revert Hp.
      destruct (settle _); cbn; [rewrite lookup_insert_ne by lia|rewrite lookup_delete_ne by lia]; done.
    - destruct (s_conns S s !! i) as [ci|] eqn:Ei; [|by exists c]. unfold step_thread. destruct (decide (i = cid)) as [->|Hn]; [|repeat case_match; by apply Hne].
      rewrite Hc in Ei. injection Ei as <-.
      destruct (c_thr S c !! tid) as [[p|er]|] eqn:Et.
      + destruct (r_prog S _) as [p'|]; cbn; rewrite lookup_insert; (eexists; split; [done|]); cbn [c_reqs c_thr].
        * rewrite mark_len. split; [lia|]. intros t q Ht Hq. destruct (decide (t = tid)) as [->|Hnt].
          -- exists p. split; [done|]. right. by exists o.
          -- exists q. split; [|by left]. revert Hq.
             destruct (settle p'); cbn; [rewrite lookup_insert_ne by done|rewrite lookup_delete_ne by done]; done.
        * split; [lia|]. intros t q _. by rewrite lookup_empty.
      + destruct (c_reqs S c !! tid); cbn; rewrite lookup_insert; (eexists; split; [done|]); cbn [c_reqs c_thr].
        * rewrite mark_len. split; [lia|]. intros t q Ht Hq. destruct (decide (t = tid)) as [->|Hnt]; [by rewrite lookup_delete in Hq|].
          rewrite lookup_delete_ne in Hq by done. exists q. auto.
        * apply H0.
      + cbn. rewrite lookup_insert. eexists. split; [done|]. apply H0.
    - destruct (s_conns S s !! i) as [ci|] eqn:Ei; [|by exists c]. destruct (decide (i = cid)) as [->|Hn]; [|by apply Hne].
      rewrite Hc in Ei. injection Ei as <-. cbn. rewrite lookup_insert. eexists. split; [done|].
      unfold abort_thread. destruct (c_thr S c !! tid) as [[p|]|] eqn:Et; [|apply H0|apply H0]. cbn. rewrite mark_len. split; [lia|].
      intros t q Ht Hq. destruct (decide (t = tid)) as [->|Hnt]; [by rewrite lookup_insert in Hq|].
      rewrite lookup_insert_ne in Hq by done. exists q. auto.
    - destruct (s_conns S s !! i) as [ci|] eqn:Ei; [|by exists c]. destruct (decide (i = cid)) as [->|Hn]; [|by apply Hne].
      rewrite Hc in Ei. injection Ei as <-. cbn. rewrite lookup_insert. eexists. split; [done|]. apply H0.
    - exists c. by destruct (direct_okb d).
  Qed.

  (** ** The invariant *)

  Definition for_ok (j : joined S) : Prop :=
    forall cid tid k, j_for S j !! (cid, tid) = Some k ->
    exists c fc, s_conns S (j_srv S j) !! cid = Some c /\ tid < length (c_reqs S c) /\ f_calls (j_fb S j) !! k = Some fc
      /\ forall p, c_thr S c !! tid = Some (Running p) -> to_sign (Running p) = Some (fc_req fc) /\ fc_st fc <> FEnd Dropped.

  Record jinv (j : joined S) : Prop := {
    i_srv : exists evs, j_srv S j = run S g evs;
    i_fb : exists fes, frun fnew fes = Some (j_fb S j);
    i_for : for_ok j;
    i_ans : forall x, x ∈ sh_fb S (s_sh S (j_srv S j)) -> exists k fc o, f_calls (j_fb S j) !! k = Some fc
      /\ fc_req fc = SignReq (fb_id x) (fb_pk x) (fb_data x) /\ fc_st fc = FEnd o /\ returned o = Some (fb_ans x)
  }.

  Lemma frun_app es1 : forall es2 w, frun w (es1 ++ es2) = match frun w es1 with Some w => frun w es2 | None => None end.
  Proof. induction es1 as [|e es1 IH]; intros es2 w; cbn; [done|]. destruct (fstep w e); [apply IH|done]. Qed.
  Lemma run_snoc evs e : step S g (run S g evs) e = run S g (evs ++ [e]).
  Proof. unfold run. by rewrite fold_left_app. Qed.

  Lemma returned_len fes w k fc o r : frun fnew fes = Some w -> f_calls w !! k = Some fc -> fc_st fc = FEnd o ->
    returned o = Some (Ok r) -> length r = 64.
  Proof.
    intros H Hk Hst Hr. destruct o as [src x| | |]; cbn in Hr; try done. injection Hr as ->.
    pose proof (C36_own_answer _ _ _ _ _ _ H Hk Hst) as Ho. destruct src as [[h n]|].
    - destruct Ho as (_ & l & _ & s & _ & _ & Hl). done.
    - by destruct Ho.
  Qed.

  Lemma jinv_new : jinv (jnew S).
  Proof. split; cbn; [by exists []|by exists []|intros cid tid k; cbn; by rewrite lookup_empty|set_solver]. Qed.

  Lemma jinv_srv j e : jinv j -> e <> EvRestart -> (forall cid tid o, e = EvStep cid tid o -> before_signer (j_srv S j) cid tid = None) -> jinv (jsrv S g j e).
  Proof.
    intros [[evs Hs] Hf Hfor Ha] Hr Hst. split; cbn [jsrv j_srv j_fb j_for].
    - exists (evs ++ [e]). by rewrite Hs, run_snoc.
    - done.
    - intros cid tid k Hk. cbn in Hk. destruct (Hfor _ _ _ Hk) as (c & fc & Hc & Ht & Hfc & Hp).
      destruct (srv_conns _ e _ _ Hr Hc) as (c' & Hc' & Hl & Hth). exists c', fc. cbn. split; [done|]. split; [lia|]. split; [done|].
      intros p Hp'. destruct (Hth _ _ Ht Hp') as (p0 & Hp0 & [<-|[o He]]); [by apply Hp|].
      destruct (Hp _ Hp0) as [Hts _]. specialize (Hst _ _ _ He). unfold before_signer, handler in Hst.
      rewrite Hc, Hp0 in Hst. cbn in Hst, Hts. congruence.
    - rewrite srv_fb by done. done.
  Qed.

  Lemma jinv_fb j e w : jinv j -> fstep (j_fb S j) e = Some w ->
    (forall k, e = Drop k -> forall cid tid, j_for S j !! (cid, tid) = Some k -> before_signer (j_srv S j) cid tid = None) ->
    jinv (Joined S (j_srv S j) w (j_for S j)).
  Proof.
    intros [Hs [fes Hf] Hfor Ha] He Hd. pose proof (fstep_grown _ _ _ He) as Hg. split; cbn [j_srv j_fb j_for].
    - done.
    - exists (fes ++ [e]). rewrite frun_app, Hf. cbn. by rewrite He.
    - intros cid tid k Hk. cbn in *. destruct (Hfor _ _ _ Hk) as (c & fc & Hc & Ht & Hfc & Hp).
      destruct (Hg _ _ Hfc) as (fc' & Hfc' & Hreq & Hend & Hdrop). exists c, fc'. split; [done|]. split; [done|]. split; [done|].
      intros p Hp'. destruct (Hp _ Hp') as [H1 H2]. rewrite Hreq. split; [done|]. intros Hdr.
      destruct (Hdrop Hdr) as [?|He']; [done|]. specialize (Hd _ He' _ _ Hk). unfold before_signer, handler in Hd. rewrite Hc, Hp' in Hd. cbn in Hd, H1. congruence.
    - intros x Hx. destruct (Ha x Hx) as (k & fc & o & H1 & H2 & H3 & H4). destruct (Hg _ _ H1) as (fc' & A1 & A2 & A3 & _).
      exists k, fc', o. rewrite A2. auto.
  Qed.

  Lemma signer_at s cid tid r : before_signer s cid tid = Some r ->
    exists c k, s_conns S s !! cid = Some c /\ c_thr S c !! tid = Some (Running (AskFallback (s_id r) (s_pk r) (s_data r) k)).
  Proof.
    unfold before_signer, handler. destruct (s_conns S s !! cid) as [c|]; [|done]. destruct (c_thr S c !! tid) as [[[]|]|] eqn:E; try done.
    intros [= <-]. by eexists _, _.
  Qed.

  Lemma jstep_sign j cid tid o j' r0 : before_signer (j_srv S j) cid tid = Some r0 -> jstep S g j (JSrv (EvStep cid tid o)) = Some j' ->
    exists k fc out r, j_for S j !! (cid, tid) = Some k /\ f_calls (j_fb S j) !! k = Some fc /\ fc_st fc = FEnd out /\ returned out = Some r
      /\ j' = Joined S (step S g (j_srv S j) (EvStep cid tid (with_sign o r))) (j_fb S j) (delete (cid, tid) (j_for S j)).
  Proof.
    intros Hb H. cbn [jstep] in H. unfold before_signer in Hb. destruct (handler S (j_srv S j) cid tid) as [t|]; [|done]. cbn in Hb. rewrite Hb in H.
    destruct (j_for S j !! (cid, tid)) as [k|]; [|done]. destruct (f_calls (j_fb S j) !! k) as [[q [| | |out] m]|] eqn:Ek; try done.
    destruct (returned out) as [r|] eqn:Er; [|done]. injection H as <-. exists k, (FCall q (FEnd out) m), out, r. done.
  Qed.

  (** What can happen, in three sorts. *)
  Lemma jstep_cases j e j' : jstep S g j e = Some j' ->
    (exists ev, e = JSrv ev /\ ev <> EvRestart /\ (forall cid tid o, ev = EvStep cid tid o -> before_signer (j_srv S j) cid tid = None) /\ j' = jsrv S g j ev)
    \/ (exists cid tid o r, e = JSrv (EvStep cid tid o) /\ before_signer (j_srv S j) cid tid = Some r)
    \/ (e = JSrv EvRestart /\ j' = Joined S (step S g (j_srv S j) EvRestart) fnew ∅)
    \/ (exists cid tid r, e = JAsk cid tid /\ before_signer (j_srv S j) cid tid = Some r /\ j_for S j !! (cid, tid) = None
         /\ j' = Joined S (j_srv S j) (set_calls (j_fb S j) (f_calls (j_fb S j) ++ [FCall r FStart NoMail])) (<[(cid, tid) := length (f_calls (j_fb S j))]> (j_for S j)))
    \/ (exists fe w, e = JFb fe /\ (forall r, fe <> Call r) /\ fstep (j_fb S j) fe = Some w /\ j' = Joined S (j_srv S j) w (j_for S j)
         /\ forall k, fe = Drop k -> forall cid tid, j_for S j !! (cid, tid) = Some k -> before_signer (j_srv S j) cid tid = None).
  Proof.
    intros H. destruct e as [ev|cid tid|fe].
    - destruct ev as [cid rx tx|cid raw|cid tid o|cid tid er|cid|d os|].
      1,2,4,5,6: cbn in H; injection H as <-; left; eexists; (split; [done|]); (split; [done|]); by split.
      + destruct (before_signer (j_srv S j) cid tid) as [r|] eqn:Eb; [right; left; by eauto 10|].
        left. eexists. split; [done|]. split; [done|]. split; [by intros ? ? ? [= <- <- <-]|]. revert H. unfold before_signer in Eb. cbn.
        destruct (handler S (j_srv S j) cid tid) as [t|]; [|done]. cbn in Eb. rewrite Eb. by intros [= <-].
      + cbn in H. injection H as <-. right. right. by left.
    - cbn in H. fold (before_signer (j_srv S j) cid tid) in H. destruct (before_signer (j_srv S j) cid tid) as [r|] eqn:Eb; [|done].
      destruct (j_for S j !! (cid, tid)) eqn:Ef; [done|]. injection H as <-. right. right. right. left. by exists cid, tid, r.
    - right. right. right. right. cbn [jstep] in H. destruct fe; try done.
      all: try (destruct (fstep (j_fb S j) _) as [w|] eqn:Es; [|done]; injection H as <-; eexists _, w; (split; [done|]); by split).
      destruct (forallb _ _) eqn:Ea; [|done].
      destruct (fstep (j_fb S j) _) as [w|] eqn:Es; [|done]. injection H as <-. eexists _, w. split; [done|]. split; [done|]. split; [done|]. split; [done|].
      intros k0 [= <-] cid tid Hf. rewrite forallb_forall in Ea. apply elem_of_map_to_list, elem_of_list_In in Hf. specialize (Ea _ Hf). cbn in Ea.
      unfold before_signer. rewrite Nat.eqb_refl in Ea. cbn in Ea. by destruct (handler S (j_srv S j) cid tid ≫= to_sign).
  Qed.

  Variable SO : StoreOk S.
  Hypothesis HC : CryptoOk (g_crypto g).

  Lemma jinv_step j e j' : jinv j -> jstep S g j e = Some j' -> jinv j'.
  Proof.
    intros I H. destruct (jstep_cases _ _ _ H) as [(ev & -> & Hr & Hs & ->)|[(cid & tid & o & r0 & -> & Hb)|[[-> ->]|[(cid & tid & r & -> & Hb & Hn & ->)|(fe & w & -> & _ & Hs & -> & Hd)]]]].
    - by apply jinv_srv.
    - destruct (jstep_sign _ _ _ _ _ _ Hb H) as (k & fc & out & r & Hk & Hfc & Hst & Hret & ->). destruct I as [[evs Hs] [fes Hf] Hfor Ha].
      destruct (signer_at _ _ _ _ Hb) as (c & kk & Hc & Ht). split; cbn [j_srv j_fb j_for].
      + exists (evs ++ [EvStep cid tid (with_sign o r)]). by rewrite Hs, run_snoc.
      + by exists fes.
      + intros cid2 tid2 k2 Hk2. cbn in Hk2. apply lookup_delete_Some in Hk2 as [Hne Hk2].
        destruct (Hfor _ _ _ Hk2) as (c2 & fc2 & Hc2 & Ht2 & Hfc2 & Hp2).
        destruct (srv_conns _ (EvStep cid tid (with_sign o r)) _ _ ltac:(done) Hc2) as (c' & Hc' & Hl & Hth).
        exists c', fc2. cbn [j_srv j_fb]. split; [done|]. split; [lia|]. split; [done|].
        intros p Hp'. destruct (Hth _ _ Ht2 Hp') as (p0 & Hp0 & [<-|[o' He]]); [by apply Hp2|]. congruence.
      + intros x Hx.
        assert (sh_fb S (s_sh S (step S g (j_srv S j) (EvStep cid tid (with_sign o r)))) =
          sh_fb S (s_sh S (j_srv S j)) ++ [FbCall (s_id r0) (s_pk r0) (s_data r0) r]) as E.
        { cbn [step]. rewrite Hc. unfold step_thread. rewrite Ht. cbn. destruct r as [sig|er]; [|done].
          by rewrite (returned_len _ _ _ _ _ _ Hf Hfc Hst Hret). }
        rewrite E in Hx. apply elem_of_app in Hx as [Hx|Hx]; [by apply Ha|]. apply elem_of_list_singleton in Hx as ->. cbn.
        exists k, fc, out. split; [done|]. split; [|done]. destruct (Hfor _ _ _ Hk) as (c2 & fc2 & Hc2 & _ & Hfc2 & Hp2).
        rewrite Hc in Hc2. injection Hc2 as <-. destruct (Hp2 _ Ht) as [Hq _]. rewrite Hfc in Hfc2. injection Hfc2 as <-. cbn in Hq. by injection Hq as <-.
    - destruct I as [[evs Hs] _ _ _]. split; cbn [j_srv j_fb j_for].
      + exists (evs ++ [EvRestart]). by rewrite Hs, run_snoc.
      + by exists [].
      + intros cid tid k. cbn. by rewrite lookup_empty.
      + cbn. set_solver.
    - pose proof I as [_ _ Hfor _]. destruct (jinv_fb j (Call r) _ I eq_refl) as [Hs Hf Hfor' Ha]; [done|]. split; cbn [j_srv j_fb j_for] in *; [done|done| |done].
      intros cid2 tid2 k2 Hk2. cbn in Hk2. apply lookup_insert_Some in Hk2 as [[[= <- <-] <-]|[Hne Hk2]]; [|by apply (Hfor' cid2 tid2 k2)].
      destruct (signer_at _ _ _ _ Hb) as (c & kk & Hc & Ht). exists c, (FCall r FStart NoMail). cbn. split; [done|]. split.
      { destruct Hs as [evs Hs]. destruct (reach S SO g HC evs) as (L & (_ & HCs & _) & _). rewrite Hs in Hc.
        destruct (HCs _ _ Hc) as (_ & Hl & _). apply Hl. by rewrite Ht. }
      split; [by rewrite lookup_app_r, Nat.sub_diag|]. intros p Hp. rewrite Ht in Hp. injection Hp as <-. split; [by destruct r|done].
    - by eapply jinv_fb.
  Qed.

  Lemma jinv_run es : forall j j', jinv j -> jrun S g j es = Some j' -> jinv j'.
  Proof.
    induction es as [|e es IH]; intros j j' I H; cbn in H; [by injection H as <-|].
    destruct (jstep S g j e) as [j1|] eqn:E; [|done]. eapply IH; [|done]. by eapply jinv_step.
  Qed.
  Lemma jrun_app es1 : forall es2 j, jrun S g j (es1 ++ es2) = match jrun S g j es1 with Some j => jrun S g j es2 | None => None end.
  Proof. induction es1 as [|e es1 IH]; intros es2 w; cbn; [done|]. destruct (jstep S g w e); [apply IH|done]. Qed.

  (** ** Who asks *)

  Lemma asks j cid tid r : jinv j -> before_signer (j_srv S j) cid tid = Some r -> g_fallback g = true /\ asked_by j cid tid r.
  Proof.
    intros [[evs Hs] _ _ _] Hb. destruct (signer_at _ _ _ _ Hb) as (c & k & Hc & Ht).
    destruct (reach S SO g HC evs) as (L & ((Hr & Hd & Hok & _) & HCs & _) & _). pose proof Hc as Hc0. rewrite Hs in Hc.
    destruct (HCs _ _ Hc) as (H1 & H2 & _). assert (tid < length (c_reqs S c)) as Hl by (apply H2; by rewrite Ht).
    apply lookup_lt_is_Some in Hl as [rq Hq]. destruct (H1 _ _ Hq) as (L0 & A1 & A2 & A3 & A4 & A5 & A6 & _).
    rewrite Ht in A6. cbn in A6. destruct (A6 (wof S L (s_sh S (run S g evs)) c rq)) as [(B1 & B2 & [dp B3] & B4) _].
    { split; [apply wle_refl|]. by split. }
    split; [done|]. exists c, rq, dp. split; [done|]. split; [done|]. split; [done|]. split; [done|].
    destruct B4 as [B4|B4]; [left; unfold undisturbed; cbn in B4; by rewrite B4|]. right. intros e He Hk.
    apply (rel_holds S SO _ _ _ A1 A2) in He. apply (B4 _ He). by apply ed_key.
  Qed.

  (** ** What handlers still may do *)

  Lemma settle_run p q : settle p = Some (Running q) -> p = q.
  Proof. destruct p as [[]| | | | | | | | | | | |]; cbn; intros [= ?]; done. Qed.

  Lemma srv_threads s e cid tid p : handler S (step S g s e) cid tid = Some (Running p) ->
    (handler S s cid tid = Some (Running p) /\ forall o, e <> EvStep cid tid o)
    \/ (exists c p0 o, s_conns S s !! cid = Some c /\ c_thr S c !! tid = Some (Running p0) /\ e = EvStep cid tid o
          /\ r_prog S (step1 S g (s_sh S s) (c_unl S c) p0 o) = Some p)
    \/ (exists enc dec a c, p = dispatch g enc dec a /\ s_conns S s !! cid = Some c /\ tid = length (c_reqs S c)).
  Proof.
    unfold handler. destruct e as [i rx tx|i raw|i t o|i t er|i|d os|]; cbn [step].
    - destruct (s_conns S s !! i) eqn:Ei; [by left|]. destruct (_ && _); [|by left]. cbn. intros H. left. split; [|done]. revert H.
      destruct (decide (i = cid)) as [->|Hn]; [by rewrite lookup_insert|by rewrite lookup_insert_ne].
    - destruct (s_conns S s !! i) as [ci|] eqn:Ei; [|by left]. cbn.
      destruct (decide (i = cid)) as [->|Hn]; [|rewrite lookup_insert_ne by done; by left]. rewrite lookup_insert, Ei.
      unfold receive. destruct (_ && _); [|by left]. destruct (decode_api raw) as [a|]; [|by left]. cbn.
      destruct (settle _) as [x|] eqn:Es; cbn.
      + intros [[<- ->]|[_ H]]%lookup_insert_Some; [|by left]. apply settle_run in Es. right. right. by eauto 10.
      + intros [_ H]%lookup_delete_Some. by left.
    - destruct (s_conns S s !! i) as [ci|] eqn:Ei.
      2: { intros H. left. split; [done|]. intros o' [= -> -> ->]. by rewrite Ei in H. }
      unfold step_thread. destruct (decide (i = cid)) as [->|Hn].
      2: { intros H. left. split; [|congruence]. revert H.
           destruct (c_thr S ci !! t) as [[q|er]|]; [destruct (r_prog S _)|destruct (c_reqs S ci !! t)|]; cbn; by rewrite lookup_insert_ne. }
      rewrite Ei. destruct (c_thr S ci !! t) as [[q|er]|] eqn:Et.
      + destruct (r_prog S _) as [p'|] eqn:Ep; cbn; rewrite lookup_insert; cbn; [|by rewrite lookup_empty].
        destruct (decide (t = tid)) as [->|Hnt].
        * destruct (settle p') as [x|] eqn:Es; cbn; [rewrite lookup_insert; intros [= ->]|by rewrite lookup_delete].
          apply settle_run in Es as ->. right. left. exists ci, q, o. done.
        * intros H. left. split; [|congruence]. revert H. destruct (settle p'); cbn; [by rewrite lookup_insert_ne|by rewrite lookup_delete_ne].
      + destruct (c_reqs S ci !! t); cbn; rewrite lookup_insert; cbn.
        * intros [Hne H]%lookup_delete_Some. left. split; [done|congruence].
        * intros H. left. split; [done|]. intros o' [= -> ->]. congruence.
      + cbn. rewrite lookup_insert. intros H. left. split; [done|]. intros o' [= -> ->]. congruence.
    - destruct (s_conns S s !! i) as [ci|] eqn:Ei; [|by left]. cbn.
      destruct (decide (i = cid)) as [->|Hn]; [|rewrite lookup_insert_ne by done; by left]. rewrite lookup_insert, Ei.
      unfold abort_thread. destruct (c_thr S ci !! t) as [[q|]|] eqn:Et; [|by left|by left]. cbn.
      intros [[_ ?]|[_ H]]%lookup_insert_Some; [done|by left].
    - destruct (s_conns S s !! i) as [ci|] eqn:Ei; [|by left]. cbn.
      destruct (decide (i = cid)) as [->|Hn]; [|rewrite lookup_insert_ne by done; by left]. rewrite lookup_insert, Ei. by left.
    - destruct (direct_okb d); by left.
    - cbn. by rewrite lookup_empty.
  Qed.

  (** A property of programs that requests have when they come and that every step keeps. *)
  Lemma threads_all (P : prog (res unit) -> Prop) evs :
    (forall enc dec a, P (dispatch g enc dec a)) ->
    (forall sh unl p o p', P p -> r_prog S (step1 S g sh unl p o) = Some p' -> P p') ->
    forall cid tid p, handler S (run S g evs) cid tid = Some (Running p) -> P p.
  Proof.
    intros H1 H2. induction evs as [|e evs IH] using rev_ind; intros cid tid p H.
    - unfold handler in H. cbn in H. by rewrite lookup_empty in H.
    - rewrite <- run_snoc in H. destruct (srv_threads _ _ _ _ _ H) as [[H' _]|[(c & p0 & o & Hc & Ht & _ & Hp)|(enc & dec & a & c & -> & _)]]; [by eapply IH| |apply H1].
      eapply H2; [|exact Hp]. apply (IH cid tid). unfold handler. by rewrite Hc.
  Qed.

  Lemma once_step sh unl (p : prog (res unit)) o p' : once p -> r_prog S (step1 S g sh unl p o) = Some p' -> once p' /\ ((exists r, to_sign (Running p) = Some r) -> silent p').
  Proof.
    intros Hp. destruct p; cbn [step1]; try (intros [= <-]; split; [by apply Hp|by intros [? ?]]); try done.
    - destruct (o_fail o); [|destruct (st_write S (sh_store S sh) e)]; intros [= <-]; (split; [apply Hp|by intros [? ?]]).
    - destruct (o_fail o); intros [= <-]; (split; [apply Hp|by intros [? ?]]).
    - destruct (o_fail o); intros [= <-]; (split; [apply Hp|by intros [? ?]]).
    - destruct (cache_get S sh q). intros [= <-]. (split; [apply Hp|by intros [? ?]]).
    - destruct (o_cert o) as [gc|]; [destruct (_ && _)|]; intros [= <-]; (split; [apply Hp|by intros [? ?]]).
    - intros [= <-]. cbn in Hp. split; [apply silent_once|intros _]; apply Hp.
  Qed.
  Lemma within_step n sh unl (p : prog (res unit)) o p' : within n p -> r_prog S (step1 S g sh unl p o) = Some p' -> within (n - 1) p'.
  Proof.
    intros Hp. destruct n as [|b]; destruct p; cbn [within] in Hp; try done; cbn [step1]; try replace (Datatypes.S b - 1) with b by lia; try (intros [= <-]; by apply Hp); try done.
    - intros [= <-]. by destruct b.
    - destruct (o_fail o); [|destruct (st_write S (sh_store S sh) e)]; intros [= <-]; apply Hp.
    - destruct (o_fail o); intros [= <-]; apply Hp.
    - destruct (o_fail o); intros [= <-]; apply Hp.
    - destruct (cache_get S sh q). intros [= <-]. apply Hp.
    - destruct (o_cert o) as [gc|]; [destruct (_ && _)|]; intros [= <-]; apply Hp.
  Qed.

  Lemma all_once j cid tid p : jinv j -> handler S (j_srv S j) cid tid = Some (Running p) -> once p.
  Proof.
    intros [[evs ->] _ _ _]. apply (threads_all once); [apply once_dispatch|]. intros. by edestruct once_step.
  Qed.
  Lemma all_within j cid tid p : jinv j -> handler S (j_srv S j) cid tid = Some (Running p) -> within 10 p.
  Proof.
    intros [[evs ->] _ _ _]. apply (threads_all (within 10)); [apply within_dispatch|]. intros sh unl q o p' Hq Hp.
    eapply within_more; [|by eapply within_step]. lia.
  Qed.

  (** ** A request asks once *)

  Definition spent (j : joined S) (cid tid : nat) : Prop :=
    exists c, s_conns S (j_srv S j) !! cid = Some c /\ tid < length (c_reqs S c)
      /\ (is_Some (j_for S j !! (cid, tid)) \/ forall p, c_thr S c !! tid = Some (Running p) -> silent p).

  Lemma handler_of s cid tid c : s_conns S s !! cid = Some c -> handler S s cid tid = c_thr S c !! tid.
  Proof. unfold handler. by intros ->. Qed.

  (** What a server event makes of a request that was there. *)
  Lemma srv_thread s ev cid c tid : ev <> EvRestart -> s_conns S s !! cid = Some c -> tid < length (c_reqs S c) ->
    exists c', s_conns S (step S g s ev) !! cid = Some c' /\ tid < length (c_reqs S c')
      /\ forall p, c_thr S c' !! tid = Some (Running p) ->
           c_thr S c !! tid = Some (Running p)
           \/ exists p0 o, c_thr S c !! tid = Some (Running p0) /\ ev = EvStep cid tid o
                /\ r_prog S (step1 S g (s_sh S s) (c_unl S c) p0 o) = Some p.
  Proof.
    intros Hr Hc Hl. destruct (srv_conns _ ev _ _ Hr Hc) as (c' & Hc' & Hl' & _). exists c'. split; [done|]. split; [lia|].
    intros p Hp. rewrite <- (handler_of _ _ _ _ Hc') in Hp.
    destruct (srv_threads _ _ _ _ _ Hp) as [[Hp' _]|[(c1 & p1 & o & Hc1 & Ht1 & -> & Hp')|(enc & dec & a & c1 & _ & Hc1 & ->)]].
    - left. by rewrite (handler_of _ _ _ _ Hc) in Hp'.
    - right. rewrite Hc in Hc1. injection Hc1 as <-. by exists p1, o.
    - rewrite Hc in Hc1. injection Hc1 as <-. lia.
  Qed.

  Lemma spent_step j e j' cid tid : jinv j -> spent j cid tid -> jstep S g j e = Some j' -> e <> JSrv EvRestart -> spent j' cid tid.
  Proof.
    intros I (c & Hc & Hl & Hd) H Hr.
    destruct (jstep_cases _ _ _ H) as [(ev & -> & Hr' & Hs & ->)|[(cid1 & tid1 & o & r0 & -> & Hb)|[[-> ->]|[(cid1 & tid1 & r & -> & Hb & Hn & ->)|(fe & w & -> & _ & Hs & -> & _)]]]]; [| |done| |].
    - destruct (srv_thread _ ev _ _ _ Hr' Hc Hl) as (c' & Hc' & Hl' & Hth). exists c'. cbn. split; [done|]. split; [done|].
      destruct Hd as [Hd|Hd]; [by left|right]. intros p Hp.
      destruct (Hth p Hp) as [Hp'|(p1 & o & Ht1 & -> & Hp')]; [by apply Hd|]. eapply silent_step; [|exact Hp']. by apply Hd.
    - destruct (jstep_sign _ _ _ _ _ _ Hb H) as (k & fc & out & r & Hk & Hfc & Hst & Hret & ->).
      destruct (srv_thread _ (EvStep cid1 tid1 (with_sign o r)) _ _ _ ltac:(done) Hc Hl) as (c' & Hc' & Hl' & Hth). exists c'. cbn [j_srv j_for]. split; [done|]. split; [done|].
      destruct (decide ((cid1, tid1) = (cid, tid))) as [[= -> ->]|Hne].
      + right. intros p Hp. destruct (Hth p Hp) as [Hp'|(p1 & o1 & Ht1 & [= <-] & Hp')].
        * rewrite <- (handler_of _ _ _ _ Hc') in Hp.
          destruct (srv_threads _ _ _ _ _ Hp) as [[_ Hx]|[(c1 & p1 & o1 & Hc1 & Ht1 & [= <-] & Hp1)|(enc & dec & a & c1 & _ & Hc1 & ->)]].
          -- by destruct (Hx (with_sign o r)).
          -- rewrite Hc in Hc1. injection Hc1 as <-. assert (once p1) as Ho by (apply (all_once j cid tid); [done|]; by rewrite (handler_of _ _ _ _ Hc)).
             destruct (once_step _ _ _ _ _ Ho Hp1) as [_ Hs]. apply Hs. exists r0.
             unfold before_signer in Hb. rewrite (handler_of _ _ _ _ Hc), Ht1 in Hb. done.
          -- rewrite Hc in Hc1. injection Hc1 as <-. lia.
        * assert (once p1) as Ho by (apply (all_once j cid tid); [done|]; by rewrite (handler_of _ _ _ _ Hc)).
          destruct (once_step _ _ _ _ _ Ho Hp') as [_ Hs]. apply Hs. exists r0.
          unfold before_signer in Hb. rewrite (handler_of _ _ _ _ Hc), Ht1 in Hb. done.
      + destruct Hd as [Hd|Hd]; [left; by rewrite lookup_delete_ne|right]. intros p Hp.
        destruct (Hth p Hp) as [Hp'|(p1 & o1 & Ht1 & [= -> ->] & Hp')]; [by apply Hd|done].
    - exists c. cbn. split; [done|]. split; [done|]. destruct Hd as [Hd|Hd]; [left|by right].
      destruct (decide ((cid1, tid1) = (cid, tid))) as [<-|Hne]; [by rewrite lookup_insert|by rewrite lookup_insert_ne].
    - by exists c.
  Qed.

  Lemma spent_run es : forall j j' cid tid, jinv j -> spent j cid tid -> jrun S g j es = Some j' -> JSrv EvRestart ∉ es -> spent j' cid tid.
  Proof.
    induction es as [|e es IH]; intros j j' cid tid I Hs H Hn; cbn in H; [by injection H as <-|].
    destruct (jstep S g j e) as [j1|] eqn:E; [|done]. apply not_elem_of_cons in Hn as [Hne Hn].
    eapply IH; [by eapply jinv_step| |done|done]. eapply spent_step; [exact I|exact Hs|exact E|congruence].
  Qed.

  Lemma ask_spends j cid tid j' : jinv j -> jstep S g j (JAsk cid tid) = Some j' -> spent j' cid tid.
  Proof.
    intros I H. pose proof (jinv_step _ _ _ I H) as [_ _ Hfor _].
    destruct (jstep_cases _ _ _ H) as [(ev & E & _)|[(cid1 & tid1 & o & r0 & E & Hb)|[[E _]|[(cid1 & tid1 & r & E & Hb & Hn & ->)|(fe & w & E & _)]]]]; try done.
    injection E as <- <-. destruct (Hfor cid tid (length (f_calls (j_fb S j)))) as (c & fc & Hc & Hl & _); [cbn; by rewrite lookup_insert|].
    exists c. split; [done|]. split; [done|]. left. cbn. by rewrite lookup_insert.
  Qed.
  Lemma spent_no_ask j cid tid : spent j cid tid -> jstep S g j (JAsk cid tid) = None.
  Proof.
    intros (c & Hc & Hl & Hd). destruct (jstep S g j (JAsk cid tid)) as [j'|] eqn:H; [|done]. exfalso.
    destruct (jstep_cases _ _ _ H) as [(ev & E & _)|[(cid1 & tid1 & o & r0 & E & Hb)|[[E _]|[(cid1 & tid1 & r & E & Hb & Hn & ->)|(fe & w & E & _)]]]]; try done.
    injection E as <- <-. destruct Hd as [[k Hk]|Hd]; [congruence|].
    destruct (signer_at _ _ _ _ Hb) as (c1 & k & Hc1 & Ht). rewrite Hc in Hc1. injection Hc1 as <-. by apply (Hd _ Ht).
  Qed.

  (** ** Coming to rest *)

  Lemma step_handler s cid tid o cid2 tid2 t :
    (forall c, s_conns S s !! cid = Some c -> is_Some (c_thr S c !! tid) -> tid < length (c_reqs S c)) ->
    handler S (step S g s (EvStep cid tid o)) cid2 tid2 = Some t ->
    ((cid2, tid2) <> (cid, tid) /\ handler S s cid2 tid2 = Some t)
    \/ ((cid2, tid2) = (cid, tid) /\ exists p sh unl p', handler S s cid tid = Some (Running p)
          /\ r_prog S (step1 S g sh unl p o) = Some p' /\ settle p' = Some t).
  Proof.
    intros Hl. unfold handler. cbn [step]. destruct (s_conns S s !! cid) as [c|] eqn:Ei.
    2: { intros H. left. split; [|done]. intros [= -> ->]. by rewrite Ei in H. }
    unfold step_thread. destruct (decide (cid2 = cid)) as [->|Hn].
    2: { intros H. left. split; [congruence|]. revert H.
         destruct (c_thr S c !! tid) as [[q|er]|]; [destruct (r_prog S _)|destruct (c_reqs S c !! tid)|]; cbn; by rewrite lookup_insert_ne. }
    rewrite Ei. destruct (c_thr S c !! tid) as [[q|er]|] eqn:Et.
    - destruct (r_prog S _) as [p'|] eqn:Ep; cbn; rewrite lookup_insert; cbn; [|by rewrite lookup_empty].
      destruct (decide (tid2 = tid)) as [->|Hnt].
      + destruct (settle p') as [x|] eqn:Es; cbn; [rewrite lookup_insert; intros [= <-]|by rewrite lookup_delete].
        right. split; [done|]. by eauto 10.
      + intros H. left. split; [congruence|]. revert H. destruct (settle p'); cbn; [by rewrite lookup_insert_ne|by rewrite lookup_delete_ne].
    - assert (tid < length (c_reqs S c)) as Hx by (apply Hl; [done|by rewrite Et]). apply lookup_lt_is_Some in Hx as [rq Hq]. rewrite Hq.
      cbn; rewrite lookup_insert; cbn. intros [Hne H]%lookup_delete_Some. left. split; [congruence|done].
    - cbn. rewrite lookup_insert. intros H. left. split; [|done]. intros [= ->]. congruence.
  Qed.

  Definition budgeted (s : sys S) (B : nat * nat -> nat) (L : list (nat * nat)) : Prop :=
    forall cid tid t, handler S s cid tid = Some t -> (cid, tid) ∈ L
      /\ match t with Failed _ => 1 <= B (cid, tid) | Running p => exists n, within n p /\ n + 2 <= B (cid, tid) end.

  Definition token (m : gmap (nat * nat) nat) (x : nat * nat) : nat := match m !! x with Some _ => 0 | None => 25 end.
  Definition measure (j : joined S) (B : nat * nat -> nat) (L : list (nat * nat)) : nat :=
    sum_list_with (fun x => 50 * B x + token (j_for S j) x) L + effort (j_fb S j).

  Lemma sum_less {A} (f f' : A -> nat) l x : x ∈ l -> (forall y, f' y <= f y) -> sum_list_with f' l + f x <= sum_list_with f l + f' x.
  Proof.
    intros Hx Hle.
    assert (forall l, sum_list_with f' l <= sum_list_with f l) as Hall by (induction l0 as [|a l0 IH]; cbn; [lia|specialize (Hle a); lia]).
    induction l as [|a l IH]; [by apply elem_of_nil in Hx|]. cbn. apply elem_of_cons in Hx as [->|Hx].
    - specialize (Hall l). lia.
    - specialize (IH Hx). specialize (Hle a). lia.
  Qed.

  Lemma rest_step j e j' B L : jinv j -> by_self e -> jstep S g j e = Some j' -> budgeted (j_srv S j) B L ->
    exists B', budgeted (j_srv S j') B' L /\ measure j' B' L < measure j B L.
  Proof.
    intros I Hself H Hb.
    assert (forall cid tid o s' m', handler S (j_srv S j) cid tid <> None -> j_srv S j' = step S g (j_srv S j) (EvStep cid tid o) ->
      j_fb S j' = j_fb S j -> j_for S j' = m' -> (m' = j_for S j \/ m' = delete (cid, tid) (j_for S j)) -> s' = j_srv S j' ->
      exists B', budgeted s' B' L /\ measure j' B' L < measure j B L) as Hstep.
    { intros cid tid o s' m' Hh Hsrv Hfb Hm Hcase ->.
      set (B' := fun x => if decide (x = (cid, tid)) then B x - 1 else B x). exists B'.
      destruct (handler S (j_srv S j) cid tid) as [t0|] eqn:Et0; [|done]. destruct (Hb _ _ _ Et0) as [Hin Ht0].
      assert (1 <= B (cid, tid)) as Hpos by (destruct t0; [destruct Ht0 as (n & _ & ?)|]; lia). split.
      - intros cid2 tid2 t Ht. rewrite Hsrv in Ht. apply step_handler in Ht as [[Hne Ht]|[[= -> ->] (p & sh & unl & p' & Hp & Hr & Hs)]].
        + destruct (Hb _ _ _ Ht) as [H1 H2]. split; [done|]. subst B'. cbn. by rewrite decide_False.
        + split; [done|]. rewrite Et0 in Hp. injection Hp as ->. destruct Ht0 as (n & Hn & Hle).
          pose proof (within_step _ _ _ _ _ _ Hn Hr) as Hw. subst B'. cbn. rewrite decide_True by done. destruct t as [q|er]; [|lia].
          destruct n as [|n].
          * destruct p; cbn in Hn; try done. cbn in Hr. injection Hr as <-. by destruct a.
          * apply settle_run in Hs as <-. exists n. replace (Datatypes.S n - 1) with n in Hw by lia. split; [done|]. lia.
        + intros c Hc His. destruct (i_srv _ I) as [evs Hs]. rewrite Hs in Hc. destruct (reach S SO g HC evs) as (L1 & (_ & HCs & _) & _).
          destruct (HCs _ _ Hc) as (_ & Hl & _). by apply Hl.
      - unfold measure. rewrite Hfb, Hm.
        destruct Hcase as [->| ->].
        + pose proof (sum_less (fun x => 50 * B x + token (j_for S j) x) (fun x => 50 * B' x + token (j_for S j) x) L (cid, tid) Hin) as Hsum.
          subst B'. cbv beta in *. rewrite decide_True in Hsum by done. cut (forall y, 50 * (if decide (y = (cid, tid)) then B y - 1 else B y) + token (j_for S j) y <= 50 * B y + token (j_for S j) y); [intros Hy; specialize (Hsum Hy); lia|].
          intros y. case_decide; lia.
        + pose proof (sum_less (fun x => 50 * B x + token (j_for S j) x) (fun x => 50 * B' x + token (delete (cid, tid) (j_for S j)) x) L (cid, tid) Hin) as Hsum.
          subst B'. cbv beta in *. rewrite decide_True in Hsum by done.
          assert (token (delete (cid, tid) (j_for S j)) (cid, tid) = 25) as Htk by (unfold token; by rewrite lookup_delete).
          cut (forall y, 50 * (if decide (y = (cid, tid)) then B y - 1 else B y) + token (delete (cid, tid) (j_for S j)) y <= 50 * B y + token (j_for S j) y); [intros Hy; specialize (Hsum Hy); lia|].
          intros y. case_decide as Hy; [subst y; lia|]. unfold token. rewrite lookup_delete_ne by done. lia. }
    destruct (jstep_cases _ _ _ H) as [(ev & -> & Hr' & Hs & ->)|[(cid1 & tid1 & o & r0 & -> & Hbs)|[[-> ->]|[(cid1 & tid1 & r & -> & Hbs & Hn & ->)|(fe & w & -> & _ & Hs & -> & _)]]]]; [| |done| |].
    - destruct ev as [| |cid tid o| | | |]; try done. eapply Hstep; [|done..|by left|done].
      cbn in H. by destruct (handler S (j_srv S j) cid tid).
    - destruct (jstep_sign _ _ _ _ _ _ Hbs H) as (k & fc & out & r & Hk & Hfc & Hst & Hret & Hj'). rewrite Hj' in *.
      eapply Hstep; [|done..|by right|done]. unfold before_signer in Hbs. by destruct (handler S (j_srv S j) cid1 tid1).
    - exists B. split; [done|]. unfold measure. cbn [j_fb j_for].
      assert ((cid1, tid1) ∈ L) as Hin.
      { unfold before_signer in Hbs. destruct (handler S (j_srv S j) cid1 tid1) as [t|] eqn:Et; [|done]. by destruct (Hb _ _ _ Et). }
      assert (effort (set_calls (j_fb S j) (f_calls (j_fb S j) ++ [FCall r FStart NoMail])) = effort (j_fb S j) + 20) as ->.
      { unfold effort. cbn [set_calls f_calls f_programs]. rewrite sum_snoc. cbn [wc fc_st]. lia. }
      set (m := <[(cid1, tid1) := _]> (j_for S j)).
      pose proof (sum_less (fun x => 50 * B x + token (j_for S j) x) (fun x => 50 * B x + token m x) L (cid1, tid1) Hin) as Hsum. cbv beta in Hsum.
      assert (token m (cid1, tid1) = 0) as T1 by (unfold token, m; by rewrite lookup_insert).
      assert (token (j_for S j) (cid1, tid1) = 25) as T2 by (unfold token; by rewrite Hn).
      cut (forall y, 50 * B y + token m y <= 50 * B y + token (j_for S j) y); [intros Hy; specialize (Hsum Hy); lia|].
      intros y. destruct (decide ((cid1, tid1) = y)) as [<-|Hne]; [lia|]. unfold token, m. by rewrite lookup_insert_ne.
    - exists B. split; [done|]. unfold measure. cbn. pose proof (effort_step _ _ _ Hself Hs). lia.
  Qed.

  Lemma budget_exists j : jinv j -> exists B L, budgeted (j_srv S j) B L.
  Proof.
    intros I. exists (fun _ => 12), (map_to_list (s_conns S (j_srv S j)) ≫= fun x => (map (fun y => (x.1, y.1)) (map_to_list (c_thr S x.2)))).
    intros cid tid t Ht. pose proof Ht as Ht'. unfold handler in Ht'. destruct (s_conns S (j_srv S j) !! cid) as [c|] eqn:Ec; [|done]. split.
    - apply elem_of_list_bind. exists (cid, c). split; [|by apply elem_of_map_to_list]. cbn. apply elem_of_list_fmap. exists (tid, t).
      split; [done|]. by apply elem_of_map_to_list.
    - destruct t as [p|er]; [|lia]. exists 10. split; [|lia]. by eapply all_within.
  Qed.
End Server.
