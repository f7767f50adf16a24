(** * StoreProofs: both stores are correct stores *)

From Verif Require Import Base Types Codec CodecProofs2 Store.

(** ** Facts about the specification *)

Lemma under_keys k e : under k e = true <-> k ∈ keys_of e.
Proof.
  unfold under, keys_of. destruct k as [t|pk|pk].
  - rewrite beq_true. split.
    + intros <-. by left.
    + intros [H|H]%elem_of_cons; [by injection H as ->|].
      destruct (seed_info_of e); repeat (apply elem_of_cons in H as [H|H]; [done|]);
        by apply elem_of_nil in H.
  - destruct (seed_info_of e) as [si|].
    + rewrite beq_true. split.
      * intros <-. by right; left.
      * intros H. repeat (apply elem_of_cons in H as [H|H]; [first [done|by injection H as ->]|]).
        by apply elem_of_nil in H.
    + split; [done|]. intros [H|H]%elem_of_cons; [done|by apply elem_of_nil in H].
  - destruct (seed_info_of e) as [si|].
    + rewrite beq_true. split.
      * intros <-. by right; right; left.
      * intros H. repeat (apply elem_of_cons in H as [H|H]; [first [done|by injection H as ->]|]).
        by apply elem_of_nil in H.
    + split; [done|]. intros [H|H]%elem_of_cons; [done|by apply elem_of_nil in H].
Qed.

Lemma taken_spec L e :
  taken L e = true <-> exists k e', k ∈ keys_of e /\ e' ∈ L /\ k ∈ keys_of e'.
Proof.
  unfold taken. rewrite existsb_exists. split.
  - intros (k & Hk & H). apply existsb_exists in H as (e' & He & Hu).
    exists k, e'. rewrite !elem_of_list_In. split; [done|]. split; [done|].
    rewrite <- elem_of_list_In. by apply under_keys.
  - intros (k & e' & Hk & He & H). exists k. rewrite <- elem_of_list_In. split; [done|].
    apply existsb_exists. exists e'. rewrite <- elem_of_list_In. split; [done|].
    by apply under_keys.
Qed.

Lemma spec_get_Some L k e : spec_get L k = Some e -> e ∈ L /\ k ∈ keys_of e.
Proof.
  intros [H1 H2]%find_some. rewrite elem_of_list_In. split; [done|]. by apply under_keys.
Qed.

Lemma spec_get_None L k e : spec_get L k = None -> e ∈ L -> k ∉ keys_of e.
Proof.
  intros H He Hk. apply elem_of_list_In in He. apply under_keys in Hk.
  pose proof (find_none _ _ H _ He). congruence.
Qed.

(** No two entries share a key. *)
Fixpoint distinct (L : list entry) : Prop :=
  match L with
  | [] => True
  | e :: L => (forall e' k, e' ∈ L -> k ∈ keys_of e -> k ∉ keys_of e') /\ distinct L
  end.

Lemma distinct_snoc L e : distinct L -> taken L e = false -> distinct (L ++ [e]).
Proof.
  intros HD HT. induction L as [|a L IH]; cbn [app distinct].
  - split; [|done]. intros e' k H. by apply elem_of_nil in H.
  - destruct HD as [H1 H2]. split.
    + intros e' k Hin Hk. apply elem_of_app in Hin as [Hin|Hin]; [by eapply H1|].
      apply elem_of_list_singleton in Hin as ->. intros Hk'.
      assert (taken (a :: L) e = true); [|congruence].
      apply taken_spec. exists k, a. split; [done|]. split; [by left|done].
    + apply IH; [done|]. destruct (taken L e) eqn:E; [|done].
      apply taken_spec in E as (k & e' & ? & ? & ?).
      assert (taken (a :: L) e = true); [|congruence].
      apply taken_spec. exists k, e'. split; [done|]. split; [by right|done].
Qed.

Lemma distinct_get L k e : distinct L -> e ∈ L -> k ∈ keys_of e -> spec_get L k = Some e.
Proof.
  unfold spec_get. induction L as [|a L IH]; intros HD Hin Hk; [by apply elem_of_nil in Hin|].
  destruct HD as [H1 H2]. cbn [find].
  destruct (under k a) eqn:E.
  - apply under_keys in E. apply elem_of_cons in Hin as [->|Hin]; [done|].
    exfalso. by eapply H1.
  - apply elem_of_cons in Hin as [->|Hin].
    + apply under_keys in Hk. congruence.
    + by apply IH.
Qed.

Lemma spec_write_distinct L e L' : distinct L -> spec_write L e = Some L' -> distinct L'.
Proof.
  unfold spec_write. destruct (taken L e) eqn:E; [done|]. intros HD [= <-].
  by apply distinct_snoc.
Qed.

(** ** The in-memory store *)

Definition mem_rel (s : mem) (L : list entry) : Prop :=
  distinct L
  /\ (forall t e, m_tag s !! t = Some e <-> e ∈ L /\ tag_of e = t)
  /\ (forall pk t, m_ed s !! pk = Some t <->
        exists e si, e ∈ L /\ tag_of e = t /\ seed_info_of e = Some si /\ si_ed si = pk)
  /\ (forall pk t, m_x s !! pk = Some t <->
        exists e si, e ∈ L /\ tag_of e = t /\ seed_info_of e = Some si /\ si_x si = pk).

Lemma keys_ed e si : seed_info_of e = Some si -> ByEd (si_ed si) ∈ keys_of e.
Proof. intros H. unfold keys_of. rewrite H. by right; left. Qed.
Lemma keys_x e si : seed_info_of e = Some si -> ByX (si_x si) ∈ keys_of e.
Proof. intros H. unfold keys_of. rewrite H. by right; right; left. Qed.
Lemma keys_tag e : ByTag (tag_of e) ∈ keys_of e.
Proof. by left. Qed.

Lemma keys_cases k e : k ∈ keys_of e ->
  k = ByTag (tag_of e)
  \/ exists si, seed_info_of e = Some si /\ (k = ByEd (si_ed si) \/ k = ByX (si_x si)).
Proof.
  unfold keys_of. intros [->|H]%elem_of_cons; [by left|]. right.
  destruct (seed_info_of e) as [si|]; [|by apply elem_of_nil in H]. exists si. split; [done|].
  apply elem_of_cons in H as [->|H]; [by left|].
  apply elem_of_cons in H as [->|H]; [by right|]. by apply elem_of_nil in H.
Qed.

Lemma mem_has_tag s L t : mem_rel s L ->
  has (m_tag s) t = true <-> exists e, e ∈ L /\ ByTag t ∈ keys_of e.
Proof.
  intros (HD & HT & HE & HX). unfold has. destruct (m_tag s !! t) as [e|] eqn:E.
  - split; [|done]. intros _. apply HT in E as [He <-]. exists e. split; [done|apply keys_tag].
  - split; [done|]. intros (e & He & Hk). exfalso.
    apply keys_cases in Hk as [[= ->]|(si & _ & [H|H])]; try done.
    assert (m_tag s !! tag_of e = Some e) by (by apply HT). congruence.
Qed.

Lemma mem_has_ed s L pk : mem_rel s L ->
  has (m_ed s) pk = true <-> exists e, e ∈ L /\ ByEd pk ∈ keys_of e.
Proof.
  intros (HD & HT & HE & HX). unfold has. destruct (m_ed s !! pk) as [t|] eqn:E.
  - split; [|done]. intros _. apply HE in E as (e & si & He & _ & Hsi & <-).
    exists e. split; [done|by apply keys_ed].
  - split; [done|]. intros (e & He & Hk). exfalso.
    apply keys_cases in Hk as [H|(si & Hsi & [[= ->]|H])]; try done.
    assert (m_ed s !! si_ed si = Some (tag_of e)) by (apply HE; eauto 10). congruence.
Qed.

Lemma mem_has_x s L pk : mem_rel s L ->
  has (m_x s) pk = true <-> exists e, e ∈ L /\ ByX pk ∈ keys_of e.
Proof.
  intros (HD & HT & HE & HX). unfold has. destruct (m_x s !! pk) as [t|] eqn:E.
  - split; [|done]. intros _. apply HX in E as (e & si & He & _ & Hsi & <-).
    exists e. split; [done|by apply keys_x].
  - split; [done|]. intros (e & He & Hk). exfalso.
    apply keys_cases in Hk as [H|(si & Hsi & [H|[= ->]])]; try done.
    assert (m_x s !! si_x si = Some (tag_of e)) by (apply HX; eauto 10). congruence.
Qed.

Lemma mem_write_taken s L e : mem_rel s L ->
  is_ok (fst (mem_write s e)) = negb (taken L e)
  /\ (taken L e = true -> snd (mem_write s e) = s).
Proof.
  intros HR. unfold mem_write.
  destruct (has (m_tag s) (tag_of e)) eqn:ET.
  { apply (mem_has_tag _ _ _ HR) in ET as (e' & He & Hk).
    assert (taken L e = true) as ->; [|done].
    apply taken_spec. exists (ByTag (tag_of e)), e'. split; [apply keys_tag|done]. }
  destruct (seed_info_of e) as [si|] eqn:Esi.
  - destruct (has (m_ed s) (si_ed si)) eqn:EE.
    { apply (mem_has_ed _ _ _ HR) in EE as (e' & He & Hk).
      assert (taken L e = true) as ->; [|done].
      apply taken_spec. exists (ByEd (si_ed si)), e'. split; [by apply keys_ed|done]. }
    destruct (has (m_x s) (si_x si)) eqn:EX.
    { apply (mem_has_x _ _ _ HR) in EX as (e' & He & Hk).
      assert (taken L e = true) as ->; [|done].
      apply taken_spec. exists (ByX (si_x si)), e'. split; [by apply keys_x|done]. }
    assert (taken L e = false) as ->; [|done].
    destruct (taken L e) eqn:E; [|done].
    apply taken_spec in E as (k & e' & Hk & He & Hk'). exfalso.
    apply keys_cases in Hk as [->|(si' & Hsi' & Hk)].
    + assert (has (m_tag s) (tag_of e) = true); [|congruence].
      apply (mem_has_tag _ _ _ HR). eauto.
    + assert (si' = si) as -> by congruence. destruct Hk as [->| ->].
      * assert (has (m_ed s) (si_ed si) = true); [|congruence].
        apply (mem_has_ed _ _ _ HR). eauto.
      * assert (has (m_x s) (si_x si) = true); [|congruence].
        apply (mem_has_x _ _ _ HR). eauto.
  - assert (taken L e = false) as ->; [|done].
    destruct (taken L e) eqn:E; [|done].
    apply taken_spec in E as (k & e' & Hk & He & Hk'). exfalso.
    apply keys_cases in Hk as [->|(si' & Hsi' & Hk)]; [|congruence].
    assert (has (m_tag s) (tag_of e) = true); [|congruence].
    apply (mem_has_tag _ _ _ HR). eauto.
Qed.

Lemma mem_write_rel s L e : mem_rel s L -> taken L e = false ->
  mem_rel (snd (mem_write s e)) (L ++ [e]).
Proof.
  intros HR HT.
  pose proof (mem_write_taken s L e HR) as [Hok _]. rewrite HT in Hok.
  assert (HF : forall k e', k ∈ keys_of e -> e' ∈ L -> k ∉ keys_of e').
  { intros k e' H1 H2 H3. assert (taken L e = true); [|congruence].
    apply taken_spec. eauto. }
  destruct HR as (HD & HTg & HE & HX).
  revert Hok. unfold mem_write.
  destruct (has (m_tag s) (tag_of e)) eqn:ET; [done|].
  assert (HTag : forall t e0, <[tag_of e := e]> (m_tag s) !! t = Some e0
            <-> e0 ∈ L ++ [e] /\ tag_of e0 = t).
  { intros t e0. rewrite elem_of_app, elem_of_list_singleton.
    destruct (decide (t = tag_of e)) as [->|Hne].
    - rewrite lookup_insert. split.
      + intros [= ->]. auto.
      + intros [[Hin| ->] Heq]; [|done]. exfalso.
        apply (HF (ByTag (tag_of e)) e0); [apply keys_tag|done|rewrite <- Heq; apply keys_tag].
    - rewrite lookup_insert_ne by done. rewrite HTg. split; [intros []; auto|].
      intros [[Hin| ->] Heq]; [done|congruence]. }
  destruct (seed_info_of e) as [si|] eqn:Esi.
  - destruct (has (m_ed s) (si_ed si)) eqn:EE; [done|].
    destruct (has (m_x s) (si_x si)) eqn:EX; [done|]. intros _. cbn [snd].
    split; [by apply distinct_snoc|]. split; [exact HTag|]. split.
    + intros pk t. cbn [m_ed]. destruct (decide (pk = si_ed si)) as [->|Hne].
      * rewrite lookup_insert. split.
        { intros [= <-]. exists e, si. rewrite elem_of_app, elem_of_list_singleton. auto. }
        { intros (e' & si' & Hin & <- & Hsi & Heq).
          apply elem_of_app in Hin as [Hin|Hin%elem_of_list_singleton]; [|by subst].
          exfalso. apply (HF (ByEd (si_ed si)) e'); [by apply keys_ed|done|].
          rewrite <- Heq. by apply keys_ed. }
      * rewrite lookup_insert_ne by done. rewrite HE.
        setoid_rewrite elem_of_app. setoid_rewrite elem_of_list_singleton. split;
          [intros (e' & si' & Hin & Ht & Hsi & Heq); exists e', si'; auto 10|].
        intros (e' & si' & [Hin| ->] & Ht & Hsi & Heq); [exists e', si'; auto 10|congruence].
    + intros pk t. cbn [m_x]. destruct (decide (pk = si_x si)) as [->|Hne].
      * rewrite lookup_insert. split.
        { intros [= <-]. exists e, si. rewrite elem_of_app, elem_of_list_singleton. auto. }
        { intros (e' & si' & Hin & <- & Hsi & Heq).
          apply elem_of_app in Hin as [Hin|Hin%elem_of_list_singleton]; [|by subst].
          exfalso. apply (HF (ByX (si_x si)) e'); [by apply keys_x|done|].
          rewrite <- Heq. by apply keys_x. }
      * rewrite lookup_insert_ne by done. rewrite HX.
        setoid_rewrite elem_of_app. setoid_rewrite elem_of_list_singleton. split;
          [intros (e' & si' & Hin & Ht & Hsi & Heq); exists e', si'; auto 10|].
        intros (e' & si' & [Hin| ->] & Ht & Hsi & Heq); [exists e', si'; auto 10|congruence].
  - intros _. cbn [snd]. split; [by apply distinct_snoc|]. split; [exact HTag|].
    cbn [m_ed m_x]. setoid_rewrite elem_of_app. setoid_rewrite elem_of_list_singleton.
    split.
    + intros pk t. rewrite HE. split;
        [intros (e' & si' & Hin & Ht & Hsi & Heq); exists e', si'; auto 10|].
      intros (e' & si' & [Hin| ->] & Ht & Hsi & Heq); [exists e', si'; auto 10|congruence].
    + intros pk t. rewrite HX. split;
        [intros (e' & si' & Hin & Ht & Hsi & Heq); exists e', si'; auto 10|].
      intros (e' & si' & [Hin| ->] & Ht & Hsi & Heq); [exists e', si'; auto 10|congruence].
Qed.

Lemma mem_get_rel s L k : mem_rel s L ->
  match spec_get L k with
  | Some e => mem_get s k = Ok e
  | None => is_ok (mem_get s k) = false
  end.
Proof.
  intros (HD & HT & HE & HX).
  destruct (spec_get L k) as [e|] eqn:E.
  - apply spec_get_Some in E as [Hin Hk].
    apply keys_cases in Hk as [->|(si & Hsi & [->| ->])]; unfold mem_get.
    + assert (m_tag s !! tag_of e = Some e) as -> by (by apply HT). done.
    + assert (m_ed s !! si_ed si = Some (tag_of e)) as -> by (apply HE; eauto 10). cbn.
      assert (m_tag s !! tag_of e = Some e) as -> by (by apply HT). done.
    + assert (m_x s !! si_x si = Some (tag_of e)) as -> by (apply HX; eauto 10). cbn.
      assert (m_tag s !! tag_of e = Some e) as -> by (by apply HT). done.
  - destruct k as [t|pk|pk]; unfold mem_get.
    + destruct (m_tag s !! t) as [e|] eqn:Em; [|done]. exfalso.
      apply HT in Em as [Hin <-]. eapply spec_get_None; [done..|apply keys_tag].
    + destruct (m_ed s !! pk) as [t|] eqn:Em; [|done]. exfalso.
      apply HE in Em as (e & si & Hin & <- & Hsi & <-).
      eapply spec_get_None; [done..|by apply keys_ed].
    + destruct (m_x s !! pk) as [t|] eqn:Em; [|done]. exfalso.
      apply HX in Em as (e & si & Hin & <- & Hsi & <-).
      eapply spec_get_None; [done..|by apply keys_x].
Qed.

Lemma distinct_NoDup L : distinct L -> NoDup L.
Proof.
  induction L as [|e L IH]; [constructor|]. intros [H1 H2]. constructor; [|auto].
  intros Hin. by apply (H1 e (ByTag (tag_of e)) Hin); apply keys_tag.
Qed.

Lemma mem_list_rel s L : mem_rel s L ->
  exists l, mem_list s = Ok l /\ l ≡ₚ map info_of L.
Proof.
  intros (HD & HT & _). eexists. split; [reflexivity|].
  rewrite <- (map_map snd info_of). apply fmap_Permutation.
  apply NoDup_Permutation.
  - apply NoDup_fmap_2_strong; [|apply NoDup_map_to_list].
    intros [t e] [t' e'] H1%elem_of_map_to_list H2%elem_of_map_to_list. cbn. intros ->.
    apply HT in H1 as [_ <-]. by apply HT in H2 as [_ <-].
  - by apply distinct_NoDup.
  - intros e. rewrite elem_of_list_fmap. split.
    + intros ([t e'] & -> & Hin%elem_of_map_to_list). by apply HT in Hin as [? _].
    + intros Hin. exists (tag_of e, e). split; [done|]. apply elem_of_map_to_list. by apply HT.
Qed.

Lemma mem_init_rel : mem_rel mem_init [].
Proof.
  split; [done|]. cbn [m_tag m_ed m_x mem_init]. split; [|split].
  + intros t e. rewrite lookup_empty. split; [done|]. intros [H _]. by apply elem_of_nil in H.
  + intros pk t. rewrite lookup_empty. split; [done|].
    intros (e & si & H & _). by apply elem_of_nil in H.
  + intros pk t. rewrite lookup_empty. split; [done|].
    intros (e & si & H & _). by apply elem_of_nil in H.
Qed.

Definition mem_store_ok : StoreOk mem_store.
Proof.
  refine (MkStoreOk mem_store mem_rel mem_init_rel _ _ _ false _).
  - intros s L e HR _. pose proof (mem_write_taken s L e HR) as [H1 H2].
    unfold spec_write. cbn [st_write mem_store st]. destruct (taken L e) eqn:E.
    + split; [by rewrite H1|]. by rewrite (H2 eq_refl).
    + split; [|by apply mem_write_rel]. destruct (mem_write s e) as [[[]|er] s2]; [done|]. by cbn in H1.
  - intros s L HR. by apply mem_list_rel.
  - intros s L k HR. by apply mem_get_rel.
  - intros s L _. apply mem_init_rel.
Defined.

(** ** The sqlite store *)

Definition row_of (e : entry) : row :=
  match seed_info_of e with
  | Some si => Row (tag_of e) (Some (si_ed si)) (Some (si_x si)) (encode_entry e)
  | None => Row (tag_of e) None None (encode_entry e)
  end.

Definition sql_rel (t : list row) (L : list entry) : Prop :=
  t = map row_of L /\ Forall entry_ok L.

Lemma sql_where_row k e : sql_where k (row_of e) = under k e.
Proof. destruct k; unfold row_of, under; by destruct (seed_info_of e). Qed.

Lemma sql_violates L e :
  violates (map row_of L) (row_of e) = taken L e.
Proof.
  apply eq_true_iff_eq. unfold violates. rewrite existsb_exists, taken_spec.
  setoid_rewrite <- elem_of_list_In. setoid_rewrite elem_of_list_fmap.
  split.
  - intros (r & (e' & -> & Hin) & H). apply orb_true_iff in H as [H|H].
    + apply orb_true_iff in H as [H|H].
      * exists (ByTag (tag_of e)), e'. split; [apply keys_tag|]. split; [done|].
        apply under_keys. rewrite <- sql_where_row. cbn.
        unfold row_of in H at 2. by destruct (seed_info_of e).
      * unfold row_of in H at 2. destruct (seed_info_of e) as [si|] eqn:Esi; [|done].
        exists (ByEd (si_ed si)), e'. split; [by apply keys_ed|]. split; [done|].
        apply under_keys. by rewrite <- sql_where_row.
    + unfold row_of in H at 2. destruct (seed_info_of e) as [si|] eqn:Esi; [|done].
      exists (ByX (si_x si)), e'. split; [by apply keys_x|]. split; [done|].
      apply under_keys. by rewrite <- sql_where_row.
  - intros (k & e' & Hk & Hin & Hk'). exists (row_of e'). split; [by exists e'|].
    apply under_keys in Hk'. rewrite <- sql_where_row in Hk'.
    apply keys_cases in Hk as [->|(si & Hsi & [->| ->])]; cbn [sql_where] in Hk'.
    + replace (r_tag (row_of e)) with (tag_of e)
        by (unfold row_of; by destruct (seed_info_of e)).
      by rewrite Hk'.
    + unfold row_of at 4. rewrite Hsi. cbn [r_ed sql_same]. rewrite Hk'.
      by rewrite orb_true_r.
    + unfold row_of at 6. rewrite Hsi. cbn [r_x sql_same]. rewrite Hk'.
      by rewrite orb_true_r.
Qed.

Lemma sql_write_row t e : sql_write t e = sql_insert t (row_of e).
Proof. unfold sql_write, row_of. by destruct (seed_info_of e). Qed.

Lemma row_of_data e : r_data (row_of e) = encode_entry e.
Proof. unfold row_of. by destruct (seed_info_of e). Qed.

Lemma decode_encode_entry0 e : entry_ok e -> decode_entry (encode_entry e) = Ok e.
Proof. intros H. rewrite <- (app_nil_r (encode_entry e)). by apply decode_encode_entry. Qed.

Definition sql_store_ok : StoreOk sql_store.
Proof.
  refine (MkStoreOk sql_store sql_rel _ _ _ _ true _).
  - by split.
  - intros t L e [-> HF] He. cbn [st_write sql_store]. rewrite sql_write_row.
    unfold sql_insert, spec_write. rewrite sql_violates. destruct (taken L e); [done|].
    split; [done|]. split; [by rewrite map_app|]. by apply Forall_app_2; [|constructor].
  - intros t L [-> HF]. cbn [st_list sql_store]. unfold sql_list.
    assert (decode_all (map r_data (map row_of L)) = Ok L) as ->; [|by eexists].
    induction HF as [|e L He HF IH]; [done|]. cbn [map decode_all].
    rewrite row_of_data, decode_encode_entry0 by done. cbn [rbind]. by rewrite IH.
  - intros t L k [-> HF]. cbn [st_get sql_store]. unfold sql_get, spec_get.
    induction HF as [|e L He HF IH]; [done|]. cbn [map find].
    rewrite sql_where_row. destruct (under k e); [|done].
    cbn [ok_of_opt rbind]. by rewrite row_of_data, decode_encode_entry0.
  - by intros t L H.
Defined.
