(** * CodecForms: the other spellings of a message or an entry

    Vocabulary for [PropertiesForms] and the lemmas behind it: the readers look at a
    field by its name, so neither the order of the fields, nor fields they do not
    know, nor naming a field or a kind by its number, changes what is read. *)

From Verif Require Import Base Utf8 Base64 Msgpack Types Codec CodecProofs CodecProofs2.
Local Open Scope nat_scope.

(** ** Vocabulary *)

(** A key of a map spells a field: by its name, as a text or as bytes, or by its
    number among the fields of the structure. *)
Inductive spells (names : list bytes) : mval * mval -> bytes * mval -> Prop :=
| by_name k v : spells names (MStr k, v) (k, v)
| by_bytes k v : spells names (MBin k, v) (k, v)
| by_number i k v : nth_error names i = Some k -> spells names (MUInt (N.of_nat i), v) (k, v).

(** A value spells a kind: by its name, or by its number among the kinds. *)
Inductive spells_kind (kinds : list bytes) (t : bytes) : mval -> Prop :=
| kind_by_name : spells_kind kinds t (MStr t)
| kind_by_bytes : spells_kind kinds t (MBin t)
| kind_by_number i : nth_error kinds i = Some t -> spells_kind kinds t (MUInt (N.of_nat i)).

(** The fields a kind declares. *)
Definition declared (decl : list (bytes * list bytes)) (t : bytes) : list bytes :=
  match lookup_variant t decl with Some names => names | None => [] end.

(** [kvs] spells the fields [l], in any order, among fields with other names. *)
Definition holds_fields (names : list bytes) (kvs : list (mval * mval))
    (l : list (bytes * mval)) : Prop :=
  exists fs extra,
    Forall2 (spells names) kvs fs /\ Permutation fs (l ++ extra)
    /\ forall k v, In (k, v) extra -> k <> str "type" /\ ~ In k names.

(** The value of a field when all fields are written in order: [nil] stands for an
    option that is absent, [false] for an absent flag. *)
Definition positional (l : list (bytes * mval)) (k : bytes) : mval :=
  match occurrences k l with
  | v :: _ => v
  | [] => if beq k (str "exportable") then MBool false else MNil
  end.

(** ** Lemmas *)

Definition respects {A} (names : list bytes) (r : list (bytes * mval) -> option A) : Prop :=
  forall fs fs', (forall k, In k names -> occurrences k fs = occurrences k fs') -> r fs = r fs'.

Ltac in_names := cbn; repeat (first [left; reflexivity | right]).

Ltac respect :=
  intros fs fs' H; unfold req, dft;
  repeat match goal with
  | |- context [occurrences ?k fs] => rewrite (H k) by in_names
  end; reflexivity.

Lemma info_respects :
  Forall2 (fun d v => fst d = fst v /\ respects (snd d) (snd v)) info_decl info_variants.
Proof. repeat constructor; cbn [snd]; respect. Qed.

Lemma entry_respects :
  Forall2 (fun d v => fst d = fst v /\ respects (snd d) (snd v)) entry_decl entry_variants.
Proof. repeat constructor; cbn [snd]; respect. Qed.

Lemma api_respects :
  Forall2 (fun d v => fst d = fst v /\ respects (snd d) (snd v)) api_decl api_variants.
Proof. repeat constructor; cbn [snd]; respect. Qed.

Lemma variant_respects {A} decl (vs : list (bytes * (list (bytes * mval) -> option A))) t names fs fs' :
  Forall2 (fun d v => fst d = fst v /\ respects (snd d) (snd v)) decl vs ->
  lookup_variant t decl = Some names ->
  (forall k, In k names -> occurrences k fs = occurrences k fs') ->
  variant t vs fs = variant t vs fs'.
Proof.
  intros F Hn Hk. unfold variant.
  induction F as [|[n d] [n' r] decl vs [E R] F IH]; [done|]. cbn [fst snd] in *. subst n'.
  cbn [lookup_variant] in *. destruct (beq t n); [|by apply IH].
  injection Hn as ->. by apply R.
Qed.

Lemma occurrences_app k l l' : occurrences k (l ++ l') = occurrences k l ++ occurrences k l'.
Proof. induction l as [|[k' v] l IH]; [done|]. cbn. rewrite IH. by destruct (beq k' k). Qed.

Lemma occurrences_perm k l l' :
  Permutation l l' -> Permutation (occurrences k l) (occurrences k l').
Proof.
  induction 1 as [|[k' v] l l' _ IH|[k1 v1] [k2 v2] l|l l' l'' _ IH1 _ IH2]; cbn [occurrences].
  - done.
  - destruct (beq k' k); [by constructor|done].
  - destruct (beq k1 k), (beq k2 k); try done. by constructor.
  - by etransitivity.
Qed.

Lemma occurrences_none k l : (forall v, ~ In (k, v) l) -> occurrences k l = [].
Proof.
  induction l as [|[k' v] l IH]; intros H; [done|]. cbn.
  destruct (beq k' k) eqn:E.
  - apply beq_true in E as ->. exfalso. apply (H v). by left.
  - apply IH. intros w Hw. apply (H w). by right.
Qed.

Lemma perm_short {A} (l l' : list A) : length l <= 1 -> Permutation l' l -> l' = l.
Proof.
  destruct l as [|a [|b l]]; cbn; intros H P; [by apply Permutation_nil_r in P| |lia].
  by apply Permutation_length_1_inv.
Qed.

Lemma wmap_inj l l' : wmap l = wmap l' -> l = l'.
Proof.
  unfold wmap. intros [= H]. revert l' H.
  induction l as [|[k v] l IH]; intros [|[k' v'] l'] H; try done.
  cbn in H. injection H as -> -> H. f_equal. by apply IH.
Qed.

Lemma wtyped_inj t t' l l' : wtyped t l = wtyped t' l' -> t = t' /\ l = l'.
Proof. intros H%wmap_inj. by injection H as -> ->. Qed.

Lemma rfields_spells names kvs fs :
  Forall2 (spells names) kvs fs -> rfields names kvs = Some fs.
Proof.
  induction 1 as [|kv f kvs fs H _ IH]; [done|].
  destruct H as [k v|k v|i k v Hi]; cbn [rfields rkey rname obind].
  - by rewrite IH.
  - by rewrite IH.
  - assert (i < length names) by (apply nth_error_Some; by rewrite Hi).
    destruct (N.ltb_spec (N.of_nat i) (N.of_nat (length names))) as [_|]; [|lia].
    rewrite Nat2N.id, Hi. cbn [obind]. by rewrite IH.
Qed.

Lemma tags_spells names kvs fs :
  Forall2 (spells names) kvs fs -> ~ In (str "type") (map fst fs) -> tags kvs = [].
Proof.
  induction 1 as [|kv f kvs fs H _ IH]; [done|].
  destruct H as [k v|k v|i k v Hi]; cbn [tags rname map fst]; intros Hn.
  - destruct (beq k (str "type")) eqn:E.
    + apply beq_true in E as ->. exfalso. apply Hn. by left.
    + apply IH. intros Hin. apply Hn. by right.
  - destruct (beq k (str "type")) eqn:E.
    + apply beq_true in E as ->. exfalso. apply Hn. by left.
    + apply IH. intros Hin. apply Hn. by right.
  - apply IH. intros Hin. apply Hn. by right.
Qed.

Lemma tags_app l l' : tags (l ++ l') = tags l ++ tags l'.
Proof.
  induction l as [|[k v] l IH]; [done|]. cbn. rewrite IH.
  destruct (rname k) as [s|]; [|done]. by destruct (beq s _).
Qed.

Lemma rfields_app names l l' fs fs' :
  rfields names l = Some fs -> rfields names l' = Some fs' ->
  rfields names (l ++ l') = Some (fs ++ fs').
Proof.
  revert fs. induction l as [|[k v] l IH]; intros fs; cbn.
  - by intros [= <-] ->.
  - intros H H'. unfold obind in *. destruct (rkey names k); [|done].
    destruct (rfields names l) as [fs1|]; [|done]. injection H as <-.
    by rewrite (IH _ eq_refl H').
Qed.

Lemma rvariant_spells decl t tv :
  spells_kind (map fst decl) t tv -> @rvariant (list bytes) decl tv = Some t.
Proof.
  intros [| |i Hi]; [done|done|]. cbn [rvariant]. rewrite nth_error_map in Hi.
  destruct (nth_error decl i) as [[n d]|] eqn:E; [|done]. injection Hi as <-.
  assert (i < length decl) by (apply nth_error_Some; by rewrite E).
  destruct (N.ltb_spec (N.of_nat i) (N.of_nat (length decl))) as [_|]; [|lia].
  by rewrite Nat2N.id, E.
Qed.

Lemma once_occurrences k (l : list (bytes * mval)) :
  NoDup (map fst l) -> length (occurrences k l) <= 1.
Proof.
  induction l as [|[k' v] l IH]; cbn [map fst occurrences]; intros H; [cbn; lia|].
  apply NoDup_cons in H as [H1 H2]. destruct (beq k' k) eqn:E; [|by apply IH].
  apply beq_true in E as ->. rewrite occurrences_none; [cbn; lia|].
  intros w Hw. apply H1. apply elem_of_list_In. by apply (in_map fst) in Hw.
Qed.

(** The general form: a map that spells the fields [l] of the kind [t] reads like the
    map that is written. *)
Lemma rtyped_spells {A} decl (vs : list (bytes * (list (bytes * mval) -> option A)))
    t names l tv kvs1 kvs2 :
  Forall2 (fun d v => fst d = fst v /\ respects (snd d) (snd v)) decl vs ->
  lookup_variant t decl = Some names -> ~ In (str "type") names ->
  NoDup (map fst l) -> ~ In (str "type") (map fst l) ->
  spells_kind (map fst decl) t tv -> holds_fields names (kvs1 ++ kvs2) l ->
  rtyped decl vs (MMap (kvs1 ++ (MStr (str "type"), tv) :: kvs2))
  = rtyped decl vs (wtyped t l).
Proof.
  intros F Hn Htn Hd Htl Hk (fs & extra & Hs & Hp & Hx).
  assert (Ht : ~ In (str "type") (map fst fs)).
  { rewrite Hp, map_app, in_app_iff. intros [?|H]; [done|].
    apply in_map_iff in H as ([k v] & E & H). cbn in E. by apply Hx in H as []. }
  rewrite rtyped_wtyped by first [by eexists|apply occurrences_none; intros v Hv; by apply (in_map fst) in Hv].
  apply Forall2_app_inv_l in Hs as (fs1 & fs2 & H1 & H2 & ->).
  rewrite map_app, in_app_iff in Ht.
  cbn [rtyped]. rewrite tags_app. cbn [tags rname]. rewrite beq_refl.
  rewrite (tags_spells _ _ _ H1) by tauto. rewrite (tags_spells _ _ _ H2) by tauto. cbn [app].
  rewrite (rvariant_spells _ _ _ Hk). cbn [obind]. rewrite Hn. cbn [obind].
  rewrite (rfields_app names kvs1 _ fs1 ((str "type", tv) :: fs2)); cycle 1.
  { by apply rfields_spells. }
  { cbn [rfields rkey rname obind]. by rewrite (rfields_spells _ _ _ H2). }
  cbn [obind]. eapply variant_respects; [done|done|].
  intros k Hin. assert (Hkt : beq (str "type") k = false).
  { apply beq_false. intros <-. done. }
  rewrite occurrences_app. cbn [occurrences]. rewrite Hkt.
  rewrite <- occurrences_app. apply perm_short; [by apply once_occurrences|].
  rewrite (occurrences_perm k _ _ Hp), occurrences_app.
  rewrite (occurrences_none k extra); [by rewrite app_nil_r|].
  intros v Hv. by apply Hx in Hv as [_ Hv].
Qed.

Lemma rpos_map names f : rpos names (map f names) = Some (map (fun n => (n, f n)) names).
Proof. induction names as [|n names IH]; [done|]. cbn. by rewrite IH. Qed.

Lemma rtyped_positional {A} decl (vs : list (bytes * (list (bytes * mval) -> option A)))
    t names tv f :
  lookup_variant t decl = Some names -> spells_kind (map fst decl) t tv ->
  rtyped decl vs (MArr (tv :: map f names)) = variant t vs (map (fun n => (n, f n)) names).
Proof.
  intros Hn Hk. cbn [rtyped]. rewrite (rvariant_spells _ _ _ Hk). cbn [obind]. rewrite Hn.
  cbn [obind]. by rewrite rpos_map.
Qed.

Ltac names_once :=
  apply (bool_decide_unpack _); vm_compute; exact I.

Lemma api_shape a t l : wapi a = wtyped t l ->
  lookup_variant t api_decl = Some (declared api_decl t)
  /\ ~ In (str "type") (declared api_decl t)
  /\ NoDup (map fst l) /\ ~ In (str "type") (map fst l).
Proof.
  unfold wapi. cbv zeta.
  destruct a;
  repeat match goal with
  | o : option _ |- _ => destruct o; cbn [wopt]
  | b : bool |- _ => destruct b
  end; intros H; apply wtyped_inj in H as [<- <-]; cbn [app map fst];
  rewrite <- !elem_of_list_In;
  (split; [vm_compute; reflexivity|]; split; [names_once|]; split; names_once).
Qed.

Lemma entry_shape e t l : wentry e = wtyped t l ->
  lookup_variant t entry_decl = Some (declared entry_decl t)
  /\ ~ In (str "type") (declared entry_decl t)
  /\ NoDup (map fst l) /\ ~ In (str "type") (map fst l).
Proof.
  destruct e; cbn [wentry]; intros H; apply wtyped_inj in H as [<- <-]; cbn [app map fst];
  rewrite <- !elem_of_list_In;
  (split; [vm_compute; reflexivity|]; split; [names_once|]; split; names_once).
Qed.

(** Every field written in order, absent ones as [nil] or [false]. *)
Ltac pos1 :=
  match goal with |- context [positional ?l ?k] =>
    unfold positional at 1; occ1; cbv iota;
    try match goal with |- context [beq k (str "exportable")] =>
      let v := eval vm_compute in (beq k (str "exportable")) in
      replace (beq k (str "exportable")) with v by (vm_compute; reflexivity); cbv iota
    end
  end.

Lemma api_positional a t l tv :
  api_ok a -> wapi a = wtyped t l -> spells_kind (map fst api_decl) t tv ->
  rapi (MArr (tv :: map (positional l) (declared api_decl t))) = Some a.
Proof.
  intros [Hid H] Hw Hk. pose proof (api_shape _ _ _ Hw) as (Hn & _).
  unfold rapi. rewrite (rtyped_positional _ _ _ _ _ _ Hn Hk). clear Hn Hk.
  revert Hw. unfold wapi. cbv zeta.
  destruct a; cbn [msg_id] in Hid; destruct_and?;
  repeat match goal with
  | o : option _ |- _ => destruct o; cbn [opt_ok] in *; cbn [wopt]
  | b : bool |- _ => destruct b
  end; intros Hw; apply wtyped_inj in Hw as [<- <-]; cbn [app]; unfold declared, variant;
  repeat match goal with |- context [lookup_variant ?t ?l] =>
    let r := eval hnf in (lookup_variant t l) in
    replace (lookup_variant t l) with r by reflexivity; cbv iota
  end; cbn [map]; repeat pos1.
  all: fields; leaf'; try done.
  all: unfold rlist; rewrite rall_ok; [done|].
  all: eapply Forall_impl; [eassumption|].
  all: intros e He; first [by apply rinfo_ok|by apply ru32_ok].
Qed.

Lemma entry_positional e t l tv :
  entry_ok e -> wentry e = wtyped t l -> spells_kind (map fst entry_decl) t tv ->
  rentry (MArr (tv :: map (positional l) (declared entry_decl t))) = Some e.
Proof.
  intros H Hw Hk. pose proof (entry_shape _ _ _ Hw) as (Hn & _).
  unfold rentry. rewrite (rtyped_positional _ _ _ _ _ _ Hn Hk). clear Hn Hk.
  destruct e; cbn [entry_ok] in H; destruct_and?; cbn [wentry] in Hw;
  apply wtyped_inj in Hw as [<- <-]; unfold declared, variant;
  repeat match goal with |- context [lookup_variant ?t ?l] =>
    let r := eval hnf in (lookup_variant t l) in
    replace (lookup_variant t l) with r by reflexivity; cbv iota
  end; cbn [map]; repeat pos1;
  fields; leaf'; done.
Qed.

(** ** Nothing is said twice *)

Definition strict {A} (names : list bytes) (r : list (bytes * mval) -> option A) : Prop :=
  forall fs k, In k names -> 2 <= length (occurrences k fs) -> r fs = None.

Lemma req_twice {A} (r : mval -> option A) k fs a :
  req r k fs = Some a -> 2 <= length (occurrences k fs) -> False.
Proof. unfold req. destruct (occurrences k fs) as [|? [|? ?]]; cbn; (done || lia). Qed.
Lemma dft_twice {A} (r : mval -> option A) d k fs a :
  dft r d k fs = Some a -> 2 <= length (occurrences k fs) -> False.
Proof. unfold dft. destruct (occurrences k fs) as [|? [|? ?]]; cbn; (done || lia). Qed.

Ltac stricts :=
  intros fs k Hin Htwo; cbv beta;
  match goal with |- ?x = None => destruct x eqn:?; [exfalso|reflexivity] end;
  split_binds; cbn [In] in Hin;
  repeat match goal with H : _ \/ _ |- _ => destruct H as [<-|H] end;
  first [contradiction
    | match goal with
      | E : req _ ?k ?fs = Some _, H : 2 <= length (occurrences ?k ?fs) |- _ =>
          exact (req_twice _ _ _ _ E H)
      | E : dft _ _ ?k ?fs = Some _, H : 2 <= length (occurrences ?k ?fs) |- _ =>
          exact (dft_twice _ _ _ _ _ E H)
      end].

Lemma entry_strict :
  Forall2 (fun d v => fst d = fst v /\ strict (snd d) (snd v)) entry_decl entry_variants.
Proof.
  unfold entry_decl, entry_variants, api_decl, api_variants. cbv zeta.
  repeat (apply List.Forall2_cons; [split; [reflexivity|cbn [snd]]|]); [..|apply List.Forall2_nil].
  all: stricts.
Qed.

Lemma api_strict :
  Forall2 (fun d v => fst d = fst v /\ strict (snd d) (snd v)) api_decl api_variants.
Proof.
  unfold entry_decl, entry_variants, api_decl, api_variants. cbv zeta.
  repeat (apply List.Forall2_cons; [split; [reflexivity|cbn [snd]]|]); [..|apply List.Forall2_nil].
  all: stricts.
Qed.

Lemma variant_strict {A} decl (vs : list (bytes * (list (bytes * mval) -> option A))) t names fs k :
  Forall2 (fun d v => fst d = fst v /\ strict (snd d) (snd v)) decl vs ->
  lookup_variant t decl = Some names -> In k names -> 2 <= length (occurrences k fs) ->
  variant t vs fs = None.
Proof.
  intros F Hn Hk H2. unfold variant.
  induction F as [|[n d] [n' r] decl vs [E R] F IH]; [done|]. cbn [fst snd] in *. subst n'.
  cbn [lookup_variant] in *. destruct (beq t n); [|by apply IH].
  injection Hn as ->. by eapply R.
Qed.

Lemma rfields_app_inv names l l' fs :
  rfields names (l ++ l') = Some fs ->
  exists f1 f2, rfields names l = Some f1 /\ rfields names l' = Some f2 /\ fs = f1 ++ f2.
Proof.
  revert fs. induction l as [|[k v] l IH]; intros fs H; cbn in *; [by exists [], fs|].
  unfold obind in *. destruct (rkey names k) as [n|]; [|done].
  destruct (rfields names (l ++ l')) as [g|]; [|done]. injection H as <-.
  destruct (IH _ eq_refl) as (f1 & f2 & -> & -> & ->). by exists ((n, v) :: f1), f2.
Qed.

Lemma rkey_spells names key v k : spells names (key, v) (k, v) -> rkey names key = Some k.
Proof.
  inversion 1 as [? ?|? ?|i ? ? Hi]; subst; [done|done|]. cbn [rkey].
  assert (i < length names) by (apply nth_error_Some; by rewrite Hi).
  destruct (N.ltb_spec (N.of_nat i) (N.of_nat (length names))) as [_|]; [|lia].
  by rewrite Nat2N.id.
Qed.

Lemma tags_in tv kvs : In (MStr (str "type"), tv) kvs -> In tv (tags kvs).
Proof.
  induction kvs as [|[k v] kvs IH]; [done|]. intros [[= -> ->]|H].
  - cbn [tags rname]. rewrite beq_refl. by left.
  - cbn [tags]. destruct (rname k) as [s|]; [|by apply IH].
    destruct (beq s _); [right|]; by apply IH.
Qed.

Lemma rtyped_twice {A} decl (vs : list (bytes * (list (bytes * mval) -> option A)))
    t names tv key1 v1 key2 v2 k kvs1 kvs2 kvs3 :
  Forall2 (fun d v => fst d = fst v /\ strict (snd d) (snd v)) decl vs ->
  lookup_variant t decl = Some names -> In k names ->
  spells names (key1, v1) (k, v1) -> spells names (key2, v2) (k, v2) ->
  let kvs := kvs1 ++ (key1, v1) :: kvs2 ++ (key2, v2) :: kvs3 in
  In (MStr (str "type"), tv) kvs -> spells_kind (map fst decl) t tv ->
  rtyped decl vs (MMap kvs) = None.
Proof.
  intros F Hn Hk S1 S2 kvs Ht Htv. cbn [rtyped].
  apply tags_in in Ht. destruct (tags kvs) as [|t' [|]]; [done| |done].
  destruct Ht as [->|[]]. rewrite (rvariant_spells _ _ _ Htv). cbn [obind]. rewrite Hn.
  cbn [obind]. destruct (rfields names kvs) as [fs|] eqn:E; [|done]. cbn [obind].
  eapply variant_strict; [done|done|done|].
  subst kvs. apply rfields_app_inv in E as (f1 & f2 & _ & E & ->).
  cbn [rfields] in E. rewrite (rkey_spells _ _ _ _ S1) in E. cbn [obind] in E.
  destruct (rfields names (kvs2 ++ _)) as [f3|] eqn:E3; [|done]. injection E as <-.
  apply rfields_app_inv in E3 as (f4 & f5 & _ & E & ->).
  cbn [rfields] in E. rewrite (rkey_spells _ _ _ _ S2) in E. cbn [obind] in E.
  destruct (rfields names kvs3) as [f6|]; [|done]. injection E as <-.
  rewrite occurrences_app. cbn [occurrences]. rewrite beq_refl, occurrences_app.
  cbn [occurrences]. rewrite beq_refl. rewrite !app_length. cbn [length].
  rewrite app_length. cbn [length]. lia.
Qed.

Lemma rpos_long names l : length names < length l -> rpos names l = None.
Proof.
  revert names. induction l as [|v l IH]; intros names H; [cbn in H; lia|].
  destruct names as [|n names]; [done|]. cbn. rewrite IH; [done|]. cbn in H. lia.
Qed.
