(** * PropertiesForms: a message means the same however it is spelled (C67)

    A client in another language, or of another version, may order the fields
    differently, send fields this version does not know, write structures as arrays or
    use numbers for names: MessagePack libraries differ in this. Statements are about
    received bytes [s] that hold one MessagePack value ([decode_first s]), however that
    value itself was encoded. *)

From Verif Require Import Base Msgpack Types Codec CodecProofs CodecProofs2 CodecForms.
Local Open Scope nat_scope.

(** [a] is written as the kind [t] with the fields [l]. A map that has the kind [t] under
    ["type"], anywhere, and otherwise the fields [l], in any order and any spelling, among
    whatever fields the kind does not declare, is read as [a]. *)
Theorem C67_any_spelling :
  forall a t l s tv kvs1 kvs2,
  api_ok a -> wapi a = wtyped t l ->
  decode_first s = Some (MMap (kvs1 ++ (MStr (str "type"), tv) :: kvs2)) ->
  spells_kind (map fst api_decl) t tv ->
  holds_fields (declared api_decl t) (kvs1 ++ kvs2) l ->
  decode_api s = Ok a.
Proof.
  intros a t l s tv kvs1 kvs2 Ha Hw Hs Hk Hf.
  destruct (api_shape _ _ _ Hw) as (Hn & Htn & Hd & Htl).
  unfold decode_api. rewrite Hs. cbn [obind]. unfold rapi.
  rewrite (rtyped_spells _ _ t _ l tv kvs1 kvs2 api_respects Hn Htn Hd Htl Hk Hf).
  rewrite <- Hw. change (ok_of_opt (str "decode") (rapi (wapi a)) = Ok a). by rewrite rapi_ok.
Qed.
Print Assumptions C67_any_spelling.

(** The kind and all its fields in the order of declaration, as an array; options that are
    absent are [nil]. *)
Theorem C67_as_array :
  forall a t l s tv,
  api_ok a -> wapi a = wtyped t l ->
  spells_kind (map fst api_decl) t tv ->
  decode_first s = Some (MArr (tv :: map (positional l) (declared api_decl t))) ->
  decode_api s = Ok a.
Proof.
  intros a t l s tv Ha Hw Hk Hs. unfold decode_api. rewrite Hs. cbn [obind].
  by rewrite (api_positional _ _ _ _ Ha Hw Hk).
Qed.
Print Assumptions C67_as_array.

(** The same of the entries in the database. *)
Theorem C67_entry_any_spelling :
  forall e t l s tv kvs1 kvs2,
  entry_ok e -> wentry e = wtyped t l ->
  decode_first s = Some (MMap (kvs1 ++ (MStr (str "type"), tv) :: kvs2)) ->
  spells_kind (map fst entry_decl) t tv ->
  holds_fields (declared entry_decl t) (kvs1 ++ kvs2) l ->
  decode_entry s = Ok e.
Proof.
  intros e t l s tv kvs1 kvs2 He Hw Hs Hk Hf.
  destruct (entry_shape _ _ _ Hw) as (Hn & Htn & Hd & Htl).
  unfold decode_entry. rewrite Hs. cbn [obind]. unfold rentry.
  rewrite (rtyped_spells _ _ t _ l tv kvs1 kvs2 entry_respects Hn Htn Hd Htl Hk Hf).
  rewrite <- Hw. change (ok_of_opt (str "decode") (rentry (wentry e)) = Ok e). by rewrite rentry_ok.
Qed.
Print Assumptions C67_entry_any_spelling.

Theorem C67_entry_as_array :
  forall e t l s tv,
  entry_ok e -> wentry e = wtyped t l ->
  spells_kind (map fst entry_decl) t tv ->
  decode_first s = Some (MArr (tv :: map (positional l) (declared entry_decl t))) ->
  decode_entry s = Ok e.
Proof.
  intros e t l s tv He Hw Hk Hs. unfold decode_entry. rewrite Hs. cbn [obind].
  by rewrite (entry_positional _ _ _ _ He Hw Hk).
Qed.
Print Assumptions C67_entry_as_array.

Lemma no_field_type t : ~ In (str "type") (declared api_decl t).
Proof.
  assert (F : Forall (fun d => ~ In (str "type") (snd d)) api_decl).
  { apply Forall_forall. intros d Hd. rewrite <- elem_of_list_In. revert d Hd.
    apply Forall_forall. apply (bool_decide_unpack _). vm_compute. exact I. }
  unfold declared. induction F as [|[n d] decl Hd F IH]; cbn [lookup_variant]; [by intros []|].
  destruct (beq t n); [exact Hd|exact IH].
Qed.

(** Nothing is said twice: a map that has a declared field two times, spelled alike or not,
    with equal values or not, is refused, and so is one with two kinds; and an array with
    more values than the kind has fields. There is no message on whose meaning two readers
    could disagree by picking different ones. *)
Theorem C67_nothing_twice :
  forall t s tv k key1 v1 key2 v2 kvs1 kvs2 kvs3,
  decode_first s = Some (MMap (kvs1 ++ (key1, v1) :: kvs2 ++ (key2, v2) :: kvs3)) ->
  In (MStr (str "type"), tv) (kvs1 ++ (key1, v1) :: kvs2 ++ (key2, v2) :: kvs3) ->
  spells_kind (map fst api_decl) t tv ->
  spells (declared api_decl t) (key1, v1) (k, v1) ->
  spells (declared api_decl t) (key2, v2) (k, v2) ->
  k = str "type" \/ In k (declared api_decl t) ->
  is_ok (decode_api s) = false.
Proof.
  intros t s tv k key1 v1 key2 v2 kvs1 kvs2 kvs3 Hs Ht Hk S1 S2 Hin.
  unfold decode_api. rewrite Hs. cbn [obind]. unfold rapi. destruct Hin as [->|Hin].
  - cbn [rtyped]. rewrite tags_app. cbn [tags]. rewrite tags_app. cbn [tags].
    assert (Hty : forall key v names, spells names (key, v) (str "type", v) ->
      names = declared api_decl t -> rname key = Some (str "type")).
    { intros key v names H ->. inversion H as [? ?|? ?|i ? ? Hi]; subst; [done|done|exfalso].
      apply nth_error_In in Hi. by apply no_field_type in Hi. }
    rewrite (Hty _ _ _ S1 eq_refl), (Hty _ _ _ S2 eq_refl), beq_refl.
    destruct (tags kvs1) as [|? [|? ?]], (tags kvs2); done.
  - destruct (lookup_variant t api_decl) as [names|] eqn:Hn; unfold declared in *; rewrite Hn in *; [|done].
    rewrite (rtyped_twice api_decl api_variants t names tv key1 v1 key2 v2 k kvs1 kvs2 kvs3); try done.
    apply api_strict.
Qed.
Print Assumptions C67_nothing_twice.

Theorem C67_nothing_extra_in_arrays :
  forall t s tv vs,
  decode_first s = Some (MArr (tv :: vs)) -> spells_kind (map fst api_decl) t tv ->
  length (declared api_decl t) < length vs ->
  is_ok (decode_api s) = false.
Proof.
  intros t s tv vs Hs Hk Hl. unfold decode_api. rewrite Hs. cbn [obind]. unfold rapi.
  cbn [rtyped]. rewrite (rvariant_spells _ _ _ Hk). cbn [obind]. unfold declared in Hl.
  destruct (lookup_variant t api_decl) as [names|]; [|done]. cbn [obind].
  by rewrite rpos_long.
Qed.
Print Assumptions C67_nothing_extra_in_arrays.

(** A request for a new seed, spelled in four ways: as lair writes it; with numbers, in
    another order, with an unknown field; as an array; as an array that leaves out the
    options at its end. And not understood: the tag twice. *)
Definition ex_new : api := ReqNewSeed (str "7") (str "alice") None false.
Definition ex_shuffled : mval :=
  MMap [(MStr (str "hint"), MArr [MNil]); (MUInt 1, MStr (str "alice"));
        (MStr (str "type"), MUInt 9); (MBin (str "msgId"), MStr (str "7"))].
Definition ex_array : mval :=
  MArr [MStr (str "reqNewSeed"); MStr (str "7"); MStr (str "alice"); MNil; MBool false].
Definition ex_short : mval := MArr [MUInt 9; MStr (str "7"); MStr (str "alice")].
Definition ex_double : mval :=
  MMap [(MStr (str "type"), MUInt 9); (MStr (str "msgId"), MStr (str "7"));
        (MStr (str "tag"), MStr (str "alice")); (MUInt 1, MStr (str "alice"))].

Example C67_ex :
  decode_api (enc ex_shuffled) = Ok ex_new /\ decode_api (enc ex_array) = Ok ex_new
  /\ decode_api (enc ex_short) = Ok ex_new /\ is_ok (decode_api (enc ex_double)) = false
  /\ is_ok (decode_api (enc (MArr [MUInt 9; MStr (str "7"); MStr (str "alice"); MNil; MBool false; MNil]))) = false.
Proof. repeat split; by vm_compute. Qed.

(** The hypotheses of the theorems, of these. *)
Example C67_ex_spelling :
  exists t l, wapi ex_new = wtyped t l /\ api_ok ex_new
  /\ decode_first (enc ex_shuffled) = Some ex_shuffled
  /\ spells_kind (map fst api_decl) t (MUInt 9)
  /\ holds_fields (declared api_decl t)
       [(MStr (str "hint"), MArr [MNil]); (MUInt 1, MStr (str "alice")); (MBin (str "msgId"), MStr (str "7"))] l.
Proof.
  exists (str "reqNewSeed"), [(str "msgId", MStr (str "7")); (str "tag", MStr (str "alice"))].
  split; [by vm_compute|]. split; [by vm_compute|]. split; [by vm_compute|].
  split; [by apply (kind_by_number _ _ 9)|].
  exists [(str "hint", MArr [MNil]); (str "tag", MStr (str "alice")); (str "msgId", MStr (str "7"))],
    [(str "hint", MArr [MNil])].
  split; [|split].
  - constructor; [constructor|]. constructor; [by apply (by_number _ 1)|]. constructor; [constructor|].
    constructor.
  - apply (Permutation_trans (l' := [(str "hint", MArr [MNil]); (str "msgId", MStr (str "7")); (str "tag", MStr (str "alice"))])).
    + constructor. apply perm_swap.
    + change (Permutation ([(str "hint", MArr [MNil])] ++ [(str "msgId", MStr (str "7")); (str "tag", MStr (str "alice"))])
        ([(str "msgId", MStr (str "7")); (str "tag", MStr (str "alice"))] ++ [(str "hint", MArr [MNil])])).
      apply Permutation_app_comm.
  - intros k v [[= <- <-]|[]]. rewrite <- elem_of_list_In.
    split; apply (bool_decide_unpack _); vm_compute; exact I.
Qed.
