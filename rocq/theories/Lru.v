(** * Lru: the bounded caches of the server

    [lru] 0.12.5, [LruCache::get] and [LruCache::put], as used in
    [crates/lair_keystore_api/src/lair_server/priv_srv.rs:25-28,126-134] and
    [priv_api.rs:885-895,910,935,960].  A cache is the list of its bindings,
    most recently used first. *)

From Verif Require Import Base.

Section Lru.
  Context {V : Type}.
  Notation cache := (list (bytes * V)).

  (** Crate [lru], called at [priv_api.rs:885-895,910,935,960]. *)
  Fixpoint lru_find (k : bytes) (l : cache) : option V :=
    match l with
    | [] => None
    | (k', v) :: l => if beq k' k then Some v else lru_find k l
    end.

  (** Crate [lru], called at [priv_api.rs:885-895,910,935,960]. *)
  Fixpoint lru_remove (k : bytes) (l : cache) : cache :=
    match l with
    | [] => []
    | (k', v) :: l => if beq k' k then l else (k', v) :: lru_remove k l
    end.

  (** [LruCache::get]: the binding found becomes the most recent one.
      Crate [lru], called at [priv_api.rs:885-895,910,935,960]. *)
  Definition lru_get (k : bytes) (l : cache) : option V * cache :=
    match lru_find k l with
    | Some v => (Some v, (k, v) :: lru_remove k l)
    | None => (None, l)
    end.

  (** [LruCache::put]: replace an existing binding, or add one and, when the
      cache is full, drop the least recently used. Crate [lru], called at [priv_api.rs:885-895,910,935,960]. *)
  Definition lru_put (cap : nat) (k : bytes) (v : V) (l : cache) : cache :=
    match lru_find k l with
    | Some _ => (k, v) :: lru_remove k l
    | None => (k, v) :: (if Nat.leb cap (length l) then removelast l else l)
    end.

  (** [lru::LruCache::new(128)]. [priv_srv.rs:126-134]. *)
  Definition LRU_CAP : nat := 128.

  Lemma lru_find_In k v l : lru_find k l = Some v -> (k, v) ∈ l.
  Proof.
    induction l as [|[k' v'] l IH]; [done|]. cbn. destruct (beq k' k) eqn:E.
    - intros [= ->]. apply beq_true in E as ->. by left.
    - intros H. right. auto.
  Qed.

  Lemma lru_remove_sub k l x : x ∈ lru_remove k l -> x ∈ l.
  Proof.
    induction l as [|[k' v'] l IH]; [done|]. cbn. destruct (beq k' k).
    - intros. by right.
    - intros [->|H]%elem_of_cons; [by left|right; auto].
  Qed.

  Lemma removelast_sub {A} (l : list A) x : x ∈ removelast l -> x ∈ l.
  Proof.
    induction l as [|a l IH]; [done|]. cbn [removelast]. destruct l as [|b l].
    - intros H. by apply elem_of_nil in H.
    - intros [->|H]%elem_of_cons; [by left|right; auto].
  Qed.

  Lemma lru_get_sub k l x : x ∈ snd (lru_get k l) -> x ∈ l.
  Proof.
    unfold lru_get. destruct (lru_find k l) as [v|] eqn:E; cbn [snd]; [|done].
    intros [->|H]%elem_of_cons; [by apply lru_find_In|by eapply lru_remove_sub].
  Qed.

  Lemma lru_put_sub cap k v l x : x ∈ lru_put cap k v l -> x = (k, v) \/ x ∈ l.
  Proof.
    unfold lru_put. destruct (lru_find k l) as [v'|] eqn:E.
    - intros [->|H]%elem_of_cons; [by left|]. right. by eapply lru_remove_sub.
    - intros [->|H]%elem_of_cons; [by left|]. right.
      destruct (Nat.leb cap (length l)); [by apply removelast_sub|done].
  Qed.

  Lemma lru_remove_length k l v : lru_find k l = Some v ->
    S (length (lru_remove k l)) = length l.
  Proof.
    induction l as [|[k' v'] l IH]; [done|]. cbn. destruct (beq k' k); [done|].
    intros H. cbn. by rewrite IH.
  Qed.

  Lemma lru_get_length k l : length (snd (lru_get k l)) = length l.
  Proof.
    unfold lru_get. destruct (lru_find k l) as [v|] eqn:E; cbn [snd]; [|done].
    cbn. by eapply lru_remove_length.
  Qed.

  Lemma removelast_length {A} (l : list A) : length (removelast l) = length l - 1.
  Proof.
    induction l as [|a l IH]; [done|]. cbn [removelast]. destruct l as [|b l]; [done|].
    cbn [length] in *. rewrite IH. lia.
  Qed.

  Lemma lru_put_length cap k v l : 1 <= cap -> length l <= cap ->
    length (lru_put cap k v l) <= cap.
  Proof.
    intros Hc Hl. unfold lru_put. destruct (lru_find k l) as [v'|] eqn:E; cbn [length].
    - apply lru_remove_length in E. lia.
    - destruct (Nat.leb_spec cap (length l)); [rewrite removelast_length; lia|lia].
  Qed.
End Lru.
