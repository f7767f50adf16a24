(** * FreshVocab: the words in which the use of random values is stated *)

From Verif Require Import Base Utf8 Crypto Types Codec Secret Store Lru Server System
  ServerSpec ServerVocab WriteProofs.
From Coq Require Import Sorted.

(** Who may ask the operating system for random bytes on behalf of the store: the
    handling of request [tid] of connection [cid], after [life] restarts, or the code that
    uses the store directly, in event number [i]. *)
Inductive writer := ByRequest (life cid tid : nat) | ByOwner (i : nat).

Definition restarts (evs : list event) : nat := length (List.filter is_restart evs).

(** The random bytes offered to [w] at the place [k]: for a request [k] is the number of
    the event, for the owner the number of the step within the call. *)
Definition given (evs : list event) (w : writer) (k : nat) : option bytes :=
  match w with
  | ByRequest l cid tid =>
      match evs !! k with
      | Some (EvStep c t o) =>
          if Nat.eqb c cid && Nat.eqb t tid && Nat.eqb (restarts (take k evs)) l
          then Some (o_rand o) else None
      | _ => None
      end
  | ByOwner i =>
      match evs !! i with
      | Some (EvDirect _ os) => option_map o_rand (os !! k)
      | _ => None
      end
  end.

(** The place as a place in the whole execution. *)
Definition source (w : writer) (k : nat) : nat * nat :=
  match w with ByRequest _ _ _ => (k, 0) | ByOwner i => (i, k) end.

(** The values [vs] are what [w] was given, at places that all differ, in this order. *)
Definition drew (evs : list event) (w : writer) (vs : list bytes) : Prop :=
  exists ks, StronglySorted lt ks
    /\ Forall2 (fun k b => exists r, given evs w k = Some r /\ b = fit (length b) r) ks vs.

(** The secret part of an entry, and the salt of a deep-locked one. *)
Definition secret_of (e : entry) : secret :=
  match e with ESeed _ _ s | EDeep _ _ _ _ _ s | ECert _ _ s => s end.
Definition salts_of (e : entry) : list bytes :=
  match e with EDeep _ _ salt _ _ _ => [salt] | _ => [] end.

(** The public values of an entry that must never repeat. *)
Definition once_of (e : entry) : list bytes := salts_of e ++ [s_header (secret_of e)].

Definition sizes (e : entry) : Prop :=
  Forall (fun s => length s = 16) (salts_of e) /\ length (s_header (secret_of e)) = 24.

(** The seed an entry holds, deep locked or not. *)
Definition seed_in (g : genv) (e : entry) (seed : bytes) : Prop :=
  plain_seed g e seed \/ exists pass, locked_seed g e pass seed.

(** The secret of an entry is there only as a ciphertext: under the key of the store, or under
    the key that the deep-lock passphrase gives.  All else in the entry is public. *)
Definition sealed (g : genv) (e : entry) : Prop :=
  let C := g_crypto g in
  match e with
  | ESeed _ si s =>
      exists seed, si_ed si = sign_pk C seed /\ si_x si = box_pk C seed
        /\ s = sec_encrypt C (g_bidi g) (s_header s) seed
  | EDeep _ si salt ops mem s =>
      exists seed pass key, si_ed si = sign_pk C seed /\ si_x si = box_pk C seed
        /\ argon2id C pass salt ops mem = Ok key
        /\ s = sec_encrypt C key (s_header s) seed
  | ECert _ ci s =>
      exists gc, ci = cert_of g gc /\ s = sec_encrypt C (g_bidi g) (s_header s) (gc_priv gc)
  end.

(** The entry [e] is made of the values [vs]; [new] if its seed is one of them. *)
Definition made_of (g : genv) (new : bool) (e : entry) (vs : list bytes) : Prop :=
  sizes e /\ sealed g e /\
  if new then exists seed, length seed = 32 /\ seed_in g e seed /\ vs = seed :: once_of e
  else vs = once_of e.

(** The request, or the call, is for a new random seed. *)
Definition for_new_seed (m : api) : bool := match m with ReqNewSeed _ _ _ _ => true | _ => false end.
Definition call_new_seed (d : direct) : bool :=
  match d with DNewSeed _ _ | DNewDeep _ _ _ _ _ => true | _ => false end.

Section Made.
  Variable S : store_impl.
  Variable g : genv.

  (** The request a writer stands for. *)
  Definition asked_by (evs : list event) (l cid tid : nat) (m : api) : Prop :=
    exists pre post c rq, evs = pre ++ post /\ restarts pre = l
      /\ conn_at S g pre cid c /\ received S c tid rq /\ rq_msg S rq = m.

  (** [w] made the entry [e] of random values it was given. *)
  Definition made (evs : list event) (w : writer) (e : entry) : Prop :=
    match w with
    | ByRequest l cid tid =>
        exists m vs, asked_by evs l cid tid m /\ new_tag m = Some (tag_of e)
          /\ made_of g (for_new_seed m) e vs /\ drew evs w vs
    | ByOwner i =>
        exists d os vs, evs !! i = Some (EvDirect d os)
          /\ made_of g (call_new_seed d) e vs /\ drew evs w vs
    end.
End Made.
