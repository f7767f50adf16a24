(** * SigningVocab: the words in which C68 is stated *)

From Verif Require Import Base Crypto Types Codec Lru Store Server System ServerVocab Fallback PropertiesFallback Signing.

(** [j] is a state the keystore and its signer can be in, after [es]. *)
Definition reaches (S : store_impl) (g : genv) (es : list jevent) (j : joined S) : Prop := jrun S g (jnew S) es = Some j.

Section Vocab.
  Context {S : store_impl}.

  (** Connection [cid] of [j]; an entry the keystore of [j] holds. *)
  Definition conn_in (j : joined S) (cid : nat) (c : conn S) : Prop := s_conns S (j_srv S j) !! cid = Some c.
  Definition kept_in (j : joined S) (e : entry) : Prop := ServerVocab.holds S (sh_store S (s_sh S (j_srv S j))) e.

  (** The request [r] was written to program number [p], as call number [k]; line [n] of what the program
      printed is [l], and was read. *)
  Definition given (j : joined S) (k p : nat) (r : sign_req) : Prop :=
    put_to (j_fb S j) k p /\ exists c, f_calls (j_fb S j) !! k = Some c /\ fc_req c = r.
  Definition printed_in (j : joined S) (p n : nat) (l : line) : Prop := printed (j_fb S j) p n l.

  (** Request [tid] of connection [cid] of [j] asks for [r]: it came over a connection that is unlocked, for a key
      that was not held when it came (or whose lookup failed for an outside reason). *)
  Definition asked_by (j : joined S) (cid tid : nat) (r : sign_req) : Prop :=
    exists c rq d, conn_in j cid c /\ received S c tid rq /\ rq_msg S rq = ReqSign (s_id r) (s_pk r) d (s_data r)
      /\ c_unl S c = true /\ (~ undisturbed S rq \/ forall e, held_before S rq e -> ed_of e <> Some (s_pk r)).

  (** Request [tid] of connection [cid] is being handled. *)
  Definition in_hand (j : joined S) (cid tid : nat) : Prop := handler S (j_srv S j) cid tid <> None.
End Vocab.

(** What happens by itself: handlers go on, the tasks of the fallback signer go on. *)
Definition by_self (e : jevent) : Prop :=
  match e with
  | JSrv (EvStep _ _ _) | JAsk _ _ => True
  | JFb fe => by_itself fe
  | _ => False
  end.
Definition resting {S} (g : genv) (j : joined S) : Prop := forall e, by_self e -> jstep S g j e = None.
