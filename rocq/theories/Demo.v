(** * Demo: a small keystore to try the theorems on

    Concrete executions of the model over the toy cryptography, used by the
    examples beside the theorems. *)

From Verif Require Import Base Utf8 Crypto Toy Types Codec Secret Store StoreProofs Lru Server System
  ServerSpec ServerVocab.

Definition fill (n : nat) (b : byte) : bytes := repeat b n.

Definition demo_salt : bytes := fill 16 x05.
Definition demo_pass : bytes := fill 64 x70.
Definition demo_seed : bytes := fill 32 x21.
Definition demo_pre : bytes :=
  match argon2id toy demo_pass demo_salt 2 3 with Ok k => k | Err _ => [] end.

(** Its passphrase hash is [demo_pass]; the fallback signer is as given. *)
Definition demo_env (fallback : bool) : genv :=
  GEnv toy demo_salt 2 3
    (sec_encrypt toy (kdf toy 142 (str "IdnSecKy") demo_pre) (fill 24 x09) demo_seed)
    (box_pk toy demo_seed) (str "lair-keystore") (str "0.0.0") (fill 32 x33) fallback
    (fun gc => beq (gc_sni gc) (gc_priv gc)).

Definition demo_rx : bytes := fill 32 x41.
Definition demo_tx : bytes := fill 32 x42.
(** The key under which the demo client encrypts passphrases. *)
Definition demo_dec : bytes := kdf toy 142 (str "ToSrvCxK") demo_rx.

Definition demo_sec (pass : bytes) : secret := sec_encrypt toy demo_dec (fill 24 x08) pass.

(** Nothing goes wrong; the random bytes are all [b]. *)
Definition fine (b : byte) : oracle :=
  Oracle (fill 32 b) false (Some (GenCert (str "sni") (str "sni") (str "cert"))) (Ok (fill 64 x77)) true.

(** Request number [tid] on connection [cid], run to its end. *)
Definition ask (cid tid : nat) (m : api) (b : byte) : list event :=
  EvReceive cid (encode_api m) :: repeat (EvStep cid tid (fine b)) 15.

Definition demo_open (cid : nat) : list event :=
  EvConnect cid demo_rx demo_tx :: ask cid 0 (ReqUnlock (str "u") (demo_sec demo_pass)) x00.

(** The messages sent on a connection. *)
Definition replies (S : store_impl) (g : genv) (evs : list event) (cid : nat)
    : list (nat * api * bool) :=
  match s_conns S (run S g evs) !! cid with Some c => c_log S c | None => [] end.

(** A computable check on a connection (so that [vm_compute] need not normalise
    the types of the model). *)
Definition check (S : store_impl) (g : genv) (evs : list event) (cid : nat)
    (f : conn S -> bool) : bool :=
  match s_conns S (run S g evs) !! cid with Some c => f c | None => false end.

Lemma checked S g evs cid f :
  check S g evs cid f = true ->
  exists c, s_conns S (run S g evs) !! cid = Some c /\ f c = true.
Proof. unfold check. destruct (s_conns S (run S g evs) !! cid) as [c|]; [by exists c|done]. Qed.

#[global] Instance secret_eq_dec : EqDecision secret.
Proof. solve_decision. Defined.
#[global] Instance seed_info_eq_dec : EqDecision seed_info.
Proof. solve_decision. Defined.
#[global] Instance cert_info_eq_dec : EqDecision cert_info.
Proof. solve_decision. Defined.
#[global] Instance entry_info_eq_dec : EqDecision entry_info.
Proof. solve_decision. Defined.
#[global] Instance entry_eq_dec : EqDecision entry.
Proof. solve_decision. Defined.
#[global] Instance dlp_eq_dec : EqDecision dlp.
Proof. solve_decision. Defined.
#[global] Instance api_eq_dec : EqDecision api.
Proof. solve_decision. Defined.

(** Request [tid] of connection [cid] is [a]; it came unlocked, nothing failed, and the
    one message sent for it is [m]. *)
Definition check_answer (S : store_impl) (g : genv) (evs : list event) (cid tid : nat)
    (a m : api) (f : conn S -> request S -> bool) : bool :=
  check S g evs cid (fun c =>
    match c_reqs S c !! tid with
    | Some rq =>
        bool_decide (rq_msg S rq = a) && rq_unl S rq && negb (rq_fail S rq)
        && bool_decide (answers S c tid = [(m, true)]) && f c rq
    | None => false
    end).

Lemma answer_checked S g evs cid tid a m f :
  check_answer S g evs cid tid a m f = true ->
  exists c rq, conn_at S g evs cid c /\ received S c tid rq /\ rq_msg S rq = a
    /\ came_unlocked S rq /\ undisturbed S rq /\ answers S c tid = [(m, true)]
    /\ f c rq = true.
Proof.
  intros H. apply checked in H as (c & Hc & H). unfold received, came_unlocked, undisturbed.
  destruct (c_reqs S c !! tid) as [rq|] eqn:E; [|discriminate H]. exists c, rq.
  split; [exact Hc|]. split; [exact E|].
  apply andb_prop in H as [H H5]. apply andb_prop in H as [H H4]. apply andb_prop in H as [H H3].
  apply andb_prop in H as [H1 H2]. apply bool_decide_eq_true in H1, H4. apply negb_true_iff in H3.
  done.
Qed.
