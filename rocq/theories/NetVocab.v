(** * NetVocab: the words in which properties of the whole system on byte streams are stated

    Definitions only. *)

From Verif Require Import Base Crypto Types Codec Secret Store Lru Server System ServerVocab Wire Handshake Client Asks
  WorldVocab Net.

(** As [typed] of [WorldVocab]. *)
Definition ntyped (e : nevent) : Prop :=
  match e with
  | NAsk _ d a => ask_ok a /\ draws_ok d
  | NClient _ (NewCall req) => api_ok req
  | _ => True
  end.

Section Vocab.
  Variable S : store_impl.
  Variable g : genv.
  Notation C := (g_crypto g).

  (** The connection [cid] after the events [evs]. *)
  Definition nlink_at (evs : list nevent) (cid : nat) (l : nlink g) : Prop :=
    n_links (nrun S g evs) !! cid = Some l.

  (** What happened to the server during the events [evs]. *)
  Definition nserver_evs (evs : list nevent) : list event := n_evs (nrun S g evs).

  (** The receiving end accepted something, in place [i], that the sending end did not write as the
      [i]-th of its ciphertexts. *)
  Definition misread (h : chan g) : Prop :=
    exists i c, ch_got h !! i = Some c /\ forall p, ch_out h !! i <> Some (p, c, true).

  (** This happened, on some connection, at some time: somebody forged a ciphertext. *)
  Definition forged (evs : list nevent) : Prop :=
    exists pre cid l, pre `prefix_of` evs /\ nlink_at pre cid l
      /\ (misread (x_up l) \/ misread (x_down l)).

  (** Call number [k] of the client at the end of [cid]. *)
  Definition ncall_at (evs : list nevent) (cid k : nat) (l : nlink g) (c : call) : Prop :=
    nlink_at evs cid l /\ k_calls (x_cli l) !! k = Some c.

  Definition nids_differ (evs : list nevent) : Prop :=
    forall cid l, nlink_at evs cid l -> NoDup (map (fun c => msg_id (c_req c)) (k_calls (x_cli l))).

  (** Call [k] is a call of the function [a] and has given back [v]. *)
  Definition ngives (evs : list nevent) (cid k : nat) (a : ask) (v : res value) : Prop :=
    exists l c d o, ncall_at evs cid k l c /\ draws_ok d /\ c_req c = request_of C (x_enc l) d a
      /\ c_st c = CEnd o /\ give_back C (x_dec l) a (c_req c) o = Some v.

  (** The server, in the course of [evs], received [rq] as number [tid] over [cid] and, at some
      time, the connection was [c]. *)
  Definition nhandled (evs : list nevent) (cid : nat) (c : conn S) (tid : nat) (rq : request S) : Prop :=
    exists pre, pre `prefix_of` nserver_evs evs /\ conn_at S g pre cid c /\ received S c tid rq.

  (** As in [WorldVocab]. *)
  Definition nnot_made (evs : list nevent) (cid k : nat) : Prop := forall l c, ~ ncall_at evs cid k l c.
  Definition nreplied (evs : list nevent) (cid k : nat) : Prop :=
    exists l c n m, ncall_at evs cid k l c /\ c_st c = CEnd (Answer n m).
  Definition nsmooth (evs : list nevent) (cid k : nat) : Prop :=
    forall l cl c tid rq, ncall_at evs cid k l cl -> nhandled evs cid c tid rq ->
      rq_msg S rq = c_req cl -> undisturbed S rq.
  Definition nwell (evs : list nevent) (cid k : nat) (a : ask) (v : res value) : Prop :=
    ngives evs cid k a v /\ nreplied evs cid k /\ nsmooth evs cid k.
  Definition nunlocked (evs : list nevent) (cid : nat) : Prop :=
    exists k pass, ngives evs cid k (AUnlock pass) (Ok VUnit).
  Definition nkeeps (SO : StoreOk S) (evs : list nevent) : Prop :=
    st_persist S SO = true \/ forall j, NServer EvRestart j ∉ evs.

  (** A direction of a connection that carries what is written and in which every message fits a
      frame: what arrived is the beginning of what was written. *)
  Definition honest (h : chan g) : Prop :=
    ch_fed h `prefix_of` t_wire (ch_snd h)
    /\ forall x, x ∈ ch_out h -> (N.of_nat (length x.1.2) <= MAX_FRAME)%N.

  (** All connections are like this, at all times. *)
  Definition faithful (evs : list nevent) : Prop :=
    forall pre cid l, pre `prefix_of` evs -> nlink_at pre cid l -> honest (x_up l) /\ honest (x_down l).

  (** All that was written has arrived. *)
  Definition all_here (h : chan g) : Prop := ch_fed h = t_wire (ch_snd h).
End Vocab.
