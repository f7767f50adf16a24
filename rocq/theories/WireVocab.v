(** * WireVocab: the words in which the properties of connections are stated *)

From Verif Require Import Base Crypto Types Codec System Wire Sender.

(** The messages whose sending succeeded. *)
Fixpoint succeeded (l : list (api * transport)) (rs : list (res unit)) : list api :=
  match l, rs with
  | (a, _) :: l, Ok _ :: rs => a :: succeeded l rs
  | _ :: l, Err _ :: rs => succeeded l rs
  | _, _ => []
  end.

(** The texts that are encrypted when these messages are sent. *)
Definition texts (l : list (api * transport)) : list bytes := map (fun x => encode_api x.1) l.

(** A message of the right types that fits a frame. *)
Definition fine_message (a : api) : Prop := api_ok a /\ fits a = true.

Section Vocab.
  Variable C : Crypto.

  (** The state of the encrypted stream after some messages. *)
  Definition after (st : ss_state C) (ms : list bytes) : ss_state C :=
    fold_left (fun s m => snd (ss_push C s TagMessage m)) ms st.

  (** Of the ciphertexts of these messages, one opens at a place before its own.  (The
      ciphertexts are those of this very run.  For the real cipher this is an accident of
      probability [2^-128].) *)
  Definition misplaced (st : ss_state C) (ms : list bytes) : Prop :=
    exists before between m later, ms = before ++ between ++ m :: later /\ between <> []
      /\ ss_pull C (after st before)
           (fst (ss_push C (after st (before ++ between)) TagMessage m)) <> None.

  (** The call has the sender in its hands. *)
  Definition holds_sender (p : phase C) : bool :=
    match p with PTaken _ _ | PWrite _ _ _ => true | _ => false end.

  Definition holding (s : sender C) (tid : nat) : Prop :=
    exists p, n_tasks s !! tid = Some p /\ holds_sender p = true.

  (** No call is abandoned while it has the sender. *)
  Definition no_holder_dropped (enc : ss_state C) (evs : list sevent) : Prop :=
    forall evs1 tid evs2, evs = evs1 ++ SvDrop tid :: evs2 -> ~ holding (srun C enc evs1) tid.

  (** Every message that is sent fits a frame. *)
  Definition all_fit (evs : list sevent) : Prop :=
    forall tid a, SvCall tid (JSend a) ∈ evs -> fine_message a.
End Vocab.
