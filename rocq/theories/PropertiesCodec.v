(** * PropertiesCodec: what is written is read back (C38, C39, C40) *)

From Verif Require Import Base Utf8 Base64 Base64Proofs Msgpack MsgpackProofs Types Codec
  CodecProofs CodecProofs2.

(** ** C38: stored entries decode to what was encoded *)

(** [entry_ok] is what the Rust types say of an entry: texts are UTF-8, keys have
    their sizes, numbers are 32 bits. *)
Theorem C38_entry_round_trip :
  forall e, entry_ok e -> decode_entry (encode_entry e) = Ok e.
Proof. intros e H. rewrite <- (app_nil_r (encode_entry e)). by apply decode_encode_entry. Qed.
Print Assumptions C38_entry_round_trip.

(** Different entries never have the same bytes, nor bytes that extend each other. *)
Theorem C38_entries_apart :
  forall e1 e2 r, entry_ok e1 -> entry_ok e2 -> encode_entry e1 = encode_entry e2 ++ r -> e1 = e2.
Proof.
  intros e1 e2 r H1 H2 E. pose proof (C38_entry_round_trip e1 H1) as R1.
  rewrite E, (decode_encode_entry e2 r H2) in R1. by injection R1 as ->.
Qed.
Print Assumptions C38_entries_apart.

(** Any bytes at all: an error, or an entry that obeys the types. *)
Theorem C38_any_bytes :
  forall s, (exists er, decode_entry s = Err er) \/ exists e, decode_entry s = Ok e /\ entry_ok e.
Proof.
  intros s. destruct (decode_entry s) as [e|er] eqn:E; [|by left; exists er].
  right. exists e. split; [done|]. by apply (decode_entry_ok s).
Qed.
Print Assumptions C38_any_bytes.

Definition ex_deep_entry : entry :=
  EDeep (str "my tag") (SeedInfo (repeat x01 32) (repeat x02 32) false) (repeat x03 16) 4 300000
    (Sec (repeat x05 24) (repeat x06 49)).
Example C38_ex :
  entry_ok ex_deep_entry /\ decode_entry (encode_entry ex_deep_entry) = Ok ex_deep_entry
  /\ length (encode_entry ex_deep_entry) = 322
  /\ is_ok (decode_entry (removelast (encode_entry ex_deep_entry))) = false.
Proof. split; [by vm_compute|]. split; [by vm_compute|]. split; by vm_compute. Qed.

(** ** C39: API messages decode to what was sent *)

Theorem C39_message_round_trip :
  forall a, api_ok a -> decode_api (encode_api a) = Ok a.
Proof. intros a H. rewrite <- (app_nil_r (encode_api a)). by apply decode_encode_api. Qed.
Print Assumptions C39_message_round_trip.

Theorem C39_messages_apart :
  forall a1 a2 r, api_ok a1 -> api_ok a2 -> encode_api a1 = encode_api a2 ++ r -> a1 = a2.
Proof.
  intros a1 a2 r H1 H2 E. pose proof (C39_message_round_trip a1 H1) as R1.
  rewrite E, (decode_encode_api a2 r H2) in R1. by injection R1 as ->.
Qed.
Print Assumptions C39_messages_apart.

Theorem C39_any_bytes :
  forall s, (exists er, decode_api s = Err er) \/ exists a, decode_api s = Ok a /\ api_ok a.
Proof.
  intros s. destruct (decode_api s) as [a|er] eqn:E; [|by left; exists er].
  right. exists a. split; [done|]. by apply (decode_api_ok s).
Qed.
Print Assumptions C39_any_bytes.

(** With and without the optional field; with a zero byte and a non-ASCII letter. *)
Definition ex_request (d : option dlp) : api :=
  ReqImportSeed (str "id") (repeat x01 32) (repeat x02 32) d (repeat x03 24) (repeat xff 48)
    (str "t" ++ [x00; xc3; xa9]) false.
Definition ex_dlp : dlp := Dlp 1 70000 (Sec (repeat x01 24) (repeat x02 81)).
Example C39_ex :
  api_ok (ex_request None) /\ api_ok (ex_request (Some ex_dlp))
  /\ decode_api (encode_api (ex_request (Some ex_dlp))) = Ok (ex_request (Some ex_dlp))
  /\ decode_api (encode_api (ex_request None)) = Ok (ex_request None).
Proof. split; [by vm_compute|]. split; [by vm_compute|]. split; by vm_compute. Qed.

(** ** C40: binary data survives its text form *)

Theorem C40_text_round_trip : forall b, from_b64url (to_b64url b) = Ok b.
Proof. apply from_to_b64url. Qed.
Print Assumptions C40_text_round_trip.

(** Two values never share a text, and a value has only one text. *)
Theorem C40_texts_apart : forall a b, to_b64url a = to_b64url b -> a = b.
Proof. apply to_b64url_inj. Qed.
Print Assumptions C40_texts_apart.

Theorem C40_one_text : forall s1 s2 b, from_b64url s1 = Ok b -> from_b64url s2 = Ok b -> s1 = s2.
Proof. intros s1 s2 b H1 H2. apply to_from_b64url in H1, H2. congruence. Qed.
Print Assumptions C40_one_text.

(** Sized values are read back and refuse any other length. *)
Theorem C40_sized :
  forall n b, (length b = n -> sized_from_str n (to_b64url b) = Ok b)
    /\ (length b <> n -> is_ok (sized_from_str n (to_b64url b)) = false)
    /\ forall s, sized_from_str n s = Ok b -> length b = n.
Proof.
  intros n b. unfold sized_from_str. rewrite from_to_b64url. cbn [rbind]. split; [|split].
  - intros H. by rewrite (proj2 (Nat.eqb_eq _ _) H).
  - intros H. by rewrite (proj2 (Nat.eqb_neq _ _) H).
  - intros s H. destruct (from_b64url s) as [b'|]; [|done]. cbn [rbind] in H.
    destruct (Nat.eqb_spec (length b') n); [|done]. by injection H as <-.
Qed.
Print Assumptions C40_sized.

(** The text consists of letters, digits, '-' and '_' only, so it can stand in a URL,
    a YAML plain scalar and a JSON string as it is. *)
Definition url_char (b : byte) : Prop :=
  (48 <= nb b <= 57 \/ 65 <= nb b <= 90 \/ 97 <= nb b <= 122 \/ nb b = 45 \/ nb b = 95)%N.

Lemma sym_url n : (n < 64)%N -> url_char (sym UrlSafe n).
Proof.
  intros H. unfold url_char. pose proof (unsym_sym UrlSafe n H) as U. unfold unsym in U.
  destruct (N.leb_spec 65 (nb (sym UrlSafe n))), (N.leb_spec (nb (sym UrlSafe n)) 90); cbn [andb] in U; [lia|..];
  (destruct (N.leb_spec 97 (nb (sym UrlSafe n))), (N.leb_spec (nb (sym UrlSafe n)) 122); cbn [andb] in U; [lia|..]);
  (destruct (N.leb_spec 48 (nb (sym UrlSafe n))), (N.leb_spec (nb (sym UrlSafe n)) 57); cbn [andb] in U; [lia|..]);
  (destruct (N.eqb_spec (nb (sym UrlSafe n)) 45); [lia|]);
  (destruct (N.eqb_spec (nb (sym UrlSafe n)) 95); [lia|]); done.
Qed.

Theorem C40_plain_characters : forall b, Forall url_char (to_b64url b).
Proof.
  intros b. unfold to_b64url. induction b as [|a|a b|a b c l IH] using list_ind3; cbn [encode_np].
  - constructor.
  - pose proof (nb_lt a). repeat (apply Forall_cons; split; [apply sym_url; lia|]); done.
  - pose proof (nb_lt a). pose proof (nb_lt b). repeat (apply Forall_cons; split; [apply sym_url; lia|]); done.
  - pose proof (nb_lt a). pose proof (nb_lt b). pose proof (nb_lt c).
    repeat (apply Forall_cons; split; [apply sym_url; lia|]); done.
Qed.
Print Assumptions C40_plain_characters.

(** The fallback signer is spoken to in standard base64, which round-trips too. *)
Theorem C40_standard_round_trip : forall b, from_b64std (to_b64std b) = Ok b.
Proof. apply from_to_b64std. Qed.
Print Assumptions C40_standard_round_trip.

Example C40_ex :
  to_b64url [xff; xfe; x00; x01] = str "__4AAQ" /\ from_b64url (str "__4AAQ") = Ok [xff; xfe; x00; x01]
  /\ is_ok (from_b64url (str "__4AAR")) = false /\ is_ok (from_b64url (str "__4AAQ==")) = false
  /\ is_ok (sized_from_str 3 (str "__4AAQ")) = false /\ is_ok (sized_from_str 4 (str "__4AAQ")) = true.
Proof. repeat split; by vm_compute. Qed.
