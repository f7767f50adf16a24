(** * Tls: the certificates a keystore makes up

    [tls_cert_self_signed_new] [internal/tls.rs:65-137].  The crate [rcgen] is a parameter: what it is asked for
    is modelled, what it makes of it is not. *)

From Verif Require Import Base Crypto Types Server.

(** [nanoid!()]: 21 letters of this alphabet (crate [nanoid], [alphabet::SAFE]).
    Called at [internal/tls.rs:65-137]. *)
Definition letters : bytes := str "_-0123456789abcdefghijklmnopqrstuvwxyzABCDEFGHIJKLMNOPQRSTUVWXYZ".
(** Which texts [nanoid!()] makes [internal/tls.rs:65-137]. *)
Definition nanoid (n : bytes) : Prop := length n = 21 /\ Forall (fun b => b ∈ letters) n.

(** [67] *)
Definition sni_text (n1 n2 : bytes) : bytes := str "a" ++ n1 ++ str "a.a" ++ n2 ++ str "a".

(** [rcgen::Certificate::from_params] [104], [serialize_private_key_der] [107], and
    [serialize_der_with_signer] [113], by the subject names [69] and the common name [99-102]: the private key and the
    certificate, or an error. *)
Definition rcgen := list bytes -> bytes -> res (bytes * bytes).

(** [tls_cert_self_signed_new] [internal/tls.rs:65-137]. *)
Definition new_cert (gen : rcgen) (n1 n2 : bytes) : res gencert :=
  let sni := sni_text n1 n2 in
  match gen [sni] (str "Lair Pseudo-Self-Signed Cert " ++ sni) with
  | Ok (priv, cert) => Ok (GenCert sni priv cert)
  | Err e => Err e
  end.
