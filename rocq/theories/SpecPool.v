(** What is said about worker processes. *)
From Verif Require Import PyBase World KeyStore.
Open Scope N_scope.

(** Certificates and keys that were read from PEM texts *)
Definition cert_read (w : world) (c : cert) : Prop := exists t, w_load_cert w t = Some c.
Definition key_read (w : world) (k : pubkey) : Prop := exists t, w_load_pubkey w t = Some k.

(** What is assumed of the cryptographic library besides [pem_ok]: the public key of a
    certificate can be written and read as any other. *)
Definition cert_keys_ok (w : world) : Prop := forall c, cert_read w c -> key_read w (w_cert_pubkey w c).

(** A key store as it is read from a file *)
Definition store_read (w : world) (ks : keystore) : Prop :=
  Forall (fun e => key_read w (kt_key (snd e)) /\ forall c, kt_cert (snd e) = Some c -> cert_read w c) ks.

(** No key, or one for AES-256 *)
Definition usable_key (key : option bytes) : Prop := forall k, key = Some k -> List.length k = 32%nat.
