(** Flaws of the certificates of a test with one signature device. *)
From Verif Require Import PyBase World Codec Receipt Pem KeyStore VerifyReceipt State DepExport
  SpecReceipt SpecDep SpecCluster SpecKeys SpecPool CashReg RunTest TestVerify TestSetup SpecSetup.
Open Scope N_scope.

Inductive flaw : Type :=
| F_untrusted          (* no certificate of the chain is in the key store *)
| F_broken (f : nat)   (* certificate [f] is not signed by the next one *)
| F_collision.         (* the key store has another certificate with the serial number *)

(** The number of certificates between that of the device and the root *)
Definition chain_length (sp : tspec) (closed : bool) (n : nat) : Prop :=
  if closed then n = 0%nat else exists z, element_at (ts_length sp) 0%Z 0 z /\ n = Z.to_nat z.

Definition has_flaw (sp : tspec) (n : nat) (fl : flaw) : Prop :=
  match fl with
  | F_untrusted =>
      element_at (ts_noroot sp) false 0 true
      /\ (n = 0%nat \/ exists f, element_at (ts_failure sp) 0%Z 0 f /\ (f < 1 \/ Z.of_nat n < f)%Z)
  | F_broken f =>
      element_at (ts_failure sp) 0%Z 0 (Z.of_nat f) /\ (1 <= f <= n)%nat
      /\ exists omitted, element_at (ts_noroot sp) false 0 omitted /\ (omitted = true \/ element_at (ts_collision sp) false 0 false)
  | F_collision =>
      element_at (ts_noroot sp) false 0 false /\ element_at (ts_collision sp) false 0 true
      /\ (n = 0%nat \/ exists f, element_at (ts_failure sp) 0%Z 0 f)
  end.

(** The serial number of certificate [k], counted from that of the device on *)
Definition link_serial (w : world) (m : maker) (closed : bool) (mat : str * str) (n k : nat) (z : Z) : Prop :=
  if closed then z = mk_serial m 0 P_self
  else if (k <? n)%nat then z = mk_serial m 0 (P_chain (S k))
  else exists c, loadCert w (fst mat) = Ok c /\ z = Z.abs (w_serial w c).

(** The exception that is due *)
Definition reported (w : world) (m : maker) (closed : bool) (mat : str * str) (n : nat) (fl : flaw) (e : exn) : Prop :=
  match fl with
  | F_untrusted => exists z, link_serial w m closed mat n 0 z /\ e = UntrustedCertificate (fmt_x z)
  | F_broken f => exists z z', link_serial w m closed mat n (f - 1) z /\ link_serial w m closed mat n f z'
                    /\ e = CertificateChainBroken (fmt_x z) (fmt_x z')
  | F_collision => exists z p p', link_serial w m closed mat n 0 z /\ p <> p' /\ e = CertSerialCollision (fmt_x z) p p'
  end.

(** ** What is assumed *)

(** Different keys are different. *)
Definition used_purpose (n : nat) (u : purpose) : Prop :=
  match u with P_self => False | P_chain j => (1 <= j <= n)%nat | P_fake => True end.
Definition material_key (w : world) (closed : bool) (mat : str * str) (p : pubkey) : Prop :=
  if closed then loadPubKey w (fst mat) = Ok p else exists c, loadCert w (fst mat) = Ok c /\ p = w_cert_pubkey w c.
Definition keys_apart (w : world) (m : maker) (closed : bool) (mat : str * str) (n : nat) : Prop :=
  (forall u u', used_purpose n u -> used_purpose n u' -> snd (mk_pair m 0 u) = snd (mk_pair m 0 u') -> u = u')
  /\ (forall p u, material_key w closed mat p -> used_purpose n u -> p <> snd (mk_pair m 0 u)).

(** Certificates at hand that have different keys have different fingerprints. *)
Definition at_hand (w : world) (m : maker) (mat : str * str) (c : cert) : Prop :=
  cert_read w c /\ (loadCert w (fst mat) = Ok c \/ exists u p name z s o, mk_cert m 0 u p name 365 z s o = Ok c).
Definition fingerprints_apart (w : world) (m : maker) (mat : str * str) : Prop :=
  forall c c', at_hand w m mat c -> at_hand w m mat c' -> same_fingerprint w c c' -> w_cert_pubkey w c = w_cert_pubkey w c'.

(** Everything but the flaw is in order. *)
Definition flawed_setup (w : world) (own : privkey -> pubkey -> Prop) (m : maker) (sp : tspec) (closed : bool) (mat : str * str) (n : nat) (fl : flaw) : Prop :=
  material_ok w own m closed mat
  /\ ts_number sp = 1%Z /\ ts_multi sp = true /\ element_at (ts_nosign sp) false 0 false
  /\ chain_length sp closed n /\ has_flaw sp n fl
  /\ serials_apart w m sp closed [mat]
  /\ (closed = true -> company_ok w (ts_company sp))
  /\ keys_apart w m closed mat n
  /\ (fl = F_collision -> fingerprints_apart w m mat
        /\ forall c, closed = false -> loadCert w (fst mat) = Ok c -> (0 < w_serial w c)%Z).
