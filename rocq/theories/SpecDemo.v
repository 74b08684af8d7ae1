(** The demo program: its surroundings. *)
From Coq Require Import Floats.SpecFloat.
From Verif Require Import PyBase World Codec PyFloat PyTime Algo Receipt SpecReceipt Json Pem KeyStore State SpecDep SpecCashReg CashReg Demo.
Open Scope N_scope.

(** The value is at most 1000 in magnitude. *)
Definition in_range (x : float) : Prop :=
  match x with
  | S754_zero _ => True
  | S754_finite _ m e => (Zpos m * 2 ^ Z.max e 0 <= 1000 * 2 ^ Z.max (- e) 0)%Z
  | _ => False
  end.
Definition draw_ok (d : draw) : Prop :=
  valid_dt (d_time d) /\ 1000 <= dt_year (d_time d) /\ Forall in_range [d_a d; d_b d; d_c d; d_d d; d_e d].

(** The clock does not go backwards. *)
Definition steady (draws : nat -> draw) : Prop := forall i, not_before (d_time (draws (S i))) (d_time (draws i)).

(** The key store has the public key that belongs to the private key, under the
    certificate's serial number or the given key ID. *)
Definition demo_key_stored (w : world) (ks : keystore) (m : demo_mode) : Prop :=
  match m with
  | DemoOpen priv certText =>
      exists c pub, loadCert w certText = Ok c /\ key_pair w priv pub /\ has_key ks (fmt_x (Z.abs (w_serial w c))) pub
  | DemoClosed priv keyId =>
      key_id_text w keyId /\ ~ In c_us keyId /\ encodes keyId /\ exists pub, key_pair w priv pub /\ has_key ks keyId pub
  end.

(** The AES key file *)
Definition demo_aes_key (text : str) (k : bytes) : Prop := exists b, utf8_encode text = Ok b /\ b64decode b = Ok k /\ List.length k = 32%nat.

(** Five digits or more *)
Definition numbered_id (i : nat) (id : str) : Prop :=
  exists d z, id = repeat 48 z ++ d /\ d = fmt_d (Z.of_nat i) /\ (z = 0 \/ List.length id = 5)%nat /\ (5 <= List.length id)%nat.
