(** What it means that a cash register is used according to the rules: conditions
    on the requests it is given. *)
From Coq Require Import Floats.SpecFloat.
From Verif Require Import PyBase World Codec PyFloat PyTime Algo Receipt Pem DepExport KeyStore VerifyReceipt State
  SpecReceipt SpecDep SpecCluster SpecAmount CashReg.
Open Scope N_scope.

(** The private key belongs to the public key. Signatures have 64 bytes. *)
Definition key_pair (w : world) (priv : privkey) (pub : pubkey) : Prop :=
  forall m, w_es256_verify w pub m (w_es256_sign w priv m) = true
    /\ List.length (w_es256_sign w priv m) = 64%nat /\ is_bytes (w_es256_sign w priv m).

Definition encodes (s : str) : Prop := exists b, utf8_encode s = Ok b.

(** An identifier that can be printed on receipts *)
Definition identifier (s : str) : Prop := s <> [] /\ ~ In c_us s /\ encodes s.

(** The floating point number nearest to an amount of [z] cents; at most 10^14
    cents. There are two zeros. *)
Definition money (x : float) (z : Z) : Prop :=
  moderate z /\ exists neg, x = float_of_cents neg (Z.abs_N z) /\ (neg = true -> z <= 0)%Z /\ (neg = false -> 0 <= z)%Z.
Definition request_total (q : request) (z : Z) : Prop :=
  exists zs, Forall2 money [q_a q; q_b q; q_c q; q_d q; q_e q] zs /\ z = total zs.
Definition zero_request (q : request) : Prop := Forall is_zero [q_a q; q_b q; q_c q; q_d q; q_e q].

(** Types of requests: training takes precedence. *)
Definition standard_request (q : request) : Prop := q_dummy q = false /\ q_reversal q = false.
Definition works (q : request) : Prop := exists z n p, q_sys q = SignatureSystemWorking z n p.
Definition request_closed (q : request) : Prop := sys_zda (q_sys q) = lit "AT0".

(** A request for a start receipt or for a receipt after an outage *)
Definition plain_zero_request (q : request) : Prop := works q /\ zero_request q /\ standard_request q.

(** The signature device is one the verifier of the group knows: it has the serial
    number of the group's certificate or is in the key store, and works, if it
    does, with the private key that belongs to the public key. *)
Definition device_known (w : world) (v : verifier) (s : sigsys) : Prop :=
  let zda := sys_zda s in let serial := sys_serial s in
  (forall c, v_cert v = Some c -> zda = lit "AT0" \/ names_serial w serial c)
  /\ forall z n priv, s = SignatureSystemWorking z n priv ->
      exists k, key_pair w priv k
        /\ match v_cert v with
           | Some c => k = w_cert_pubkey w c
           | None =>
               exists ks, v_store v = Some ks /\
               ((zda = lit "AT0" /\ has_key ks serial k)
                \/ (zda <> lit "AT0" /\
                    ((exists i, serial_id w 16 serial i /\ has_key ks i k)
                     \/ ((forall i, serial_id w 16 serial i -> getKey ks i = None)
                         /\ exists i, serial_id w 10 serial i /\ has_key ks i k))))
           end.

Definition device_ok (w : world) (s : sigsys) : Prop :=
  zda_text w (sys_zda s) /\ encodes (sys_zda s)
  /\ ((sys_zda s = lit "AT0" /\ key_id_text w (sys_serial s)) \/
      (sys_zda s <> lit "AT0" /\ cert_serial_text w (sys_serial s)))
  /\ ~ In c_us (sys_serial s) /\ encodes (sys_serial s).

Definition request_ok (w : world) (v : verifier) (q : request) : Prop :=
  identifier (q_id q)
  /\ valid_dt (q_time q) /\ 1000 <= dt_year (q_time q)
  /\ (exists z, request_total q z)
  /\ device_ok w (q_sys q) /\ device_known w v (q_sys q).

(** The turnover of a sequence of requests *)
Definition requests_turnover (l : list request) (z : Z) : Prop :=
  exists cs, Forall2 (fun q c => (q_dummy q = true /\ c = 0%Z) \/ (q_dummy q = false /\ request_total q c)) l cs
    /\ z = total cs.

(** The counter counter_fits into the given number of bytes. *)
Definition counter_fits (size : nat) (z : Z) : Prop :=
  (- 2 ^ (8 * Z.of_nat size - 1) <= z < 2 ^ (8 * Z.of_nat size - 1))%Z.

(** The IDs are new for the given way of recording them. *)
Definition ids_new (w : world) (b : backend) (l : list str) : Prop :=
  match b with B_unique => NoDup l | B_natural => increasing w l end.

(** The rules for a register's first receipts, with the verifiers in charge *)
Definition orderly (w : world) (size : nat) (b : backend) (l : list (request * verifier)) : Prop :=
  let qs := map fst l in
  Forall (fun qv => request_ok w (snd qv) (fst qv)) l
  /\ (forall q r, qs = q :: r -> plain_zero_request q)
  /\ (forall l1 p q l2, qs = l1 ++ p :: q :: l2 ->
        (request_closed q <-> request_closed p) /\ not_before (q_time q) (q_time p))
  /\ (forall l1 o p q l2, qs = l1 ++ o :: p :: q :: l2 ->
        ~ works o -> works p -> ~ (zero_request p /\ standard_request p) -> plain_zero_request q)
  /\ (forall l1 q l2 z, qs = l1 ++ q :: l2 -> standard_request q -> requests_turnover (l1 ++ [q]) z -> counter_fits size z)
  /\ ids_new w b (map q_id qs).

Definition batch_requests (ks : keystore) (bs : list batch) : list (request * verifier) :=
  flat_map (fun b => map (fun q => (q, verifier_of ks (b_cert b))) (b_requests b)) bs.

(** The certificates of the groups are trusted, or there is one group without. *)
Definition batches_trusted (w : world) (ks : keystore) (bs : list batch) : Prop :=
  let used := filter (fun b => match b_requests b with [] => false | _ => true end) bs in
  Forall (fun b => exists c, b_cert b = Some c /\ trusted w ks c (b_chain b)) used
  \/ exists b, used = [b] /\ b_cert b = None.
(** All certificates were loaded from PEM texts. *)
Definition batch_certs_loaded (w : world) (bs : list batch) : Prop :=
  forall b c, In b bs -> b_cert b = Some c \/ In c (b_chain b) -> exists t, loadCert w t = Ok c.
