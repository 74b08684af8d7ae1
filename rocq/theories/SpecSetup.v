(** What a test specification must be like for the signature devices of a test to be in
    order, and what that means. *)
From Coq Require Import Floats.SpecFloat.
From Verif Require Import PyBase World Codec PyFloat PyTime Receipt Pem KeyStore VerifyReceipt State DepExport
  SpecReceipt SpecDep SpecCluster SpecAmount SpecKeys SpecPool CashReg SpecCashReg Override RunTest SpecRunTest TestVerify TestSetup.
Open Scope N_scope.

(** ** What is assumed of the cryptographic library and of random numbers *)

(** [own s p]: the public key that belongs to the private key [s] is [p]. *)
Record maker_ok (w : world) (own : privkey -> pubkey -> Prop) (m : maker) : Prop := MakerOk {
  mo_sign : forall s p, own s p -> key_pair w s p;
  mo_pair : forall i u, own (fst (mk_pair m i u)) (snd (mk_pair m i u));
  mo_serial : forall i u, (0 < mk_serial m i u)%Z;
  mo_zda : forall i, (1 <= mk_zda m i <= 999)%Z;
  (* A certificate is as asked for and can be written and read. It is accepted as
     signed by another one if and only if the private key used is that one's. *)
  mo_cert : forall i u p name z s o s' p', own s' p -> own s p' ->
    z = mk_serial m i u \/ (0 < z /\ exists k, cert_read w k /\ z = w_serial w k)%Z ->
    exists c, mk_cert m i u p name 365 z s o = Ok c /\ cert_read w c
      /\ w_serial w c = z /\ w_cert_pubkey w c = p
      /\ forall k, o = Some k -> (w_cert_signed_by w c k = true <-> w_cert_pubkey w k = p')
}.

(** The key material of a device: a private key, and the public key or a certificate
    for it *)
Definition material_ok (w : world) (own : privkey -> pubkey -> Prop) (m : maker) (closed : bool) (mat : str * str) : Prop :=
  exists s, mk_priv m (snd mat) = Ok s /\
    if closed then exists p, loadPubKey w (fst mat) = Ok p /\ own s p
    else exists c, loadCert w (fst mat) = Ok c /\ own s (w_cert_pubkey w c).

(** ** The test specification *)

(** Element [i] of an optional list, the elements of which are [d] if it is missing *)
Definition element_at {A} (o : option (list A)) (d : A) (i : nat) (x : A) : Prop :=
  match o with Some l => nth_error l i = Some x | None => x = d end.

(** Nothing is wrong with device [i]: its certificates and the root are there, and the
    chain is not broken. Without groups only one certificate can be known. *)
Definition sound_device (sp : tspec) (closed : bool) (i : nat) : Prop :=
  (exists x, element_at (ts_nosign sp) false i x /\ (ts_multi sp = true -> x = false))
  /\ (closed = false \/ ts_multi sp = true ->
        element_at (ts_noroot sp) false i false /\ element_at (ts_collision sp) false i false)
  /\ (closed = false ->
        exists n, element_at (ts_length sp) 0%Z i n
          /\ ((n <= 0)%Z
              \/ ts_multi sp = true /\ exists f, element_at (ts_failure sp) 0%Z i f /\ (f < 1 \/ n < f)%Z)).

(** The company can be part of key IDs. *)
Definition company_ok (w : world) (s : str) : Prop :=
  key_body w s /\ ~ In c_dash s /\ ~ In c_us s /\ encodes s.

(** ** Serial numbers *)

Definition given_cert (w : world) (mats : list (str * str)) (c : cert) : Prop :=
  exists mat, In mat mats /\ loadCert w (fst mat) = Ok c.
(** A certificate with a serial number of its own is made for device [i]. *)
Definition made_for (sp : tspec) (closed : bool) (n i : nat) (u : purpose) : Prop :=
  (i < n)%nat /\
  match u with
  | P_self => closed = true
  | P_chain j => closed = false /\ exists len, element_at (ts_length sp) 0%Z i len /\ (1 <= Z.of_nat j <= len)%Z
  | P_fake => False
  end.
(** Different certificates have different serial numbers. *)
Definition serials_apart (w : world) (m : maker) (sp : tspec) (closed : bool) (mats : list (str * str)) : Prop :=
  let n := List.length mats in
  (forall i u i' u', made_for sp closed n i u -> made_for sp closed n i' u' -> mk_serial m i u = mk_serial m i' u' -> i = i' /\ u = u')
  /\ (closed = false -> forall c i u, given_cert w mats c -> made_for sp closed n i u -> Z.abs (w_serial w c) <> mk_serial m i u)
  /\ (closed = false -> forall c c', given_cert w mats c -> given_cert w mats c' -> Z.abs (w_serial w c) = Z.abs (w_serial w c') -> c = c').
(** A number in decimal notation is not another certificate's in hexadecimal notation. *)
Definition decimals_clear (w : world) (mats : list (str * str)) : Prop :=
  forall c c' t, given_cert w mats c -> given_cert w mats c' ->
    numeral 10 t (Z.abs_N (w_serial w c)) -> numeral 16 t (Z.abs_N (w_serial w c')) -> c = c'.

(** All together *)
Definition setup_ok (w : world) (own : privkey -> pubkey -> Prop) (m : maker) (sp : tspec) (closed : bool) (mats : list (str * str)) : Prop :=
  Forall (material_ok w own m closed) mats
  /\ (forall i, (i < List.length mats)%nat -> sound_device sp closed i)
  /\ serials_apart w m sp closed mats
  /\ (closed = true -> company_ok w (ts_company sp))
  /\ (closed = false -> ts_multi sp = false -> ts_decimal sp = true -> decimals_clear w mats).

(** ** Devices in order *)

Definition device_fit (w : world) (ks : keystore) (multi : bool) (d : device) : Prop :=
  (forall s, s = SignatureSystemBroken (dv_zda d) (dv_serial d) \/ s = SignatureSystemWorking (dv_zda d) (dv_serial d) (dv_priv d) ->
     device_ok w s /\ device_known w (verifier_of ks (device_certificate multi d)) s)
  /\ (multi = true ->
       (exists c, dv_cert d = Some c /\ trusted w ks c (dv_chain d))
       /\ forall c, dv_cert d = Some c \/ In c (dv_chain d) -> exists t, loadCert w t = Ok c).

(** ** The instructions *)

(** What an instruction asks for, whatever the device *)
Definition bare_request (closed : bool) (i : instr) : request :=
  instr_request (Device (if closed then lit "AT0" else lit "AT1") [] [] None []) i.
Definition bare_ok (q : request) : Prop :=
  identifier (q_id q) /\ valid_dt (q_time q) /\ 1000 <= dt_year (q_time q) /\ exists z, request_total q z.

(** The rules of [test_rules] without those about devices *)
Definition instructions_ok (w : world) (closed : bool) (n size : nat) (b : backend) (l : list instr) : Prop :=
  let os := owners 1 0 l in
  let qs := map (bare_request closed) l in
  let tagged := combine os qs in
  Forall (fun i => (in_dev i < n)%nat /\ in_over i = no_override) l
  /\ Forall bare_ok qs
  /\ (exists i r, l = i :: r /\ in_new i = NO_NEW_DEP)
  /\ continues_existing l os
  /\ newest_in_use l os
  /\ (forall r q rest, of_register r tagged = q :: rest -> plain_zero_request q)
  /\ (forall r l1 p q l2, of_register r tagged = l1 ++ p :: q :: l2 -> not_before (q_time q) (q_time p))
  /\ (forall r l1 o p q l2, of_register r tagged = l1 ++ o :: p :: q :: l2 ->
        ~ works o -> works p -> ~ (zero_request p /\ standard_request p) -> plain_zero_request q)
  /\ (forall r l1 q l2 z, of_register r tagged = l1 ++ q :: l2 -> standard_request q -> requests_turnover (l1 ++ [q]) z -> counter_fits size z)
  /\ (forall r p q l1 l2, of_register r tagged = p :: l1 -> of_register (S r) tagged = q :: l2 ->
        closed = true /\ not_before (q_time q) (q_time p))
  /\ ids_new w b (map q_id qs)
  /\ (forall l1 i l2 t1 o q t2 x, l = l1 ++ i :: l2 -> ends_dep l2 -> in_turnover i = Some x -> ~ is_zero x ->
        tagged = t1 ++ (o, q) :: t2 -> List.length t1 = List.length l1 ->
        exists z, money x z /\ requests_turnover (of_register o (t1 ++ [(o, q)])) z).
