(** When the DEPs made from a test specification are to be accepted: conditions on
    the instructions. *)
From Coq Require Import Floats.SpecFloat.
From Verif Require Import PyBase World Codec PyFloat PyTime Receipt KeyStore VerifyReceipt State DepExport
  SpecReceipt SpecDep SpecCluster SpecAmount Pem CashReg SpecCashReg Override RunTest.
Open Scope N_scope.

(** What an instruction asks for with a given signature device *)
Definition wants (d : device) (i : instr) (q : request) : Prop :=
  q_id q = in_id i /\ q_time q = in_time i
  /\ q_a q = in_a i /\ q_b q = in_b i /\ q_c q = in_c i /\ q_d q = in_d i /\ q_e q = in_e i
  /\ sys_zda (q_sys q) = dv_zda d /\ sys_serial (q_sys q) = dv_serial d
  /\ (in_damaged i = true -> ~ works q)
  /\ (in_damaged i = false -> q_sys q = SignatureSystemWorking (dv_zda d) (dv_serial d) (dv_priv d))
  /\ q_dummy q = in_training i /\ q_reversal q = in_storno i.
(** What an instruction without overrides asks for *)
Definition asks (d : device) (i : instr) (q : request) : Prop := wants d i q /\ in_over i = no_override.

(** The receipts to be made, each with the verifier in charge of it: with several
    groups that of the device's certificate, otherwise the key store. *)
Definition device_certificate (multi : bool) (d : device) : option cert := if multi then dv_cert d else None.
Definition asked (ks : keystore) (multi : bool) (devs : list device) (i : instr) (qv : request * verifier) : Prop :=
  exists d, nth_error devs (in_dev i) = Some d /\ asks d i (fst qv)
    /\ snd qv = verifier_of ks (device_certificate multi d).

(** The same but for overrides *)
Definition wanted (ks : keystore) (multi : bool) (devs : list device) (i : instr) (qv : request * verifier) : Prop :=
  exists d, nth_error devs (in_dev i) = Some d /\ wants d i (fst qv)
    /\ snd qv = verifier_of ks (device_certificate multi d).

(** The registers, numbered in the order in which they start, that the instructions
    are for, when there are [n] of them and [r] is in use. *)
Fixpoint owners (n r : nat) (l : list instr) : list nat :=
  match l with
  | [] => []
  | i :: rest =>
      match in_new i, in_cont i with
      | NO_NEW_DEP, _ => r :: owners n r rest
      | NEW_CLUSTER_DEP, _ => n :: owners (S n) n rest
      | NEW_DEP, Some k => k :: owners n k rest
      | NEW_DEP, None => r :: owners n r rest
      end
  end.

(** What belongs to one register *)
Definition of_register {A} (r : nat) (l : list (nat * A)) : list A :=
  map snd (filter (fun x => (fst x =? r)%nat) l).

(** The requests for one register are in order, but for the receipt IDs, see
    [orderly]. *)
Definition register_orderly (w : world) (size : nat) (l : list (request * verifier)) : Prop :=
  let qs := map fst l in
  Forall (fun qv => request_ok w (snd qv) (fst qv)) l
  /\ (forall q r, qs = q :: r -> plain_zero_request q)
  /\ (forall l1 p q l2, qs = l1 ++ p :: q :: l2 ->
        (request_closed q <-> request_closed p) /\ not_before (q_time q) (q_time p))
  /\ (forall l1 o p q l2, qs = l1 ++ o :: p :: q :: l2 ->
        ~ works o -> works p -> ~ (zero_request p /\ standard_request p) -> plain_zero_request q)
  /\ (forall l1 q l2 z, qs = l1 ++ q :: l2 -> standard_request q -> requests_turnover (l1 ++ [q]) z -> counter_fits size z).

(** Only registers that exist are continued. *)
Definition continues_existing (l : list instr) (os : list nat) : Prop :=
  forall l1 i l2, l = l1 ++ i :: l2 -> in_new i = NEW_DEP -> forall k, in_cont i = Some k ->
    exists j, (j < List.length l1)%nat /\ nth_error os j = Some k.

(** A register is added to the cluster when the one added last is in use. *)
Definition newest_in_use (l : list instr) (os : list nat) : Prop :=
  forall l1 p i l2 o, l = l1 ++ p :: i :: l2 -> in_new i = NEW_CLUSTER_DEP ->
    nth_error os (List.length l1) = Some o -> forall j k, (j <= List.length l1)%nat -> nth_error os j = Some k -> (k <= o)%nat.

(** Registers of a cluster are closed systems, and none starts before the previous
    one. *)
Definition cluster_orderly (tagged : list (nat * (request * verifier))) : Prop :=
  forall r p q l1 l2, of_register r tagged = p :: l1 -> of_register (S r) tagged = q :: l2 ->
    request_closed (fst p) /\ request_closed (fst q) /\ not_before (q_time (fst q)) (q_time (fst p)).

(** The devices that are used have trusted certificates, if there are several
    groups. *)
Definition devices_trusted (w : world) (ks : keystore) (multi : bool) (devs : list device) (l : list instr) : Prop :=
  multi = true -> forall i d, In i l -> nth_error devs (in_dev i) = Some d ->
    (exists c, dv_cert d = Some c /\ trusted w ks c (dv_chain d))
    /\ forall c, dv_cert d = Some c \/ In c (dv_chain d) -> exists t, loadCert w t = Ok c.

Definition starts_dep (i : instr) : bool := match in_new i with NO_NEW_DEP => false | _ => true end.

(** The last receipt of a DEP *)
Definition ends_dep (rest : list instr) : Prop :=
  match rest with [] => True | i :: _ => in_new i <> NO_NEW_DEP end.

(** The turnover that the last instruction for a DEP states is that of the register
    up to there. *)
Definition totals_stated (l : list instr) (tagged : list (nat * (request * verifier))) : Prop :=
  forall l1 i l2 t1 o qv t2 x, l = l1 ++ i :: l2 -> ends_dep l2 -> in_turnover i = Some x -> ~ is_zero x ->
    tagged = t1 ++ (o, qv) :: t2 -> List.length t1 = List.length l1 ->
    exists z, money x z /\ requests_turnover (map fst (of_register o (t1 ++ [(o, qv)]))) z.

(** All together but [newest_in_use]; [qs] are the receipts asked for, [os] the registers they are for. *)
Definition test_rules (w : world) (ks : keystore) (size : nat) (b : backend) (multi : bool) (devs : list device)
    (l : list instr) (qs : list (request * verifier)) : Prop :=
  let os := owners 1 0 l in
  let tagged := combine os qs in
  Forall2 (asked ks multi devs) l qs
  /\ (exists i r, l = i :: r /\ in_new i = NO_NEW_DEP)
  /\ continues_existing l os
  /\ (forall r, register_orderly w size (of_register r tagged))
  /\ cluster_orderly tagged
  /\ ids_new w b (map (fun qv => q_id (fst qv)) qs)
  /\ devices_trusted w ks multi devs l
  /\ totals_stated l tagged.
