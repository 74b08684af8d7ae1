(** Overrides that break a rule, and the exceptions that are due. *)
From Coq Require Import Floats.SpecFloat.
From Verif Require Import PyBase World Codec PyFloat PyTime Algo Receipt KeyStore VerifyReceipt State SpecReceipt SpecDep SpecCluster SpecAmount CashReg SpecCashReg Override.
Open Scope N_scope.

(** What becomes of the value [x], if an override may be given *)
Definition value_of {A} (o : option A) (x y : A) : Prop := (forall a, o = Some a -> y = a) /\ (o = None -> y = x).

(** The receipt has the values overridden; where none are given, those requested. *)
Definition carries (o : override) (g : cashreg) (q : request) (r : receipt) : Prop :=
  value_of (ov_zda o) (sys_zda (q_sys q)) (r_zda r) /\ value_of (ov_register o) (cr_id g) (r_registerId r)
  /\ value_of (ov_id o) (q_id q) (r_receiptId r) /\ value_of (ov_time o) (strftime (q_time q)) (r_dateTimeStr r)
  /\ value_of (ov_a o) (fmt_sum (q_a q)) (r_sumAStr r) /\ value_of (ov_b o) (fmt_sum (q_b q)) (r_sumBStr r)
  /\ value_of (ov_c o) (fmt_sum (q_c q)) (r_sumCStr r) /\ value_of (ov_d o) (fmt_sum (q_d q)) (r_sumDStr r)
  /\ value_of (ov_e o) (fmt_sum (q_e q)) (r_sumEStr r) /\ value_of (ov_serial o) (sys_serial (q_sys q)) (r_certSerial r)
  /\ (forall x, ov_tc o = Some x -> r_encTC r = x) /\ (forall x, ov_chain o = Some x -> r_previousChain r = x)
  /\ exists h s, r_sig r = Some (h, s) /\ value_of (ov_header o) es256_header h /\ (forall x, ov_signature o = Some x -> s = x).

Definition only_device (z n : str) : override := Override (Some z) None None None None None None None None None (Some n) None None None None None None.
Definition only_register (x : str) : override := Override None (Some x) None None None None None None None None None None None None None None None.
Definition only_id (x : str) : override := Override None None (Some x) None None None None None None None None None None None None None None.
Definition only_time (x : str) : override := Override None None None (Some x) None None None None None None None None None None None None None.
Definition only_sum (x : str) : override := Override None None None None (Some x) None None None None None None None None None None None None.
Definition only_serial (n : str) : override := Override None None None None None None None None None None (Some n) None None None None None None.
Definition only_chain (x : str) : override := Override None None None None None None None None None None None (Some x) None None None None None.
Definition only_counter (c : Z) : override := Override None None None None None None None None None None None None (Some c) None None None None.
Definition only_signature (x : str) : override := Override None None None None None None None None None None None None None None None None (Some x).

(** A device with the same key and another name *)
Definition renamed (z n : str) (s : sigsys) : sigsys :=
  match s with SignatureSystemBroken _ _ => SignatureSystemBroken z n | SignatureSystemWorking _ _ priv => SignatureSystemWorking z n priv end.

(** A request with other contents *)
Definition with_sys (q : request) (s : sigsys) : request := Request (q_id q) (q_time q) (q_a q) (q_b q) (q_c q) (q_d q) (q_e q) s (q_dummy q) (q_reversal q).
Definition with_id (q : request) (x : str) : request := Request x (q_time q) (q_a q) (q_b q) (q_c q) (q_d q) (q_e q) (q_sys q) (q_dummy q) (q_reversal q).
Definition with_time (q : request) (d : dt) : request := Request (q_id q) d (q_a q) (q_b q) (q_c q) (q_d q) (q_e q) (q_sys q) (q_dummy q) (q_reversal q).
Definition with_sum (q : request) (x : float) : request := Request (q_id q) (q_time q) x (q_b q) (q_c q) (q_d q) (q_e q) (q_sys q) (q_dummy q) (q_reversal q).

(** The text that the next receipt is chained to *)
Definition to_chain (g : cashreg) : str := match cr_last g with Some s => s | None => cr_id g end.

(** [l] are the requests so far, [g] is the register after them. The request [q], the
    receipt of which the verifier [v] is in charge of, is made with an override; [r]
    is the receipt. *)
Inductive injected (w : world) (b : backend) (key : option bytes) (g : cashreg) (l : list request) (q : request) (v : verifier) (r : receipt)
  : override -> exn -> Prop :=
| j_id x : b = B_unique -> identifier x -> In x (map q_id l) ->
    injected w b key g l q v r (only_id x) (DuplicateReceiptId x)
| j_register x : l <> [] -> identifier x -> x <> cr_id g ->
    injected w b key g l q v r (only_register x) (ChangingRegisterId (q_id q))
| j_system z n : l <> [] -> device_ok w (renamed z n (q_sys q)) -> device_known w v (renamed z n (q_sys q)) ->
    ~ (z = lit "AT0" <-> sys_zda (q_sys q) = lit "AT0") ->
    injected w b key g l q v r (only_device z n) (ChangingSystemType (q_id q))
| j_time d p l' : l = l' ++ [p] -> valid_dt d -> 1000 <= dt_year d -> ~ not_before d (q_time p) ->
    injected w b key g l q v r (only_time (strftime d)) (DecreasingDate (q_id q))
| j_chain c : l <> [] -> List.length c = 8%nat -> is_bytes c -> ~ chain_value w (to_chain g) (b64encode c) ->
    ~ In (q_id q) (map q_id l) ->
    injected w b key g l q v r (only_chain (b64encode c)) (ChainingError (q_id q))
| j_chain_start c : l = [] -> List.length c = 8%nat -> is_bytes c -> ~ chain_value w (to_chain g) (b64encode c) ->
    injected w b key g l q v r (only_chain (b64encode c)) (InvalidChainingOnInitial (q_id q))
| j_counter c t : key <> None -> standard_request q -> request_total q t -> counter_fits (cr_size g) c -> c <> (cr_counter g + t)%Z ->
    injected w b key g l q v r (only_counter c) (InvalidTurnoverCounter (q_id q))
| j_sum x t t' : key <> None -> standard_request q -> ~ zero_request q -> ~ is_zero x ->
    request_total q t -> request_total (with_sum q x) t' -> t' <> t ->
    injected w b key g l q v r (only_sum (fmt_sum x)) (InvalidTurnoverCounter (q_id q))
| j_signature s sb k : works q -> s = b64url_nopad sb -> is_bytes sb -> s <> marker ->
    key_of w v r k -> ~ signed_by w k r ->
    injected w b key g l q v r (only_signature s) (InvalidSignature (q_id q))
| j_key n : works q -> v_cert v = None -> device_ok w (renamed (sys_zda (q_sys q)) n (q_sys q)) -> (forall k, ~ key_of w v r k) ->
    injected w b key g l q v r (only_serial n) (NoPublicKey (q_id q))
| j_serial n c : v_cert v = Some c -> sys_zda (q_sys q) <> lit "AT0" -> device_ok w (renamed (sys_zda (q_sys q)) n (q_sys q)) -> ~ names_serial w n c ->
    injected w b key g l q v r (only_serial n) (CertSerialMismatch (q_id q)).
