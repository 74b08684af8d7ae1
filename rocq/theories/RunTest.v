(** librksv/run_test.py: DEPs made from a test specification, and the loop of
    librksv/test/test_verify.py that verifies them. *)
From Coq Require Import Floats.SpecFloat.
From Verif Require Import PyBase World Codec PyFloat PyTime Algo Receipt Json KeyStore State DepExport Verify CashReg Override.
Open Scope N_scope.
Open Scope py_scope.

(** Element "beginNewDEP" of an instruction, librksv/run_test.py:179. Any text other
    than the first and the last of these works like the second one. *)
Inductive new_dep : Type := NO_NEW_DEP | NEW_DEP | NEW_CLUSTER_DEP.

(** A signature device with its certificates, librksv/run_test.py:93-145: what
    [sigsBroken], [sigsWorking] and [groupCerts] contain. How they are
    made is modelled in TestSetup.v. *)
Record device : Type := Device {
  dv_zda : str; dv_serial : str; dv_priv : privkey;
  dv_cert : option cert; dv_chain : list cert
}.

(** An element of "cashBoxInstructionList", librksv/run_test.py:161-181. Indices are
    not negative. *)
Record instr : Type := Instr {
  in_id : str;                  (* receiptIdentifier *)
  in_time : dt;                 (* dateToUse *)
  in_a : float; in_b : float; in_c : float; in_d : float; in_e : float;   (* simplifiedReceipt *)
  in_dev : nat;                 (* usedSignatureDevice *)
  in_damaged : bool;            (* signatureDeviceDamaged *)
  in_new : new_dep;             (* beginNewDEP *)
  in_cont : option nat;         (* continueRegister *)
  in_turnover : option float;   (* annotateTurnoverCounter *)
  in_storno : bool;             (* typeOfReceipt = STORNO_BELEG *)
  in_training : bool;           (* typeOfReceipt = TRAINING_BELEG *)
  in_over : override            (* override *)
}.

Definition k_total : str := lit "Umsatz-gesamt".
Definition k_previous : str := lit "Vorheriges-DEP".
Definition k_continued : str := lit "Fortgesetztes-DEP".

(** The variables of the loop, librksv/run_test.py:147-159. Registers are objects,
    which [register] and the elements of [reg2Reg] refer to. *)
Record gen : Type := Gen {
  gn_heap : list cashreg;             (* all registers made so far *)
  gn_reg : nat;                       (* register *)
  gn_r2r : list nat;                  (* reg2Reg *)
  gn_r2d : list nat;                  (* reg2LastDEP *)
  gn_cur : Z;                         (* curRegIdx *)
  gn_start : option str;              (* lastStartJWS *)
  gn_prev : nat;                      (* prevRegStartDEPIdx *)
  gn_groups : list (rgroup rtuple);   (* stream *)
  gn_extra : list (str * json);       (* exporter._extra *)
  gn_recs : list rtuple;              (* receipts *)
  gn_sig : option nat;                (* prevSigId *)
  gn_expected : option float;         (* expectedTurnover *)
  gn_deps : list json                 (* deps *)
}.

Definition item_at {A} (l : list A) (i : nat) : result A :=
  match nth_error l i with Some x => Ok x | None => Err PyIndexError end.
(** Assignment to an element; negative indices count from the end. *)
Definition set_item (l : list nat) (i : Z) (x : nat) : result (list nat) :=
  let n := Z.of_nat (List.length l) in
  let j := (if (i <? 0)%Z then i + n else i)%Z in
  if ((0 <=? j) && (j <? n))%Z then Ok (set_nth (Z.to_nat j) x l) else Err PyIndexError.

(** Truth of a number or [None] *)
Definition nonzero (x : float) : bool := match x with S754_zero _ => false | _ => true end.
Definition number (o : option float) : option float :=
  match o with Some x => if nonzero x then Some x else None | None => None end.

(** librksv/run_test.py:173-177, 219-228: the arguments of [receipt] *)
Definition instr_request (d : device) (i : instr) : request :=
  Request (in_id i) (in_time i) (in_a i) (in_b i) (in_c i) (in_d i) (in_e i)
    (if in_damaged i then SignatureSystemBroken (dv_zda d) (dv_serial d)
     else SignatureSystemWorking (dv_zda d) (dv_serial d) (dv_priv d))
    (in_training i) (in_storno i).

(** librksv/run_test.py:183-186: a new register in the cluster *)
Definition new_in_cluster (id : str) (key : bytes) (size : nat) (st : gen) (i : instr) : result gen :=
  match in_new i, truthy (gn_start st) with
  | NEW_CLUSTER_DEP, Some jws =>
      do g <- new_cashreg id (Some jws) 0 key size;
      Ok (Gen (gn_heap st ++ [g]) (List.length (gn_heap st)) (gn_r2r st) (gn_r2d st) (gn_cur st) None (gn_prev st)
            (gn_groups st) (gn_extra st) (gn_recs st) (gn_sig st) (gn_expected st) (gn_deps st))
  | _, _ => Ok st
  end.

(** [stream.append(receipts, …)] *)
Definition append_group (st : gen) (c : option cert) (ch : list cert) : gen :=
  Gen (gn_heap st) (gn_reg st) (gn_r2r st) (gn_r2d st) (gn_cur st) (gn_start st) (gn_prev st)
    (gn_groups st ++ [RGroup (gn_recs st) c ch]) (gn_extra st) [] (gn_sig st) (gn_expected st) (gn_deps st).

(** librksv/run_test.py:188-196: the end of a group *)
Definition end_group (multi : bool) (devs : list device) (st : gen) (i : instr) : result gen :=
  let fresh := match in_new i with NO_NEW_DEP => false | _ => true end in
  match (if multi then gn_sig st else None) with
  | Some p =>
      if fresh || negb (p =? in_dev i)%nat then
        do d <- item_at devs p;
        Ok (append_group st (dv_cert d) (dv_chain d))
      else Ok st
  | None => Ok (if fresh then append_group st None [] else st)
  end.

(** librksv/run_test.py:199-200 and 248-249 *)
Definition all_extra (st : gen) : list (str * json) :=
  gn_extra st ++ match number (gn_expected st) with Some x => [(k_total, JFloat x)] | None => [] end.

(** librksv/run_test.py:198-215: the end of a DEP *)
Definition end_dep (w : world) (st : gen) (i : instr) : result gen :=
  match in_new i with
  | NO_NEW_DEP => Ok st
  | kind =>
      do dep <- export w (gn_groups st, None) (all_extra st);
      let n := List.length (gn_deps st) in
      do r2d <- set_item (gn_r2d st) (gn_cur st) n;
      do next <-
        match kind, in_cont i with
        | NEW_CLUSTER_DEP, _ => Ok (gn_reg st, gn_cur st, [(k_previous, JInt (Z.of_nat (gn_prev st)))])
        | _, Some k =>
            do reg <- item_at (gn_r2r st) k;
            do d <- item_at r2d k;
            Ok (reg, Z.of_nat k, [(k_previous, JInt (Z.of_nat d)); (k_continued, JBool true)])
        | _, None => Ok (gn_reg st, gn_cur st, [(k_previous, JInt (Z.of_nat n)); (k_continued, JBool true)])
        end;
      let '(reg, cur, extra) := next in
      Ok (Gen (gn_heap st) reg (gn_r2r st) r2d cur (gn_start st) (gn_prev st)
            [] extra (gn_recs st) (gn_sig st) (gn_expected st) (gn_deps st ++ [dep]))
  end.

(** librksv/run_test.py:217-240: the receipt *)
Definition add_receipt (w : world) (d : device) (st : gen) (i : instr) : result gen :=
  do g <- item_at (gn_heap st) (gn_reg st);
  let (g', r) := issue_over w g (lit "R1") (in_over i) (instr_request d i) in
  do rec <- r;
  let heap := set_nth (gn_reg st) g' (gn_heap st) in
  let prefix := given (ov_prefix (in_over i)) (lit "R1") in
  let recs := gn_recs st ++ [(rec, prefix)] in
  let n := List.length (gn_deps st) in
  match truthy (gn_start st) with
  | Some _ =>
      Ok (Gen heap (gn_reg st) (gn_r2r st) (gn_r2d st) (gn_cur st) (gn_start st) (gn_prev st)
            (gn_groups st) (gn_extra st) recs (Some (in_dev i)) (in_turnover i) (gn_deps st))
  | None =>
      do jws <- toJWSString rec prefix;
      Ok (Gen heap (gn_reg st) (gn_r2r st ++ [gn_reg st]) (gn_r2d st ++ [n]) (gn_cur st + 1)%Z (Some jws) n
            (gn_groups st) (gn_extra st) recs (Some (in_dev i)) (in_turnover i) (gn_deps st))
  end.

(** One iteration, librksv/run_test.py:160-240 *)
Definition gen_step (w : world) (id : str) (key : bytes) (size : nat) (multi : bool) (devs : list device)
    (st : gen) (i : instr) : result gen :=
  do d <- item_at devs (in_dev i);
  do st <- new_in_cluster id key size st i;
  do st <- end_group multi devs st i;
  do st <- end_dep w st i;
  add_receipt w d st i.

Fixpoint gen_loop (w : world) (id : str) (key : bytes) (size : nat) (multi : bool) (devs : list device)
    (st : gen) (l : list instr) : result gen :=
  match l with
  | [] => Ok st
  | i :: r => do st <- gen_step w id key size multi devs st i; gen_loop w id key size multi devs st r
  end.

(** librksv/run_test.py:242-250 *)
Definition gen_end (w : world) (multi : bool) (devs : list device) (st : gen) : result (list json) :=
  do st <- (if multi then
              match gn_sig st with
              | Some p => do d <- item_at devs p; Ok (append_group st (dv_cert d) (dv_chain d))
              | None => Err PyTypeError
              end
            else Ok (append_group st None []));
  do dep <- export w (gn_groups st, None) (all_extra st);
  Ok (gn_deps st ++ [dep]).

(** librksv/run_test.py:38-254 runTest, with the elements of the specification as
    arguments: "cashBoxId", the AES key, the size of the turnover counter,
    "multipleGroups", the signature devices and "cashBoxInstructionList". Returns
    the DEPs only; the key store is an argument of the theorems. *)
Definition runTest (w : world) (id : str) (key : bytes) (size : nat) (multi : bool) (devs : list device)
    (l : list instr) : result (list json) :=
  do g <- new_cashreg id None 0 key size;
  do st <- gen_loop w id key size multi devs (Gen [g] 0 [] [] (-1) None 0 [] [] [] None None []) l;
  gen_end w multi devs st.

(** ** Verification *)

Inductive outcome : Type :=
| T_ok (c : cluster)
| T_raised (e : exn)
| T_turnover (expected actual : Z)
| T_parsers (chunksize : nat)   (* the following with [parse=True] only *)
| T_state
| T_ids.

(** [dep.get(…)] and [dep[…]] *)
Definition member (dep : json) (k : str) : option json :=
  match dep with JDict d => dict_get d k | _ => None end.

(** librksv/test/test_verify.py:130-140: the register of a DEP. The elements have
    the types [runTest] gives them. *)
Definition dep_register (regs : list nat) (n : nat) (dep : json) : result (nat * nat) :=
  match member dep k_continued with
  | Some (JBool true) =>
      match member dep k_previous with
      | Some (JInt z) =>
          if (z <? 0)%Z then Err PyIndexError
          else do r <- item_at regs (Z.to_nat z); Ok (r, n)
      | Some _ => Err PyTypeError
      | None => Err PyKeyError
      end
  | _ => Ok (n, S n)
  end.

(** librksv/test/test_verify.py:138, 223-230 with [getCashRegisterInfo] for a register
    that exists *)
Definition check_total (dep : json) (c : cluster) (r : nat) : option outcome :=
  match member dep k_total with
  | Some (JFloat x) =>
      if nonzero x then
        match py_round (fmul x f100) with
        | Err e => Some (T_raised e)
        | Ok z =>
            match nth_error (c_regs c) r with
            | Some reg => if (z =? s_counter reg)%Z then None else Some (T_turnover z (s_counter reg))
            | None => Some (T_raised InvalidCashRegisterIndex)
            end
        end
      else None
  | _ => None
  end.

(** librksv/test/test_verify.py:124-230: the loop over the DEPs, with
    [parse=False] *)
Fixpoint verify_deps (w : world) (ks : keystore) (key : option bytes) (c : cluster) (regs : list nat) (n : nat)
    (deps : list json) : outcome :=
  match deps with
  | [] => T_ok c
  | dep :: rest =>
      match dep_register regs n dep with
      | Err e => T_raised e
      | Ok (r, n') =>
          match verifyDEP w dep ks key c (Some (Z.of_nat r)) with
          | (_, Some e) => T_raised e
          | (c', None) =>
              match check_total dep c' r with
              | Some o => o
              | None => verify_deps w ks key c' (regs ++ [r]) n' rest
              end
          end
      end
  end.

(** librksv/test/test_verify.py:79-230 for the given key store, with a choice of
    how used receipt IDs are kept *)
Definition testVerify (w : world) (ks : keystore) (key : bytes) (b : backend) (deps : list json) : outcome :=
  verify_deps w ks (Some key) (new_cluster b) [] 0 deps.
