(** librksv/test/test_verify.py: the DEPs of a test are verified in two ways, and the
    results are compared with what the test expects. *)
From Coq Require Import Floats.SpecFloat.
From Verif Require Import PyBase World Codec PyFloat PyTime Algo Receipt DepBase Json KeyStore State DepParser Verify DepExport CashReg RunTest.
Open Scope N_scope.
Open Scope py_scope.

(** ** Comparisons *)

Definition opt_eqb {A} (f : A -> A -> bool) (a b : option A) : bool :=
  match a, b with Some x, Some y => f x y | None, None => true | _, _ => false end.
Fixpoint list_eqb {A} (f : A -> A -> bool) (a b : list A) : bool :=
  match a, b with
  | [], [] => true
  | x :: a', y :: b' => f x y && list_eqb f a' b'
  | _, _ => false
  end.

(** [==] of the tuples of a chunk. Certificates are equal if their octets are. *)
Definition dgroup_eqb (a b : dgroup) : bool :=
  list_eqb str_eqb (g_recs a) (g_recs b) && opt_eqb str_eqb (g_cert a) (g_cert b) && list_eqb str_eqb (g_chain a) (g_chain b).
Definition chunk_eqb : chunk -> chunk -> bool := list_eqb dgroup_eqb.

(** librksv/verification_state.py:414-417 CashRegisterState.__eq__ *)
Definition reg_eqb (a b : regstate) : bool :=
  opt_eqb str_eqb (s_start a) (s_start b) && opt_eqb str_eqb (s_last a) (s_last b) && (s_counter a =? s_counter b)%Z
  && Bool.eqb (s_restore a) (s_restore b) && opt_eqb str_eqb (State.s_chain a) (State.s_chain b).

(** librksv/verification_state.py:143-146 UsedReceiptIdsBackend.__eq__; sets are
    compared without regard to order. *)
Definition used_eqb (a b : used) : bool :=
  match a, b with
  | Unique x, Unique y => forallb (fun i => mem i y) x && forallb (fun i => mem i x) y
  | Natural x y, Natural x' y' => opt_eqb str_eqb x x' && opt_eqb str_eqb y y'
  | _, _ => false
  end.

(** ** The second way, librksv/test/test_verify.py:142-187 *)

(** 159-168: state and IDs without verification, from the chunks of the whole file *)
Fixpoint add_ids (w : world) (recs : list bytes) (u : used) : result used :=
  match recs with
  | [] => Ok u
  | b :: r =>
      do t <- expandDEPReceipt b;
      do rp <- fromJWSString w t;
      add_ids w r (used_add u (r_receiptId (fst rp)))
  end.
Fixpoint follow (w : world) (key : option bytes) (groups : list dgroup) (reg : regstate) (u : used) : result (regstate * used) :=
  match groups with
  | [] => Ok (reg, u)
  | g :: r =>
      do reg' <- updateFromDEPGroup w reg (g_recs g) key;
      do u' <- add_ids w (g_recs g) u;
      follow w key r reg' u'
  end.

(** 174-179: [zip] of the two generators, of which the first is asked first *)
Fixpoint zip_equal (a : list chunk) (ea : option exn) (b : list chunk) (eb : option exn) : result bool :=
  match a with
  | [] => match ea with Some e => Err e | None => Ok true end
  | x :: a' =>
      match b with
      | [] => match eb with Some e => Err e | None => Ok true end
      | y :: b' => if chunk_eqb x y then zip_equal a' ea b' eb else Ok false
      end
  end.
Fixpoint same_chunks (w : world) (dep : json) (sizes : list nat) : option outcome :=
  match sizes with
  | [] => None
  | n :: r =>
      let d := parse_dict w 1 dep n in
      let f := parse_inc w P_file dep n in
      match zip_equal (fst d) (snd d) (fst f) (snd f) with
      | Err e => Some (T_raised e)
      | Ok false => Some (T_parsers n)
      | Ok true => same_chunks w dep r
      end
  end.

Definition number_of_receipts (dep : json) : nat := match dep with JDict d => totalRecsInDictDEP d | _ => 0 end.
(** 170-173 *)
Definition chunk_sizes (nrecs n : nat) : list nat :=
  if (nrecs <? 10)%nat then List.seq 1 nrecs ++ [(nrecs * 2)%nat] else [1%nat; n; nrecs; (nrecs * 2)%nat].

(** 142-187 for one DEP. The file has the same contents as [dep], see C68. [random] is
    the number drawn. Returns the state after the DEP, or what ends the test. *)
Definition verify_parsed (w : world) (sch : schedule) (random : nat) (ks : keystore) (key : option bytes) (c : cluster) (r : nat)
    (dep : json) : cluster + outcome :=
  match getCashRegisterInfo c (Some (Z.of_nat r)) with
  | (_, Err e) => inr (T_raised e)
  | (c1, Ok (_, old, ids)) =>
      let nrecs := number_of_receipts dep in
      if (nrecs =? 0)%nat then inr (T_raised PyValueError) else
      let n := Nat.max 2 random in
      match verifyParsedDEP w sch (parse_inc w P_file dep n) ks key c1 (Some (Z.of_nat r)) with
      | (_, Some e) => inr (T_raised e)
      | (c2, None) =>
          let s := parse_inc w P_file dep 0 in
          match (do x <- follow w key (List.concat (fst s)) old ids; do _y <- finished s; Ok x) with
          | Err e => inr (T_raised e)
          | Ok (reg, ids') =>
              match same_chunks w dep (chunk_sizes nrecs n) with
              | Some o => inr o
              | None =>
                  match getCashRegisterInfo c2 (Some (Z.of_nat r)) with
                  | (_, Err e) => inr (T_raised e)
                  | (c3, Ok (_, new, ids2)) =>
                      if negb (reg_eqb reg new) then inr T_state
                      else if negb (used_eqb ids' ids2) then inr T_ids
                      else inl c3
                  end
              end
          end
      end
  end.

(** librksv/test/test_verify.py:124-230 with [parse=True]; [random] are the numbers
    drawn one after the other, [sch] how the packages of each DEP are run. *)
Fixpoint parse_deps (w : world) (sch : nat -> schedule) (random : nat -> nat) (ks : keystore) (key : option bytes) (c : cluster)
    (regs : list nat) (n : nat) (deps : list json) : outcome :=
  match deps with
  | [] => T_ok c
  | dep :: rest =>
      match dep_register regs n dep with
      | Err e => T_raised e
      | Ok (r, n') =>
          match verify_parsed w (sch (List.length regs)) (random (List.length regs)) ks key c r dep with
          | inr o => o
          | inl c' =>
              match check_total dep c' r with
              | Some o => o
              | None => parse_deps w sch random ks key c' (regs ++ [r]) n' rest
              end
          end
      end
  end.

(** ** Expected exceptions, librksv/test/test_verify.py:236-272 *)

(** The name of the class of an exception, and those of its base classes up to
    RKSVVerifyException; none for other exceptions. librksv/utils.py:47-62,
    receipt.py:38-111, depparser.py:36-115, verification_state.py:112,
    verify_receipt.py:35-96, verify.py:42-236 *)
Definition k_base : list str := [lit "RKSVVerifyException"; lit "RKSVException"].
Definition k_receipt : list str := lit "ReceiptException" :: k_base.
Definition k_parse : list str := lit "ReceiptParseException" :: k_receipt.
Definition k_nonfatal : list str := lit "NonFatalReceiptException" :: k_receipt.
Definition k_dep : list str := lit "DEPException" :: k_base.
Definition k_dep_receipt : list str := lit "DEPReceiptException" :: k_dep.
Definition k_dep_parse : list str := lit "DEPParseException" :: k_dep.
Definition k_malformed : list str := lit "MalformedDEPException" :: k_dep_parse.
Definition classes (e : exn) : list str :=
  match e with
  | MalformedReceipt _ => lit "MalformedReceiptException" :: k_parse
  | UnknownAlgorithm _ => lit "UnknownAlgorithmException" :: k_parse
  | AlgorithmMismatch _ => lit "AlgorithmMismatchException" :: k_parse
  | CertSerialInvalid _ => lit "CertSerialInvalidException" :: k_receipt
  | InvalidCertificateProvider _ => lit "InvalidCertificateProviderException" :: k_receipt
  | NoPublicKey _ => lit "NoPublicKeyException" :: k_receipt
  | InvalidSignature _ => lit "InvalidSignatureException" :: k_receipt
  | CertSerialMismatch _ => lit "CertSerialMismatchException" :: k_receipt
  | SignatureSystemFailed _ => lit "SignatureSystemFailedException" :: k_nonfatal
  | UnsignedNullReceipt _ => lit "UnsignedNullReceiptException" :: k_nonfatal
  | InvalidURLHash _ => lit "InvalidURLHashException" :: k_receipt
  | ClusterInOpenSystem => lit "ClusterInOpenSystemException" :: k_dep
  | ChainingError _ => lit "ChainingException" :: k_dep_receipt
  | NoRestoreReceipt _ => lit "NoRestoreReceiptAfterSignatureSystemFailureException" :: k_dep_receipt
  | InvalidTurnoverCounter _ => lit "InvalidTurnoverCounterException" :: k_dep_receipt
  | CertSerialCollision _ _ _ => lit "CertificateSerialCollisionException" :: k_dep
  | UntrustedCertificate _ => lit "UntrustedCertificateException" :: k_dep
  | CertificateChainBroken _ _ => lit "CertificateChainBrokenException" :: k_dep
  | SignatureSystemFailedOnInitial _ => lit "SignatureSystemFailedOnInitialReceiptException" :: k_dep_receipt
  | NonzeroTurnoverOnInitial _ => lit "NonzeroTurnoverOnInitialReceiptException" :: k_dep_receipt
  | NonstandardTypeOnInitial _ => lit "NonstandardTypeOnInitialReceiptException" :: k_dep_receipt
  | InvalidChainingOnInitial _ => lit "InvalidChainingOnInitialReceiptException" :: k_dep_receipt
  | InvalidChainingOnClusterInitial _ => lit "InvalidChainingOnClusterInitialReceiptException" :: k_dep_receipt
  | NoCertificateGiven => lit "NoCertificateGivenException" :: k_dep
  | ChangingRegisterId _ => lit "ChangingRegisterIdException" :: k_dep_receipt
  | ChangingSystemType _ => lit "ChangingSystemTypeException" :: k_dep_receipt
  | DecreasingDate _ => lit "DecreasingDateException" :: k_dep_receipt
  | DuplicateReceiptId _ => lit "DuplicateReceiptIdException" :: k_dep
  | DEPParseError => k_dep_parse
  | MalformedDEP => k_malformed
  | MalformedDEPElement => lit "MalformedDEPElementException" :: k_malformed
  | MissingDEPElement => lit "MissingDEPElementException" :: k_malformed
  | DuplicateDEPElement => lit "DuplicateDEPElementException" :: k_malformed
  | MalformedDEPCertificate => lit "MalformedCertificateException" :: k_dep_parse
  | _ => []
  end.

(** The attribute "receipt": receipt.py:46, verify.py:62, verification_state.py:121 *)
Definition exn_receipt (e : exn) : option str :=
  match e with
  | MalformedReceipt r | UnknownAlgorithm r | AlgorithmMismatch r | CertSerialInvalid r | InvalidCertificateProvider r
  | NoPublicKey r | InvalidSignature r | CertSerialMismatch r | SignatureSystemFailed r | UnsignedNullReceipt r | InvalidURLHash r
  | ChainingError r | NoRestoreReceipt r | InvalidTurnoverCounter r | SignatureSystemFailedOnInitial r | NonzeroTurnoverOnInitial r
  | NonstandardTypeOnInitial r | InvalidChainingOnInitial r | InvalidChainingOnClusterInitial r | ChangingRegisterId r
  | ChangingSystemType r | DecreasingDate r | DuplicateReceiptId r => Some r
  | _ => None
  end.

(** The elements "expectedException", "exceptionReceipt", "exceptionMsg" and
    "exceptionMsgRegex" of a specification; the last one by its text and the messages
    that match it. *)
Record expectation : Type := Expect {
  ex_type : option str; ex_receipt : option str; ex_msg : option str; ex_regex : option (str * (str -> bool))
}.

Inductive tresult : Type := R_OK | R_FAIL | R_ERROR.
Definition quote (s : str) : str := [34] ++ s ++ [34].
Definition no_exception : str := lit "no Exception".

(** 236-272: what became of the verification is compared with what is expected.
    [say] gives the messages of exceptions. [isinstance] is asked of the classes in
    [classes], which are found by their names; names of other things in the modules
    of the library are not considered. [Err] is an exception that nobody catches. *)
Definition judge (say : exn -> str) (x : expectation) (actual : option exn) : result (tresult * option str) :=
  let expected := match ex_type x with Some t => t | None => no_exception end in
  let name := match actual with Some e => hd [] (classes e) | None => no_exception end in
  let instance := match actual with Some e => mem expected (classes e) | None => false end in
  if negb (str_eqb name expected) && negb instance then
    Ok (R_FAIL, Some (lit "Expected " ++ quote expected ++ lit " but got " ++ quote name ++ lit ", message: "
                        ++ quote (match actual with Some e => say e | None => lit "None" end)))
  else
    match actual with
    | None => Ok (R_OK, None)
    | Some e =>
        do wrong <- match truthy (ex_receipt x) with
                    | None => Ok None
                    | Some r =>
                        match exn_receipt e with
                        | None => Err PyAttributeError
                        | Some r' => Ok (if str_eqb r' r then None else Some (r, r'))
                        end
                    end;
        match wrong with
        | Some (r, r') =>
            Ok (R_FAIL, Some (lit "Expected " ++ quote expected ++ lit " at receipt " ++ quote r ++ lit " but it occured at " ++ quote r' ++ lit " instead"))
        | None =>
            let text := say e in
            if match ex_msg x with Some m => negb (str_eqb text m) | None => false end then
              Ok (R_FAIL, Some (lit "Expected message " ++ quote (match ex_msg x with Some m => m | None => [] end)
                                  ++ lit " but got " ++ quote text ++ lit " instead"))
            else
              match ex_regex x with
              | Some (p, f) =>
                  if f text then Ok (R_OK, None)
                  else Ok (R_FAIL, Some (lit "Expected message matching " ++ quote p ++ lit " but got " ++ quote text ++ lit " instead"))
              | None => Ok (R_OK, None)
              end
        end
    end.

(** 178-187, 222-235: the end of the loop. Exceptions that are not about receipts or
    DEPs are errors. *)
Definition conclude (say : exn -> str) (x : expectation) (o : outcome) : result (tresult * option str) :=
  match o with
  | T_ok _ => judge say x None
  | T_raised e =>
      match classes e with
      | [] => Ok (R_ERROR, Some (say e))
      | _ => judge say x (Some e)
      end
  | T_turnover a b => Ok (R_FAIL, Some (lit "Expected " ++ fmt_d a ++ lit " in turnover counter but got " ++ fmt_d b ++ lit "."))
  | T_parsers n => Ok (R_FAIL, Some (lit "Incremental and dict parser yield different results at chunksize " ++ fmt_d (Z.of_nat n) ++ lit "."))
  | T_state => Ok (R_FAIL, Some (lit "State update without verification failed."))
  | T_ids => Ok (R_FAIL, Some (lit "List of used receipt IDs invalid."))
  end.

(** librksv/test/test_verify.py:296-312 testVerify, from the DEPs on: both ways, the results
    of which have to be the same *)
Definition shown (m : option str) : str := match m with Some s => s | None => lit "None" end.
Definition res_name (r : tresult) : str := match r with R_OK => lit "OK" | R_FAIL => lit "FAIL" | R_ERROR => lit "ERROR" end.
Definition res_eqb (a b : tresult) : bool :=
  match a, b with R_OK, R_OK | R_FAIL, R_FAIL | R_ERROR, R_ERROR => true | _, _ => false end.
Definition test_both (w : world) (say : exn -> str) (sch : nat -> schedule) (random : nat -> nat) (x : expectation) (ks : keystore)
    (key : bytes) (b : backend) (deps : list json) : result (tresult * option str) :=
  do rn <- conclude say x (testVerify w ks key b deps);
  do rp <- conclude say x (parse_deps w sch random ks (Some key) (new_cluster b) [] 0 deps);
  if res_eqb (fst rn) (fst rp) && str_eqb (shown (snd rn)) (shown (snd rp)) then Ok rn
  else Ok ((match fst rn, fst rp with R_ERROR, _ | _, R_ERROR => R_ERROR | _, _ => R_FAIL end),
           Some (lit "Result mismatch: without parsing " ++ res_name (fst rn) ++ lit ":>" ++ shown (snd rn)
                   ++ lit "<, with parsing " ++ res_name (fst rp) ++ lit ":>" ++ shown (snd rp) ++ lit "<")).

(** librksv/test/test_verify.py:297-301: the DEPs of a specification *)
Definition test_spec (w : world) (say : exn -> str) (sch : nat -> schedule) (random : nat -> nat) (x : expectation) (ks : keystore)
    (id : str) (key : bytes) (size : nat) (multi : bool) (devs : list device) (b : backend) (l : list instr)
  : result (tresult * option str) :=
  match runTest w id key size multi devs l with
  | Err e => Ok (R_ERROR, Some (say e))
  | Ok deps => test_both w say sch random x ks key b deps
  end.
