(** C72 Verdicts about tests. *)
From Coq Require Import Floats.SpecFloat.
From Verif Require Import PyBase World Codec PyFloat PyTime Algo Receipt SpecReceipt SpecKeys Json KeyStore VerifyReceipt State DepParser Verify DepExport
  SpecDep SpecCluster SpecChunks SpecAmount CashReg SpecCashReg RunTest SpecRunTest SpecDiag SpecState TestVerify SpecTestVerify TestVerifyFacts
  ExampleWorld ExampleDep ExampleCashReg ExampleRunTest ExampleTestVerify.
Open Scope N_scope.

(** A test that expects no exception passes if and only if its DEPs can be made and are
    verified one after another with the stated turnovers: verification in parallel,
    the comparison of the parsers, and the state computed without verification never
    change this, however the processes are run and whatever number is drawn. *)
Theorem C72_positive : forall w say sch random x ks id key size multi devs b l m, hash_ok w -> (forall i, isolated (sch i)) -> ex_type x = None ->
  test_spec w say sch random x ks id key size multi devs b l = Ok (R_OK, m) <->
  m = None /\ exists deps c, runTest w id key size multi devs l = Ok deps /\ testVerify w ks key b deps = T_ok c.
Proof. exact positive_verdict. Qed.
Print Assumptions C72_positive.

(** Specifications that follow the rules of C67 pass. *)
Theorem C72_accepted : forall w say sch random x ks b id key size multi devs l qs, hash_ok w -> aes_ok w -> pem_ok w ->
  identifier id -> List.length key = 32%nat -> (5 <= size <= 16)%nat ->
  test_rules w ks size b multi devs l qs -> newest_in_use l (owners 1 0 l) ->
  (forall i, isolated (sch i)) -> ex_type x = None ->
  test_spec w say sch random x ks id key size multi devs b l = Ok (R_OK, None).
Proof. exact rules_pass. Qed.
Print Assumptions C72_accepted.

Example C72_accepted_case : test_rules toy_world ex_ks 8 B_natural true ex_devs ex_test (ex_asked ex_test) /\ newest_in_use ex_test (owners 1 0 ex_test)
  /\ forall b random, isolated (ex_run_pool b)
    /\ test_spec toy_world ex_say (fun _ => ex_run_pool b) random (ex_expect None None) ex_ks (lit "REG-1") ex_key 8 true ex_devs B_natural ex_test = Ok (R_OK, None).
Proof. exact (conj ex_test_rules (conj ex_test_newest (fun b random => conj (ex_run_isolated b) (ex_test_passes b random)))). Qed.

(** Every test passes if and only if its DEPs can be made and both ways of verification
    end as expected: without an exception, or with one of the expected class or a class
    derived from it, at the expected receipt and with the expected message. *)
Theorem C72_verdict : forall w say sch random x ks id key size multi devs b l m,
  test_spec w say sch random x ks id key size multi devs b l = Ok (R_OK, m) <->
  m = None /\ exists deps, runTest w id key size multi devs l = Ok deps
    /\ as_expected say x (testVerify w ks key b deps)
    /\ as_expected say x (parse_deps w sch random ks (Some key) (new_cluster b) [] 0 deps).
Proof. exact spec_ok. Qed.
Print Assumptions C72_verdict.

(** On DEPs all groups of which have certificates, or which have only one group, both
    ways end alike: with the same state, the same wrong turnover, or both with an
    exception. The parsers never disagree, nor do the states. *)
Theorem C72_alike : forall w ks key b deps sch random, hash_ok w -> (forall i, isolated (sch i)) -> Forall (regular_dep w) deps ->
  alike (testVerify w ks key b deps) (parse_deps w sch random ks (Some key) (new_cluster b) [] 0 deps).
Proof. exact totals_alike. Qed.
Print Assumptions C72_alike.

Example C72_alike_case : Forall (regular_dep toy_world) ex_twice_deps
  /\ testVerify toy_world ex_ks ex_key B_unique ex_twice_deps = T_raised (DecreasingDate (lit "2"))
  /\ forall b, parse_deps toy_world (fun _ => ex_run_pool b) (fun _ => 2%nat) ex_ks (Some ex_key) (new_cluster B_unique) [] 0 ex_twice_deps
       = T_raised (DecreasingDate (lit (if b then "2" else "4"))).
Proof. exact (conj ex_twice_regular (conj ex_twice_raised ex_twice_parsed)). Qed.

(** If a test that expects an exception passes, then one of the DEPs made is rejected
    after all those before it have been accepted, with an exception as expected, and
    the rules of C71 are broken as this exception says. *)
Theorem C72_fault : forall w say sch random x ks id key size multi devs b l m t, hash_ok w ->
  ex_type x = Some t -> t <> lit "no Exception" ->
  test_spec w say sch random x ks id key size multi devs b l = Ok (R_OK, m) ->
  exists l1 dep l2 c r c1 e, runTest w id key size multi devs l = Ok (l1 ++ dep :: l2)
    /\ testVerify w ks key b l1 = T_ok c
    /\ verifyDEP w dep ks (Some key) c (Some (Z.of_nat r)) = (c1, Some e)
    /\ expects say x (Some e)
    /\ forall gs, dep_is w dep gs -> texts_encodable ks gs ->
       exists before reg after p, selects c (Some (Z.of_nat r)) before reg after /\ past_of w reg p
         /\ diagnosis w ks (Some key) (start_of_last before) reg (c_used c) p gs e.
Proof. exact passed_fault. Qed.
Print Assumptions C72_fault.

Example C72_fault_case : ex_type ex_late = Some (lit "DecreasingDateException") /\ ex_receipt ex_late = Some (lit "2")
  /\ test_spec toy_world ex_say (fun _ => ex_run_pool true) (fun _ => 2%nat) ex_late ex_ks (lit "REG-1") ex_key 8 true ex_devs B_unique ex_twice = Ok (R_OK, None)
  /\ (exists dep, ex_twice_deps = [dep] /\ dep_is toy_world dep ex_twice_gs) /\ texts_encodable ex_ks ex_twice_gs.
Proof. exact (conj eq_refl (conj eq_refl (conj (ex_twice_verdict true) (conj ex_twice_is ex_twice_encodable)))). Qed.

(** The exceptions that a test may expect at a receipt are those about receipts; those
    about faults of receipts name the receipt that is at fault, but for one. *)
Theorem C72_receipts : forall e, ((exists r, exn_receipt e = Some r) <->
    derived (hd [] (classes e)) (lit "ReceiptException") \/ derived (hd [] (classes e)) (lit "DEPReceiptException")
    \/ hd [] (classes e) = lit "DuplicateReceiptIdException")
  /\ forall w key prevStart reg u p i, fault w key prevStart reg u p i e -> verification_exception e ->
       exn_receipt e = Some (r_receiptId (i_rec i)) \/ e = ClusterInOpenSystem.
Proof. exact (fun e => conj (exn_receipt_class e) (fun w key ps reg u p i => fault_receipt w key ps reg u p i e)). Qed.
Print Assumptions C72_receipts.

Example C72_receipts_case : derived (hd [] (classes (InvalidTurnoverCounter (lit "2")))) (lit "DEPReceiptException")
  /\ verification_exception (InvalidTurnoverCounter (lit "2")).
Proof. split; apply classes_spec; try discriminate; cbn; tauto. Qed.

(** Whether a test that expects an exception at a certain receipt passes may depend on
    which process is the first to fail. *)
Theorem C72_schedule_refuted : exists w say sch1 sch2 random x ks id key size multi devs b l m, hash_ok w
  /\ (forall i, isolated (sch1 i)) /\ (forall i, isolated (sch2 i))
  /\ (exists deps, runTest w id key size multi devs l = Ok deps /\ Forall (regular_dep w) deps)
  /\ test_spec w say sch1 random x ks id key size multi devs b l = Ok (R_OK, None)
  /\ test_spec w say sch2 random x ks id key size multi devs b l = Ok (R_FAIL, m).
Proof. exact ex_twice_refuted. Qed.
Print Assumptions C72_schedule_refuted.

(** If certificates are omitted, it may depend on the chunk size drawn. *)
Theorem C72_random_refuted : exists w say sch random1 random2 x ks id key size multi devs b l m, hash_ok w /\ (forall i, isolated (sch i))
  /\ test_spec w say sch random1 x ks id key size multi devs b l = Ok (R_OK, None)
  /\ test_spec w say sch random2 x ks id key size multi devs b l = Ok (R_FAIL, m).
Proof. exact ex_omitted_refuted. Qed.
Print Assumptions C72_random_refuted.

(** A test that states a receipt, but whose expected exception is about none, ends
    with an AttributeError instead of a verdict. *)
Theorem C72_receipt_refuted : exists w say sch random x ks id key size multi devs b l, hash_ok w /\ (forall i, isolated (sch i))
  /\ (exists deps e, runTest w id key size multi devs l = Ok deps /\ testVerify w ks key b deps = T_raised e /\ ex_type x = Some (hd [] (classes e)))
  /\ test_spec w say sch random x ks id key size multi devs b l = Err PyAttributeError.
Proof. exact ex_attribute_refuted. Qed.
Print Assumptions C72_receipt_refuted.
