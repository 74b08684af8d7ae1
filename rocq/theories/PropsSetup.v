(** C78 The keys, certificates and signature devices of tests. *)
From Coq Require Import Floats.SpecFloat.
From Verif Require Import PyBase World Codec PyFloat PyTime Algo Receipt SpecReceipt SpecKeys Json Pem KeyStore VerifyReceipt State DepParser Verify DepExport
  SpecDep SpecCluster SpecChunks SpecAmount CashReg SpecCashReg RunTest SpecRunTest SpecDiag SpecState SpecPool TestVerify SpecTestVerify TestSetup SpecSetup SetupFacts SetupTest
  ExampleWorld ExampleDep ExampleCashReg ExamplePool ExampleRunTest ExampleTestVerify ExampleSetup SetupRead.
Open Scope N_scope.

(** The devices made for a specification in order fit the key store made with them: the
    key store knows their keys, or trusts the certificates exported for them. The key
    store is the same after it was written to a file and read again. *)
Theorem C78_devices : forall w own m sp closed mats, maker_ok w own m -> pem_ok w -> cert_keys_ok w ->
  setup_ok w own m sp closed mats -> ts_number sp = Z.of_nat (List.length mats) ->
  exists devs ks, make_devices w m sp closed 0 mats [] = Ok (devs, ks)
    /\ List.length devs = List.length mats
    /\ Forall (device_fit w ks (ts_multi sp)) devs
    /\ Forall (fun d => dv_zda d = lit "AT0" <-> closed = true) devs
    /\ forall o, readStoreFromJson w (writeStoreToJson w ks o) = Ok ks.
Proof. exact setup_works. Qed.
Print Assumptions C78_devices.

Example C78_devices_case : maker_ok toy_world toy_own toy_maker /\ setup_ok toy_world toy_own toy_maker ex_sp_open false (ex_mats false 2)
  /\ make_devices toy_world toy_maker ex_sp_open false 0 (ex_mats false 2) []
     = Ok ([Device (lit "AT1") (lit "5a") [7] (Some ex_cert) []; Device (lit "AT2") (lit "14") [19] (Some [20; 19; 20]) [[21; 20; 7]; ex_cert]],
           [(lit "5a", KeyTuple [7] (Some ex_cert))]).
Proof. split; [exact toy_maker_ok|]. split; [exact ex_setup_open|]. vm_compute. reflexivity. Qed.

(** With such devices, instructions in order meet the rules of C67. *)
Theorem C78_rules : forall w closed size b ks multi devs l,
  instructions_ok w closed (List.length devs) size b l -> Forall (device_fit w ks multi) devs ->
  Forall (fun d => dv_zda d = lit "AT0" <-> closed = true) devs ->
  exists qs, test_rules w ks size b multi devs l qs /\ newest_in_use l (owners 1 0 l).
Proof. exact rules_exist. Qed.
Print Assumptions C78_rules.

Example C78_rules_case : instructions_ok toy_world true 2 8 B_natural ex_test /\ instructions_ok toy_world false 2 8 B_unique ex_open.
Proof. split; [exact ex_test_instructions|exact ex_open_instructions]. Qed.

(** A test as a whole passes if its specification is in order and it expects no
    exception: devices, keys and certificates are made, receipts are issued and
    exported, keys are written and read, and both ways of verification accept. *)
Theorem C78_passes : forall w own m say sch random x b sp pub priv closed key,
  hash_ok w -> aes_ok w -> pem_ok w -> cert_keys_ok w -> maker_ok w own m ->
  setup_ok w own m sp closed (repeat (pub, priv) (Z.to_nat (ts_number sp))) -> (0 <= ts_number sp)%Z ->
  loadB64Key (ts_aes sp) = Ok key -> List.length key = 32%nat -> identifier (ts_id sp) -> (5 <= counter_size sp None <= 16)%nat ->
  instructions_ok w closed (Z.to_nat (ts_number sp)) (counter_size sp None) b (ts_instrs sp) ->
  (forall i, isolated (sch i)) -> ex_type x = None ->
  testVerify_full w m say sch random x b sp pub priv closed = Ok (R_OK, None).
Proof. exact test_passes. Qed.
Print Assumptions C78_passes.

Example C78_passes_case : setup_ok toy_world toy_own toy_maker ex_sp_closed true (ex_mats true 2)
  /\ setup_ok toy_world toy_own toy_maker ex_sp_decimal false (ex_mats false 2)
  /\ forall b random,
     testVerify_full toy_world toy_maker ex_say (fun _ => ex_run_pool b) random (ex_expect None None) B_natural ex_sp_closed ex_pub ex_prv true = Ok (R_OK, None)
  /\ testVerify_full toy_world toy_maker ex_say (fun _ => ex_run_pool b) random (ex_expect None None) B_unique ex_sp_open ex_crt ex_prv false = Ok (R_OK, None)
  /\ testVerify_full toy_world toy_maker ex_say (fun _ => ex_run_pool b) random (ex_expect None None) B_unique ex_sp_decimal ex_crt ex_prv false = Ok (R_OK, None).
Proof. exact (conj ex_setup_closed (conj ex_setup_decimal (fun b random => conj (ex_full_closed b random) (conj (ex_full_open b random) (ex_full_decimal b random))))). Qed.

(** If the key store made for a test cannot be read again, the test is reported as an error, whatever
    exception it expects. *)
Theorem C78_unreadable : forall w m say sch random x b sp pub priv closed deps cc e,
  runTest_full w m sp (repeat (pub, priv) (Z.to_nat (ts_number sp))) closed None = Ok (deps, cc) -> readStoreFromJson w cc = Err e ->
  testVerify_full w m say sch random x b sp pub priv closed = Ok (R_ERROR, Some (say e)).
Proof. exact unreadable. Qed.
Print Assumptions C78_unreadable.

Example C78_unreadable_case : exists deps cc, runTest_full mute_world toy_maker ex_sp_closed (repeat (ex_pub, ex_prv) 2) true None = Ok (deps, cc)
  /\ readStoreFromJson mute_world cc = Err KeyStoreError.
Proof. exact ex_mute. Qed.
