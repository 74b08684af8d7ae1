(** C67 Test specifications. *)
From Coq Require Import Floats.SpecFloat.
From Verif Require Import PyBase World Codec PyFloat PyTime Algo Receipt SpecReceipt SpecKeys Json KeyStore VerifyReceipt State DepParser Verify DepExport
  SpecDep SpecCluster SpecAmount CashReg SpecCashReg RunTest SpecRunTest RunTestFacts RunTestSeq ExampleWorld ExampleDep ExampleCashReg ExampleRunTest.
Open Scope N_scope.

(** The DEPs made from a specification that follows the rules are accepted one after
    another: each is taken for the register it belongs to, there are as many registers
    and DEPs as specified, the turnover counters are those of the registers'
    instructions, and all receipt IDs are recorded. *)
Theorem C67_accepted : forall w ks b id key size multi devs l qs, hash_ok w -> aes_ok w -> pem_ok w ->
  identifier id -> List.length key = 32%nat -> (5 <= size <= 16)%nat ->
  test_rules w ks size b multi devs l qs -> newest_in_use l (owners 1 0 l) ->
  exists deps c, runTest w id key size multi devs l = Ok deps /\ testVerify w ks key b deps = T_ok c
    /\ List.length deps = S (List.length (filter starts_dep l))
    /\ (forall r, (r < List.length (c_regs c))%nat <-> In r (owners 1 0 l))
    /\ (forall r reg z, nth_error (c_regs c) r = Some reg -> requests_turnover (map fst (of_register r (combine (owners 1 0 l) qs))) z -> s_counter reg = z)
    /\ c_used c = fold_left used_add (map (fun qv => q_id (fst qv)) qs) (used_new b).
Proof. exact runTest_accepted. Qed.
Print Assumptions C67_accepted.

(** Hypotheses met: a cluster of three closed registers with two devices, an outage,
    two continued registers and stated turnovers *)
Example C67_accepted_case : test_rules toy_world ex_ks 8 B_natural true ex_devs ex_test (ex_asked ex_test)
  /\ newest_in_use ex_test (owners 1 0 ex_test)
  /\ exists deps c, runTest toy_world (lit "REG-1") ex_key 8 true ex_devs ex_test = Ok deps
    /\ testVerify toy_world ex_ks ex_key B_natural deps = T_ok c /\ List.length deps = 5%nat
    /\ List.length (c_regs c) = 3%nat
    /\ (exists r0 r1 r2, c_regs c = [r0; r1; r2] /\ s_counter r0 = 1350%Z /\ s_counter r1 = 500%Z)
    /\ c_used c = Natural (Some (lit "1")) (Some (lit "7")).
Proof. exact (conj ex_test_rules (conj ex_test_newest ex_test_accepted)). Qed.

(** If a register is added while another one than that added last is in use, the index
    of the register in use becomes wrong, and a DEP that continues a register may name
    a DEP of another one. *)
Theorem C67_index_refuted : exists w ks b id key size multi devs l qs deps, hash_ok w /\ aes_ok w /\ pem_ok w
  /\ identifier id /\ List.length key = 32%nat /\ (5 <= size <= 16)%nat /\ test_rules w ks size b multi devs l qs
  /\ runTest w id key size multi devs l = Ok deps /\ testVerify w ks key b deps = T_raised (ChainingError (lit "5")).
Proof. exact ex_index. Qed.
Print Assumptions C67_index_refuted.

(** A stated turnover of zero is ignored. *)
Theorem C67_zero_refuted : exists w ks b id key size multi devs l x deps c r, hash_ok w /\ aes_ok w /\ pem_ok w
  /\ is_zero x /\ map in_turnover l = [None; Some x]
  /\ runTest w id key size multi devs l = Ok deps /\ testVerify w ks key b deps = T_ok c /\ c_regs c = [r] /\ s_counter r = 1250%Z.
Proof. exact ex_zero_total. Qed.
Print Assumptions C67_zero_refuted.
