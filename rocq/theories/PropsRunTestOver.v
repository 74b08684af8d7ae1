(** C76 Tests with a faulty last receipt. *)
From Verif Require Import PyBase World Codec Receipt SpecReceipt SpecKeys Json KeyStore VerifyReceipt State DepParser Verify DepExport
  SpecDep SpecCluster SpecState CashReg SpecCashReg Override SpecOverride RunTest SpecRunTest TestVerify SpecTestVerify RunTestOver
  ExampleWorld ExampleDep ExampleCashReg ExampleRunTest ExampleTestVerify ExampleRunTestOver.
Open Scope N_scope.

(** A test specification for one DEP: instructions that follow the rules, the last one
    with an override of C74. The DEP is made, and verification in sequence and in
    parallel both end with the exception that is due, whatever the schedule and the
    chunk size drawn. *)
Theorem C76_outcomes : forall w sch random ks b id key size multi devs l lq i q v g0 g recs g' r t e,
  hash_ok w -> aes_ok w -> pem_ok w -> (forall n, isolated (sch n)) ->
  identifier id -> List.length key = 32%nat -> new_cashreg id None 0 key size = Ok g0 ->
  Forall (fun j => in_new j = NO_NEW_DEP) (l ++ [i]) -> Forall2 (asked ks multi devs) l lq -> wanted ks multi devs i (q, v) ->
  orderly w size b (lq ++ [(q, v)]) -> devices_trusted w ks multi devs (l ++ [i]) ->
  issue_all w g0 (map fst lq) = (g, Ok recs) -> issue_over w g (lit "R1") (in_over i) q = (g', Ok r) -> toJWSString r (lit "R1") = Ok t ->
  injected w b (Some key) g (map fst lq) q v r (in_over i) e ->
  exists dep, runTest w id key size multi devs (l ++ [i]) = Ok [dep]
    /\ testVerify w ks key b [dep] = T_raised e
    /\ parse_deps w sch random ks (Some key) (new_cluster b) [] 0 [dep] = T_raised e.
Proof. exact faulty_outcomes. Qed.
Print Assumptions C76_outcomes.

(** The test passes if and only if it expects this exception. *)
Theorem C76_verdict : forall w say sch random x ks b id key size multi devs l lq i q v g0 g recs g' r t e,
  hash_ok w -> aes_ok w -> pem_ok w -> (forall n, isolated (sch n)) ->
  identifier id -> List.length key = 32%nat -> new_cashreg id None 0 key size = Ok g0 ->
  Forall (fun j => in_new j = NO_NEW_DEP) (l ++ [i]) -> Forall2 (asked ks multi devs) l lq -> wanted ks multi devs i (q, v) ->
  orderly w size b (lq ++ [(q, v)]) -> devices_trusted w ks multi devs (l ++ [i]) ->
  issue_all w g0 (map fst lq) = (g, Ok recs) -> issue_over w g (lit "R1") (in_over i) q = (g', Ok r) -> toJWSString r (lit "R1") = Ok t ->
  injected w b (Some key) g (map fst lq) q v r (in_over i) e ->
  test_spec w say sch random x ks id key size multi devs b (l ++ [i]) = Ok (R_OK, None) <-> expects say x (Some e).
Proof. exact faulty_test. Qed.
Print Assumptions C76_verdict.

Example C76_case : Forall2 (asked ex_ks true ex_devs) ex_before (ex_asked ex_before)
  /\ orderly toy_world 8 B_unique (ex_asked ex_before ++ [(ex_third_q, ex_third_v)])
  /\ (forall r, Forall (fun oe => injected toy_world B_unique (Some ex_key) ex_third_g (map fst (ex_asked ex_before)) ex_third_q ex_third_v r (fst oe) (snd oe)) ex_faulty)
  /\ Forall (fun oe => forall say sch random x, (forall n, isolated (sch n)) ->
      (exists dep, runTest toy_world (lit "REG-1") ex_key 8 true ex_devs (ex_before ++ [ex_over (fst oe)]) = Ok [dep]
        /\ testVerify toy_world ex_ks ex_key B_unique [dep] = T_raised (snd oe)
        /\ parse_deps toy_world sch random ex_ks (Some ex_key) (new_cluster B_unique) [] 0 [dep] = T_raised (snd oe))
      /\ (test_spec toy_world say sch random x ex_ks (lit "REG-1") ex_key 8 true ex_devs B_unique (ex_before ++ [ex_over (fst oe)]) = Ok (R_OK, None)
          <-> expects say x (Some (snd oe)))) ex_faulty
  /\ expects ex_say (ex_expect (Some (lit "InvalidTurnoverCounterException")) (Some (lit "3"))) (Some (InvalidTurnoverCounter (lit "3")))
  /\ ~ expects ex_say (ex_expect (Some (lit "InvalidTurnoverCounterException")) (Some (lit "2"))) (Some (InvalidTurnoverCounter (lit "3"))).
Proof.
  split; [apply ex_asked_ok; repeat constructor|]. split; [exact ex_third_orderly|]. split; [exact ex_third_injected|]. split; [exact ex_faulty_case|].
  exact (conj (proj1 ex_faulty_expected) (proj1 (proj2 ex_faulty_expected))).
Qed.
