(** C77 Why a text cannot be read, and tests of unreadable receipts. *)
From Verif Require Import PyBase World Codec Receipt SpecReceipt ReceiptFacts SpecKeys Json KeyStore VerifyReceipt State DepParser Verify DepExport
  SpecDep SpecCluster SpecState CashReg SpecCashReg CashRegFacts Override SpecOverride RunTest SpecRunTest TestVerify SpecTestVerify
  SpecReading ReadingFacts PrintedFacts SpecGarbled GarbledFacts GarbledTest
  ExampleWorld ExampleDep ExampleCashReg ExampleRunTest ExampleTestVerify ExampleRunTestOver ExampleReading.
Open Scope N_scope.

(** Reading a text in JWS form fails with an exception if and only if the text has the
    fault that the exception stands for. The faults are described by the grammar, each
    with the name it is reported under. *)
Theorem C77_jws : forall w s e, encodable s -> fromJWSString w s = Err e <-> text_fault w s e.
Proof. exact jws_diagnosis. Qed.
Print Assumptions C77_jws.

(** The same for QR codes *)
Theorem C77_qr : forall w s e, encodable s -> fromBasicCode w s = Err e <-> code_fault w s e.
Proof. exact qr_diagnosis. Qed.
Print Assumptions C77_qr.

(** For a text that was printed from elements, the fault is seen from these elements. *)
Theorem C77_printed : forall w r alg h sg t e, toJWSString r alg = Ok t -> r_sig r = Some (h, sg) -> encodable t ->
  fromJWSString w t = Err e <-> printed_fault w alg (r_fields r) h sg t e.
Proof. exact printed_diagnosis. Qed.
Print Assumptions C77_printed.

(** A receipt made with one of the overrides in SpecGarbled.v cannot be read, and the
    exception is the one given there. *)
Theorem C77_garbled : forall w v g o q g' r t e, hash_ok w -> aes_ok w -> register_ok g -> request_ok w v q ->
  issue_over w g (lit "R1") o q = (g', Ok r) -> toJWSString r (given (ov_prefix o) (lit "R1")) = Ok t ->
  (forall s, ov_signature o = Some s -> encodable s) -> garbled w q t o e -> fromJWSString w t = Err e.
Proof. exact garbled_text. Qed.
Print Assumptions C77_garbled.

(** A test specification whose last instruction has such an override: the DEP is made,
    and verification in sequence and in parallel both end with this exception. *)
Theorem C77_outcomes : forall w sch random ks b id key size multi devs l lq i q v g0 g recs g' r t e,
  hash_ok w -> aes_ok w -> pem_ok w -> (forall n, isolated (sch n)) ->
  identifier id -> List.length key = 32%nat -> new_cashreg id None 0 key size = Ok g0 ->
  Forall (fun j => in_new j = NO_NEW_DEP) (l ++ [i]) -> Forall2 (asked ks multi devs) l lq -> wanted ks multi devs i (q, v) ->
  orderly w size b (lq ++ [(q, v)]) -> devices_trusted w ks multi devs (l ++ [i]) ->
  issue_all w g0 (map fst lq) = (g, Ok recs) -> issue_over w g (lit "R1") (in_over i) q = (g', Ok r) ->
  toJWSString r (given (ov_prefix (in_over i)) (lit "R1")) = Ok t ->
  (forall s, ov_signature (in_over i) = Some s -> encodable s) -> garbled w q t (in_over i) e ->
  exists dep, runTest w id key size multi devs (l ++ [i]) = Ok [dep]
    /\ testVerify w ks key b [dep] = T_raised e
    /\ parse_deps w sch random ks (Some key) (new_cluster b) [] 0 [dep] = T_raised e.
Proof. exact garbled_outcomes. Qed.
Print Assumptions C77_outcomes.

(** The test passes if and only if it expects this exception. *)
Theorem C77_verdict : forall w say sch random x ks b id key size multi devs l lq i q v g0 g recs g' r t e,
  hash_ok w -> aes_ok w -> pem_ok w -> (forall n, isolated (sch n)) ->
  identifier id -> List.length key = 32%nat -> new_cashreg id None 0 key size = Ok g0 ->
  Forall (fun j => in_new j = NO_NEW_DEP) (l ++ [i]) -> Forall2 (asked ks multi devs) l lq -> wanted ks multi devs i (q, v) ->
  orderly w size b (lq ++ [(q, v)]) -> devices_trusted w ks multi devs (l ++ [i]) ->
  issue_all w g0 (map fst lq) = (g, Ok recs) -> issue_over w g (lit "R1") (in_over i) q = (g', Ok r) ->
  toJWSString r (given (ov_prefix (in_over i)) (lit "R1")) = Ok t ->
  (forall s, ov_signature (in_over i) = Some s -> encodable s) -> garbled w q t (in_over i) e ->
  test_spec w say sch random x ks id key size multi devs b (l ++ [i]) = Ok (R_OK, None) <-> expects say x (Some e).
Proof. exact garbled_test. Qed.
Print Assumptions C77_verdict.

Example C77_case : Forall (fun te => text_fault toy_world (fst te) (snd te (fst te))) ex_texts
  /\ Forall (fun te => code_fault toy_world (fst te) (snd te (fst te))) ex_codes
  /\ (forall t, Forall (fun oe => garbled toy_world ex_third_q t (fst oe) (snd oe t)) ex_garbled)
  /\ Forall (fun oe => exists t, ex_garbled_text (fst oe) = Some t /\ forall say sch random x, (forall n, isolated (sch n)) ->
      (exists dep, runTest toy_world (lit "REG-1") ex_key 8 true ex_devs (ex_before ++ [ex_over (fst oe)]) = Ok [dep]
        /\ testVerify toy_world ex_ks ex_key B_unique [dep] = T_raised (snd oe t)
        /\ parse_deps toy_world sch random ex_ks (Some ex_key) (new_cluster B_unique) [] 0 [dep] = T_raised (snd oe t))
      /\ (test_spec toy_world say sch random x ex_ks (lit "REG-1") ex_key 8 true ex_devs B_unique (ex_before ++ [ex_over (fst oe)]) = Ok (R_OK, None)
          <-> expects say x (Some (snd oe t)))) ex_garbled
  /\ expects ex_say (ex_expect (Some (lit "MalformedReceiptException")) (Some (lit "Unknown Receipt"))) (Some (MalformedReceipt (lit "Unknown Receipt")))
  /\ ~ expects ex_say (ex_expect (Some (lit "MalformedReceiptException")) (Some (lit "3"))) (Some (MalformedReceipt (lit "Unknown Receipt"))).
Proof. exact (conj ex_texts_fault (conj ex_codes_fault (conj ex_garbled_all (conj ex_garbled_case ex_garbled_expected)))). Qed.
