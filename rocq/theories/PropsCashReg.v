(** Generated DEPs: theorems about the cash register of the demo (C39). *)
From Coq Require Import Floats.SpecFloat.
From Verif Require Import PyBase World Codec PyFloat PyTime Algo Receipt SpecReceipt SpecKeys Json Pem KeyStore State VerifyReceipt DepParser Verify DepExport
  SpecDep SpecCluster SpecAmount SpecExport CashReg SpecCashReg CashRegFacts CashRegSeq ExampleWorld ExampleDep ExampleCashReg.
Open Scope N_scope.

(** A register that is used according to the rules makes a DEP that is accepted,
    with or without the AES key. Afterwards the verifier's state agrees with that
    of the register. *)
Theorem C39_accepted : forall w ks b key id k size g bs extra,
  hash_ok w -> aes_ok w -> pem_ok w ->
  identifier id -> List.length k = 32%nat -> new_cashreg id None 0 k size = Ok g ->
  key = None \/ key = Some k ->
  batch_certs_loaded w bs -> batches_trusted w ks bs -> extra_ok extra ->
  batch_requests ks bs <> [] -> orderly w size b (batch_requests ks bs) ->
  exists g' gs dep reg', issue_groups w g bs = (g', Ok gs) /\ export w (gs, None) extra = Ok dep
    /\ verifyDEP w (load dep) ks key (new_cluster b) None
       = (Cluster [reg'] (fold_left used_add (map (fun qv => q_id (fst qv)) (batch_requests ks bs)) (used_new b)), None)
    /\ requests_turnover (map fst (batch_requests ks bs)) (cr_counter g')
    /\ s_last reg' = cr_last g' /\ (key <> None -> s_counter reg' = cr_counter g').
Proof. exact register_accepted. Qed.
Print Assumptions C39_accepted.

(** Hypotheses met: two days of a shop with an outage, training and a cancellation *)
Example C39_accepted_case : exists g' gs dep reg',
  issue_groups toy_world (CashReg (lit "REG-1") None 0 ex_key 8) ex_batches = (g', Ok gs)
  /\ export toy_world (gs, None) [] = Ok dep
  /\ verifyDEP toy_world (load dep) ex_ks (Some ex_key) (new_cluster B_natural) None
     = (Cluster [reg'] (fold_left used_add (map (fun qv => q_id (fst qv)) (batch_requests ex_ks ex_batches)) (used_new B_natural)), None)
  /\ cr_counter g' = 510%Z.
Proof. exact ex_register. Qed.

(** Without the condition on amounts: a sum of 0.005 is printed as 0,01 but not
    added to the turnover counter. *)
Theorem C39_subcent_refuted : exists w ks b k g c q1 q2 x g' gs dep cl,
  hash_ok w /\ aes_ok w /\ pem_ok w
  /\ orderly w 8 b (batch_requests ks [Batch (Some c) [] [q1; q2]])
  /\ x = float_of_ratio false 1 200
  /\ new_cashreg (cr_id g) None 0 k 8 = Ok g
  /\ issue_groups w g [Batch (Some c) [] [q1; with_sumA q2 x]] = (g', Ok gs)
  /\ export w (gs, None) [] = Ok dep
  /\ verifyDEP w (load dep) ks (Some k) (new_cluster b) None = (cl, Some (InvalidTurnoverCounter (q_id q2))).
Proof. exact ex_subcent. Qed.
Print Assumptions C39_subcent_refuted.

(** A call that fails nevertheless changes the turnover counter, so that the DEP
    with the receipts that were made is rejected. *)
Theorem C39_failed_call_refuted : exists w ks b k g c q1 q2 bad g1 g2 g3 r1 r2 e dep cl,
  hash_ok w /\ aes_ok w /\ pem_ok w
  /\ orderly w 8 b (batch_requests ks [Batch (Some c) [] [q1; q2]])
  /\ new_cashreg (cr_id g) None 0 k 8 = Ok g
  /\ issue w g (lit "R1") q1 = (g1, Ok r1)
  /\ issue w g1 (lit "R1") bad = (g2, Err e) /\ cr_counter g2 <> cr_counter g1
  /\ issue w g2 (lit "R1") q2 = (g3, Ok r2)
  /\ export w ([RGroup [(r1, lit "R1"); (r2, lit "R1")] (Some c) []], None) [] = Ok dep
  /\ verifyDEP w (load dep) ks (Some k) (new_cluster b) None = (cl, Some (InvalidTurnoverCounter (q_id q2))).
Proof. exact ex_failed_call. Qed.
Print Assumptions C39_failed_call_refuted.
