(** What the exceptions of verification say. *)
From Verif Require Import PyBase World Codec Receipt Json KeyStore VerifyReceipt State DepParser Verify SpecReceipt ReceiptFacts SpecDep SpecCluster
  ClusterFacts VerifyFacts StepFacts SpecState SpecChunks SpecReading SpecDiag DiagFacts CaughtFacts ExampleWorld ExampleReceipts ExampleDep ExampleDiag.
Open Scope N_scope.

(** ** C71 Rejections name the first fault *)

(** The exception that rejects a DEP is about the first group that is not trusted or the
    first receipt that is wrong, names it, and names a rule that is violated. *)
Theorem C71_diagnosis w dep gs ks key c idx before reg after p c' e : hash_ok w ->
  dep_is w dep gs -> texts_encodable ks gs -> selects c idx before reg after -> past_of w reg p ->
  start_readable w (start_of_last before) ->
  verifyDEP w dep ks key c idx = (c', Some e) ->
  diagnosis w ks key (start_of_last before) reg (c_used c) p gs e.
Proof. exact (verifyDEP_diag w dep gs ks key c idx before reg after p c' e). Qed.
Print Assumptions C71_diagnosis.

Example C71_diagnosis_case :
  diagnosis toy_world ex_ks (Some ex_key) None new_register (Unique []) None ex_gs_wrong (InvalidTurnoverCounter (lit "2")).
Proof.
  destruct ex_wrong_rejected as [c' R].
  apply (C71_diagnosis toy_world ex_wrong ex_gs_wrong ex_ks (Some ex_key) ex_start None [] new_register [] None c' _
           toy_hash_ok ex_wrong_is ex_wrong_encodable); [| | |exact R].
  - constructor; [now left|now left].
  - left. reflexivity.
  - exists None. left. reflexivity.
Qed.

(** Such a diagnosis is always a reason to reject. *)
Theorem C71_right w ks key prevStart reg u p gs e :
  diagnosis w ks key prevStart reg u p gs e ->
  forall items, Forall2 (text_item w) (dep_texts ks gs) items -> items <> [] ->
  trust_rule w ks (occupied gs) -> ~ valid_sequence w key prevStart reg u p items.
Proof. exact (diagnosis_right w ks key prevStart reg u p gs e). Qed.
Print Assumptions C71_right.

(** Whatever follows it, the first receipt that breaks the sequence is the one that is
    reported, with a rule that it violates. *)
Theorem C71_located w dep gs ks key c idx before reg after' p ts items t v rest : hash_ok w ->
  dep_is w dep gs -> texts_encodable ks gs -> selects c idx before reg after' -> past_of w reg p -> start_readable w (start_of_last before) ->
  trust_rule w ks (occupied gs) -> dep_texts ks gs = ts ++ (t, v) :: rest -> Forall2 (text_item w) ts items ->
  valid_sequence w key (start_of_last before) reg (c_used c) p items ->
  (forall r, reads w t r -> ~ valid_sequence w key (start_of_last before) reg (c_used c) p (items ++ [Item t r v])) ->
  exists c' e, verifyDEP w dep ks key c idx = (c', Some e)
    /\ (text_fault w t e
        \/ exists r reg1, reads w t r /\ register_after key reg p items reg1
           /\ fault w key (start_of_last before) reg1 (used_after (c_used c) items) (last_of p items) (Item t r v) e).
Proof. exact (verifyDEP_first w dep gs ks key c idx before reg after' p ts items t v rest). Qed.
Print Assumptions C71_located.

Example C71_located_case : exists items,
  dep_texts ex_ks ex_gs_wrong = [(ex_t1, fromCert ex_cert)] ++ (ex_w_counter, fromCert ex_cert) :: [(ex_t3, fromCert ex_cert)]
  /\ Forall2 (text_item toy_world) [(ex_t1, fromCert ex_cert)] items
  /\ valid_sequence toy_world (Some ex_key) None new_register (Unique []) None items
  /\ forall r, reads toy_world ex_w_counter r ->
       ~ valid_sequence toy_world (Some ex_key) None new_register (Unique []) None (items ++ [Item ex_w_counter r (fromCert ex_cert)]).
Proof. exact ex_first_wrong. Qed.

(** So is the fault of a single receipt ... *)
Theorem C71_fault w key prevStart reg u p i e : proper (i_ver i) -> reads w (i_jws i) (i_rec i) ->
  fault w key prevStart reg u p i e -> forall l, ~ valid_sequence w key prevStart reg u p (i :: l).
Proof. exact (fun Pv R F l V => fault_wrong w key prevStart reg u p i e Pv R F (proj1 (proj1 (DepFacts.valid_cons w key prevStart reg u p i l) V))). Qed.
Print Assumptions C71_fault.

Example C71_fault_case : exists r, reads toy_world ex_t2 r
  /\ fault toy_world (Some ex_key) None new_register (Unique []) None (Item ex_t2 r (fromCert ex_cert)) (NonzeroTurnoverOnInitial (lit "2")).
Proof.
  destruct (step_diag toy_world (Some ex_key) None (fromCert ex_cert) (VState None None new_register (Unique [])) ex_t2 None ex_t2
              (NonzeroTurnoverOnInitial (lit "2"))) as [U|(r & R & F)].
  - left. now exists ex_cert.
  - split; [reflexivity|]. split; [reflexivity|exact I].
  - exists None. now left.
  - vm_compute. reflexivity.
  - exists ex_t2. vm_compute. reflexivity.
  - vm_compute. reflexivity.
  - destruct (fault_unread _ _ _ ex_t2_receipt U). apply parse_reads with (alg := lit "R1"). vm_compute. reflexivity.
  - eauto.
Qed.

(** ... and that of a certificate. *)
Theorem C71_cert w ks c chain e : cert_fault w ks c chain e -> ~ trusted w ks c chain.
Proof. exact (cert_fault_untrusted w ks c chain e). Qed.
Print Assumptions C71_cert.

Example C71_cert_case : cert_fault toy_world ex_ks [1; 9; 7] [] (UntrustedCertificate (lit "1")).
Proof. apply cert_diag; [exact toy_hash_ok|]. vm_compute. reflexivity. Qed.

(** In parallel, another receipt may be named than the first that is wrong; which one
    depends on the schedule. *)
Theorem C71_parallel_refuted : exists w dep n ks key c sch1 sch2 a b, hash_ok w /\ isolated sch1 /\ isolated sch2
  /\ usual_cluster c /\ (forall gs, dep_is w dep gs -> certs_or_one gs)
  /\ snd (verifyDEP w dep ks key c None) = Some (InvalidTurnoverCounter a)
  /\ snd (verifyParsedDEP w sch1 (parse_dict w 1 dep n) ks key c None) = Some (InvalidTurnoverCounter a)
  /\ snd (verifyParsedDEP w sch2 (parse_dict w 1 dep n) ks key c None) = Some (InvalidTurnoverCounter b)
  /\ a <> b.
Proof. exact ex_w_refuted. Qed.
Print Assumptions C71_parallel_refuted.
