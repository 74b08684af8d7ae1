(** C75 Faults of the last receipt. *)
From Coq Require Import Floats.SpecFloat.
From Verif Require Import PyBase World Codec PyFloat PyTime Algo Receipt SpecReceipt Json KeyStore VerifyReceipt State DepParser Verify DepExport
  SpecDep SpecCluster SpecDoc SpecChunks SpecAmount SpecState SpecReading SpecDiag CashReg SpecCashReg Override SpecOverride LastTheorems
  ExampleWorld ExampleReceipts ExampleDep ExampleDiag ExampleCashReg ExampleOverride ExampleLast.
Open Scope N_scope.

(** If all receipts but the last one are in order, then verification one after another
    and verification in parallel both reject the DEP for the last receipt, and name
    rules that it violates; the exception is the same if it cannot be read, or if it
    violates one rule only. *)
Theorem C75_both : forall w sch ks key c idx before reg after p gs ts items t v, hash_ok w -> isolated sch -> usual_cluster c ->
  texts_encodable ks gs -> selects c idx before reg after -> past_of w reg p -> start_readable w (start_of_last before) ->
  trust_rule w ks (occupied gs) -> dep_texts ks gs = ts ++ [(t, v)] -> Forall2 (text_item w) ts items ->
  valid_sequence w key (start_of_last before) reg (c_used c) p items ->
  (forall r, reads w t r -> ~ valid_sequence w key (start_of_last before) reg (c_used c) p (items ++ [Item t r v])) ->
  forall dep nparts n, dep_is w dep gs ->
  exists c' e e', verifyDEP w dep ks key c idx = (c', Some e)
    /\ verifyParsedDEP w sch (parse_dict w nparts dep n) ks key c idx = (c', Some e')
    /\ ((text_fault w t e /\ e' = e)
        \/ exists r reg1, reads w t r /\ register_after key reg p items reg1
           /\ fault w key (start_of_last before) reg1 (used_after (c_used c) items) (last_of p items) (Item t r v) e
           /\ fault w key (start_of_last before) reg1 (used_after (c_used c) items) (last_of p items) (Item t r v) e').
Proof. exact both_dict. Qed.
Print Assumptions C75_both.

(** The same for files, which are read in parts *)
Theorem C75_file : forall w sch ks key c idx before reg after p gs ts items t v, hash_ok w -> isolated sch -> usual_cluster c ->
  texts_encodable ks gs -> selects c idx before reg after -> past_of w reg p -> start_readable w (start_of_last before) ->
  trust_rule w ks (occupied gs) -> dep_texts ks gs = ts ++ [(t, v)] -> Forall2 (text_item w) ts items ->
  valid_sequence w key (start_of_last before) reg (c_used c) p items ->
  (forall r, reads w t r -> ~ valid_sequence w key (start_of_last before) reg (c_used c) p (items ++ [Item t r v])) ->
  forall doc n, dep_doc w doc gs -> plain_names doc ->
  exists c' e e', verifyDEP w (load doc) ks key c idx = (c', Some e)
    /\ verifyParsedDEP w sch (parse_inc w P_file doc n) ks key c idx = (c', Some e')
    /\ ((text_fault w t e /\ e' = e)
        \/ exists r reg1, reads w t r /\ register_after key reg p items reg1
           /\ fault w key (start_of_last before) reg1 (used_after (c_used c) items) (last_of p items) (Item t r v) e
           /\ fault w key (start_of_last before) reg1 (used_after (c_used c) items) (last_of p items) (Item t r v) e').
Proof. exact both_file. Qed.
Print Assumptions C75_file.

Example C75_both_case : let ts := [ex_t1; ex_w_counter] in
  dep_is toy_world (ex_dep_of_texts1 ts) (ex_last_gs ts) /\ texts_encodable ex_ks (ex_last_gs ts) /\ trust_rule toy_world ex_ks (occupied (ex_last_gs ts))
  /\ usual_cluster ex_start /\ selects ex_start None [] new_register [] /\ past_of toy_world new_register None /\ start_readable toy_world (start_of_last [])
  /\ dep_texts ex_ks (ex_last_gs ts) = [(ex_t1, fromCert ex_cert)] ++ [(ex_w_counter, fromCert ex_cert)]
  /\ exists items, Forall2 (text_item toy_world) [(ex_t1, fromCert ex_cert)] items
  /\ valid_sequence toy_world (Some ex_key) None new_register (Unique []) None items
  /\ forall r, reads toy_world ex_w_counter r ->
       ~ valid_sequence toy_world (Some ex_key) None new_register (Unique []) None (items ++ [Item ex_w_counter r (fromCert ex_cert)]).
Proof. exact ex_last_hyps. Qed.

(** Overrides that break one rule, as in C74, at the last receipt lead to the same
    exception in both ways. *)
Theorem C75_injected : forall w sch ks b key id k size g0 l q v o g recs texts g' r t gs dep nparts n e, hash_ok w -> aes_ok w -> isolated sch ->
  identifier id -> List.length k = 32%nat -> new_cashreg id None 0 k size = Ok g0 -> key = None \/ key = Some k ->
  orderly w size b (l ++ [(q, v)]) ->
  issue_all w g0 (map fst l) = (g, Ok recs) -> mapM (fun r : rtuple => toJWSString (fst r) (snd r)) recs = Ok texts ->
  issue_over w g (lit "R1") o q = (g', Ok r) -> toJWSString r (lit "R1") = Ok t -> injected w b key g (map fst l) q v r o e ->
  dep_is w dep gs -> texts_encodable ks gs -> trust_rule w ks (occupied gs) ->
  dep_texts ks gs = combine texts (map snd l) ++ [(t, v)] ->
  exists c', verifyDEP w dep ks key (new_cluster b) None = (c', Some e)
    /\ verifyParsedDEP w sch (parse_dict w nparts dep n) ks key (new_cluster b) None = (c', Some e).
Proof. exact injected_both. Qed.
Print Assumptions C75_injected.

Example C75_injected_case : forall sch nparts n, isolated sch ->
  exists c', verifyDEP toy_world (ex_dep_of_texts1 (ex_over_texts ++ [ex_dup_text])) ex_ks (Some ex_key) (new_cluster B_unique) None = (c', Some (DuplicateReceiptId (lit "1")))
    /\ verifyParsedDEP toy_world sch (parse_dict toy_world nparts (ex_dep_of_texts1 (ex_over_texts ++ [ex_dup_text])) n) ex_ks (Some ex_key) (new_cluster B_unique) None
        = (c', Some (DuplicateReceiptId (lit "1"))).
Proof. exact ex_last_injected. Qed.

(** A receipt that violates several rules may be rejected for one of them one way, and
    for another one the other way. *)
Theorem C75_same_refuted : exists w sch dep n ks key c e e', hash_ok w /\ isolated sch /\ usual_cluster c
  /\ (forall gs, dep_is w dep gs -> certs_or_one gs)
  /\ snd (verifyDEP w dep ks key c None) = Some e
  /\ snd (verifyParsedDEP w sch (parse_dict w 1 dep n) ks key c None) = Some e' /\ e <> e'.
Proof. exact ex_two_refuted. Qed.
Print Assumptions C75_same_refuted.
