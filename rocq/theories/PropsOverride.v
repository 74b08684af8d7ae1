(** C74: receipts with overrides. *)
From Coq Require Import Floats.SpecFloat.
From Verif Require Import PyBase World Codec PyFloat PyTime Algo Receipt SpecReceipt Json KeyStore VerifyReceipt State DepParser Verify DepExport
  SpecDep SpecCluster CashReg SpecCashReg Override SpecOverride OverrideFacts OverrideCaught
  ExampleWorld ExampleDep ExampleDiag ExampleCashReg ExampleRemote ExampleOverride.
Open Scope N_scope.

(** Without overrides, receipts are the regular ones. *)
Theorem C74_none : (forall w g p q, issue_over w g p no_override q = issue w g p q)
  /\ (forall w qs g, issue_all_over w g (map (fun q => (q, no_override)) qs) = issue_all w g qs).
Proof. exact (conj issue_none issue_all_none). Qed.
Print Assumptions C74_none.

Example C74_none_case : issue_all_over toy_world ex_g0 (map (fun q => (q, no_override)) [ex_q1]) = (ex_over_g, Ok ex_over_recs) /\ ex_over_recs <> [].
Proof. split; [vm_compute; reflexivity|discriminate]. Qed.

(** A receipt has the values that are overridden and otherwise those requested. The
    register keeps its ID and key; counter and size of the counter remain as overridden.
    Unless header or signature are overridden, the text of the receipt is what the
    next receipt is chained to. *)
Theorem C74_fields : forall w g p o q g' r, issue_over w g p o q = (g', Ok r) ->
  carries o g q r /\ cr_id g' = cr_id g /\ cr_key g' = cr_key g /\ value_of (ov_size o) (cr_size g) (cr_size g')
  /\ (forall c, ov_counter o = Some c -> cr_counter g' = c)
  /\ exists jws p', cr_last g' = Some jws /\ value_of (ov_prefix o) p p'
     /\ (ov_header o = None -> ov_signature o = None -> toJWSString r p' = Ok jws).
Proof. exact over_fields. Qed.
Print Assumptions C74_fields.

Example C74_fields_case : exists g' r, issue_over toy_world ex_over_g (lit "R1") (only_counter 7) ex_q3 = (g', Ok r)
  /\ cr_counter g' = 7%Z /\ r_sumAStr r = lit "1,50" /\ toJWSString r (lit "R1") = Ok (match cr_last g' with Some s => s | None => [] end).
Proof. eexists _, _. split; [vm_compute; reflexivity|]. split; [reflexivity|]. split; [reflexivity|]. vm_compute. reflexivity. Qed.

(** An override that breaks one rule leads to the exception of that rule, at that receipt,
    whatever follows. *)
Theorem C74_caught : forall w ks b key id k size g0 l q v o g recs texts g' r t gs dep rest e, hash_ok w -> aes_ok w ->
  identifier id -> List.length k = 32%nat -> new_cashreg id None 0 k size = Ok g0 -> key = None \/ key = Some k ->
  orderly w size b (l ++ [(q, v)]) -> issue_all w g0 (map fst l) = (g, Ok recs) ->
  mapM (fun r : rtuple => toJWSString (fst r) (snd r)) recs = Ok texts ->
  issue_over w g (lit "R1") o q = (g', Ok r) -> toJWSString r (lit "R1") = Ok t -> injected w b key g (map fst l) q v r o e ->
  dep_is w dep gs -> texts_encodable ks gs -> trust_rule w ks (occupied gs) ->
  dep_texts ks gs = combine texts (map snd l) ++ (t, v) :: rest ->
  exists c', verifyDEP w dep ks key (new_cluster b) None = (c', Some e).
Proof. exact injected_caught. Qed.
Print Assumptions C74_caught.

(** Whatever follows a receipt with the ID of another *)
Example C74_caught_case : forall rest, Forall (fun t => exists b, utf8_encode t = Ok b) rest ->
  exists c', verifyDEP toy_world (ex_dep_of_texts1 (ex_over_texts ++ ex_dup_text :: rest)) ex_ks (Some ex_key) (new_cluster B_unique) None
    = (c', Some (DuplicateReceiptId (lit "1"))).
Proof. exact ex_over_caught. Qed.

(** All kinds of overrides are met by examples. *)
Example C74_injected_case : let inj := injected toy_world B_unique (Some ex_key) ex_over_g [ex_q1] ex_q3 (fromCert ex_cert) in
  (forall r, inj r (only_id (lit "1")) (DuplicateReceiptId (lit "1")))
  /\ (forall r, inj r (only_register (lit "REG-2")) (ChangingRegisterId (lit "2")))
  /\ (forall r, inj r (only_device (lit "AT0") (lit "U:ATU12345678-K1")) (ChangingSystemType (lit "2")))
  /\ (forall r, inj r (only_time (strftime (Dt 2017 1 31 9 59 59))) (DecreasingDate (lit "2")))
  /\ (forall r, inj r (only_chain (b64encode (repeat 0 8))) (ChainingError (lit "2")))
  /\ (forall r, inj r (only_counter 7) (InvalidTurnoverCounter (lit "2")))
  /\ (forall r, inj r (only_sum (fmt_sum (float_of_cents false 750))) (InvalidTurnoverCounter (lit "2")))
  /\ inj ex_other_signature (only_signature (b64url_nopad [1; 2; 3])) (InvalidSignature (lit "2"))
  /\ (forall r, inj r (only_serial (lit "5b")) (CertSerialMismatch (lit "2"))).
Proof. exact ex_injected. Qed.
Example C74_injected_key_case :
  injected toy_world B_unique (Some ex_key) ex_over_g [ex_q1] ex_q3 (fromKeyStore ex_ks) ex_other_serial (only_serial (lit "5b")) (NoPublicKey (lit "2")).
Proof. exact ex_injected_key. Qed.

(** An outage that is feigned by the outage marker as signature is accepted, but the
    next receipt is chained to the signed text that was replaced, and rejected although
    the requests are orderly with a broken device. *)
Theorem C74_signature_refuted : exists w ks k g q1 q2 q3 broken v g' recs texts dep2 dep c2 c,
  hash_ok w /\ aes_ok w /\ new_cashreg (cr_id g) None 0 k 8 = Ok g
  /\ orderly w 8 B_unique [(q1, v); (with_sys q2 broken, v); (q3, v)]
  /\ issue_all_over w g [(q1, no_override); (q2, only_signature marker); (q3, no_override)] = (g', Ok recs)
  /\ mapM (fun r : rtuple => toJWSString (fst r) (snd r)) recs = Ok texts
  /\ (exists gs, dep_is w dep gs /\ dep_texts ks gs = combine texts [v; v; v])
  /\ (exists gs, dep_is w dep2 gs /\ dep_texts ks gs = combine (firstn 2 texts) [v; v])
  /\ verifyDEP w dep2 ks (Some k) (new_cluster B_unique) None = (c2, None)
  /\ verifyDEP w dep ks (Some k) (new_cluster B_unique) None = (c, Some (ChainingError (q_id q3))).
Proof. exact feigned_outage. Qed.
Print Assumptions C74_signature_refuted.
