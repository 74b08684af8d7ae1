(** What the verdict on a single receipt depends on. *)
From Verif Require Import PyBase World Regex Codec PyFloat Algo Receipt Json KeyStore VerifyReceipt SpecReceipt ReceiptFacts
  RoundTrip RoundTrip2 CodecFacts2 FormFacts ExampleWorld ExampleReceipts ExampleDep ExampleKeys.
Open Scope N_scope.
Open Scope py_scope.

(** ** C44 Verified string is the signed string *)

(** If a receipt is accepted, the signature in it is valid for header and payload
    in canonical encoding. *)
Theorem C44_signed w v s r alg : verifyJWS w v s = Ok (r, alg) ->
  exists k p b, choose_key w v r = Ok (Some k) /\ jws_bytes s p b
    /\ w_es256_verify w k (b64url_nopad es256_header ++ [c_dot] ++ b64url_nopad p) b = true.
Proof. exact (accepted_signed w v s r alg). Qed.
Print Assumptions C44_signed.

(** If the text is canonically encoded, it is exactly what was signed, ... *)
Theorem C44_exact w v s r alg : verifyJWS w v s = Ok (r, alg) -> jws_canonical s ->
  exists k i b, choose_key w v r = Ok (Some k) /\ s = i ++ [c_dot] ++ b64url_nopad b /\ w_es256_verify w k i b = true.
Proof. exact (accepted_exact w v s r alg). Qed.
Print Assumptions C44_exact.

(** ... and no other canonically encoded text has the same payload and signature. *)
Theorem C44_unique s s' p b : jws_canonical s -> jws_canonical s' -> jws_bytes s p b -> jws_bytes s' p b -> s = s'.
Proof. exact (canonical_unique s s' p b). Qed.
Print Assumptions C44_unique.

(** Without canonical encoding the claim is false, ... *)
Theorem C44_refuted : exists w v s s' p b r r' alg,
  verifyJWS w v s = Ok (r, alg) /\ verifyJWS w v s' = Ok (r', alg)
  /\ jws_bytes s p b /\ jws_bytes s' p b /\ s <> s'.
Proof.
  exists toy_world, (fromCert ex_cert), ex_t2, ex_t2_other.
  exists (decoded (part ex_t2 1)), (decoded (part ex_t2 2)), ex_t2_receipt, (rec_of (fromJWSString toy_world ex_t2_other)), (lit "R1").
  split; [vm_compute; reflexivity|]. split; [vm_compute; reflexivity|].
  split; [|split; [|discriminate]].
  - exists (part ex_t2 0), (part ex_t2 1), (part ex_t2 2). split; [vm_compute; reflexivity|].
    split; [split; vm_compute; reflexivity|]. split; split; vm_compute; reflexivity.
  - exists (part ex_t2_other 0), (part ex_t2_other 1), (part ex_t2_other 2). split; [vm_compute; reflexivity|].
    split; [split; vm_compute; reflexivity|]. split; split; vm_compute; reflexivity.
Qed.
Print Assumptions C44_refuted.

(** ... as the verdict never depends on the encoding, unless the signature is the
    marker of a failed signature device. *)
Theorem C44_encodings w v s s' p b : jws_bytes s p b -> jws_bytes s' p b -> b <> fail_marker ->
  (exists x, fromJWSString w s = Ok x) -> verdict (verifyJWS w v s) = verdict (verifyJWS w v s').
Proof. exact (same_bytes_verdict w v s s' p b). Qed.
Print Assumptions C44_encodings.

Example C44_example :
  verifyJWS toy_world (fromCert ex_cert) ex_t2 = Ok (ex_t2_receipt, lit "R1") /\ jws_canonical ex_t2.
Proof.
  split; [vm_compute; reflexivity|].
  exists (part ex_t2 0), (part ex_t2 1), (part ex_t2 2).
  split; [vm_compute; reflexivity|].
  assert (forall n, (n < 3)%nat -> forallb is_b64url_char (part ex_t2 n) = true) as C.
  { intros n L. destruct n as [|[|[|n]]]; [vm_compute; reflexivity..|]. exfalso. apply PeanoNat.Nat.lt_nge in L. apply L.
    do 3 apply le_n_S. apply PeanoNat.Nat.le_0_l. }
  assert (forall s, forallb is_b64url_char s = true -> Forall is_url_char s) as U.
  { intros s F. apply Forall_forall. intros x Hx. rewrite forallb_forall in F. apply F in Hx. unfold is_b64url_char, is_url_char in *.
    unfold is_az, is_AZ, is_09 in Hx. rewrite !Bool.orb_true_iff, !Bool.andb_true_iff, !N.eqb_eq, !N.leb_le in Hx. tauto. }
  split; [split; [apply U, C; repeat constructor|vm_compute; tauto]|].
  split; (split; [apply U, C; repeat constructor|vm_compute; tauto]).
Qed.

(** ** C45 Format independence of verification *)

(** The QR code of a receipt gets the same verdict and the same receipt as its JWS
    form if the signature is canonically encoded. *)
Theorem C45_qr w v s r alg q : fromJWSString w s = Ok (r, alg) -> toBasicCode r alg = Ok q ->
  forall sg, r_sig r = Some (es256_header, sg) -> canon_seg sg -> verifyBasicCode w v q = verifyJWS w v s.
Proof. exact (qr_verdict w v s r alg q). Qed.
Print Assumptions C45_qr.

Theorem C45_csv w v s r alg csv : fromJWSString w s = Ok (r, alg) -> csv_safe w (r_fields r) -> toCSV r alg = Ok csv ->
  forall sg, r_sig r = Some (es256_header, sg) -> canon_seg sg -> verifyCSV w v csv = verifyJWS w v s.
Proof. exact (csv_verdict w v s r alg csv). Qed.
Print Assumptions C45_csv.

(** The OCR code as well, in Python 2. *)
Theorem C45_ocr w v s r alg o : fromJWSString w s = Ok (r, alg) -> b64decode (r_encTC r) <> Ok [] -> toOCRCode r alg = Ok o ->
  forall sg, r_sig r = Some (es256_header, sg) -> canon_seg sg -> canon64 (r_encTC r) -> canon64 (r_previousChain r) ->
  verifyOCRCode w Py2 v o = verifyJWS w v s.
Proof. exact (ocr_verdict w v s r alg o). Qed.
Print Assumptions C45_ocr.

(** Any other encoding of the signature changes only the encoding in the result,
    unless it is the marker of a failed signature device. *)
Theorem C45_encodings w v s r alg q b : fromJWSString w s = Ok (r, alg) -> toBasicCode r alg = Ok q ->
  sig_value r b -> b <> fail_marker ->
  verifyBasicCode w v q = match verifyJWS w v s with Ok _ => Ok (canonical_sig r b, alg) | Err e => Err e end.
Proof. exact (qr_verdict_any w v s r alg q b). Qed.
Print Assumptions C45_encodings.

(** In this case the verdicts differ. *)
Theorem C45_marker_refuted : exists w v s r q e e',
  fromJWSString w s = Ok (r, lit "R1") /\ toBasicCode r (lit "R1") = Ok q
  /\ verifyJWS w v s = Err (InvalidSignature e) /\ verifyBasicCode w v q = Err (SignatureSystemFailed e').
Proof.
  exists toy_world, (fromCert ex_cert), ex_marker_jws, ex_marker_read, ex_marker_qr, (lit "3"), (lit "3").
  repeat (split; [vm_compute; reflexivity|]). vm_compute. reflexivity.
Qed.
Print Assumptions C45_marker_refuted.

Example C45_example : exists q csv,
  toBasicCode ex_t2_receipt (lit "R1") = Ok q /\ toCSV ex_t2_receipt (lit "R1") = Ok csv
  /\ verifyJWS toy_world (fromCert ex_cert) ex_t2 = Ok (ex_t2_receipt, lit "R1")
  /\ verifyBasicCode toy_world (fromCert ex_cert) q = Ok (ex_t2_receipt, lit "R1")
  /\ verifyCSV toy_world (fromCert ex_cert) csv = Ok (ex_t2_receipt, lit "R1")
  /\ verifyOCRCode toy_world Py2 (fromCert ex_cert) (text_of (toOCRCode ex_t2_receipt (lit "R1"))) = Ok (ex_t2_receipt, lit "R1").
Proof.
  exists (text_of (toBasicCode ex_t2_receipt (lit "R1"))), (text_of (toCSV ex_t2_receipt (lit "R1"))).
  repeat (split; [vm_compute; reflexivity|]). vm_compute. reflexivity.
Qed.
