(** Faulty texts and garbled receipts in the toy world. *)
From Coq Require Import Floats.SpecFloat Lia.
From Verif Require Import PyBase World Regex Codec CodecFacts PyFloat PyTime Algo Receipt SpecReceipt FieldFacts ReceiptFacts SpecKeys Json ListFacts Pem KeyStore VerifyReceipt State DepParser Verify DepExport
  SpecDep SpecCluster SpecAmount SpecState CashReg SpecCashReg CashRegFacts Override SpecOverride RunTest SpecRunTest RunTestFacts RunTestSeq TestVerify SpecTestVerify TestVerifyFacts
  RunTestOver SpecReading ReadingFacts PrintedFacts SpecGarbled GarbledFacts GarbledTest
  ExampleWorld ExampleDep ExampleCashReg ExampleRunTest ExampleTestVerify ExampleRunTestOver.
Open Scope N_scope.

(** Texts with a header, the elements and a signature *)
Definition ex_text (h alg zda id time a tc serial : str) : str :=
  b64url_nopad h ++ [c_dot] ++ b64url_nopad (join [c_us] [[]; alg ++ [c_dash] ++ zda; lit "REG-1"; id; time; a; lit "0,00"; lit "0,00"; lit "0,00"; lit "0,00"; tc; serial; lit "AAAAAAAAAAA="])
  ++ [c_dot] ++ lit "AAAA".
Definition ex_time : str := lit "2017-01-01T08:00:00".
Definition ex_texts : list (str * (str -> exn)) :=
  [(lit "a.b", MalformedReceipt);
   (ex_text es256_header (lit "X1") (lit "AT1") (lit "1") ex_time (lit "0,00") (lit "VFJB") (lit "5a"), MalformedReceipt);
   (ex_text es256_header (lit "R2") (lit "AT1") (lit "1") ex_time (lit "0,00") (lit "VFJB") (lit "5a"), UnknownAlgorithm);
   (ex_text (lit "{}") (lit "R1") (lit "AT1") (lit "1") ex_time (lit "0,00") (lit "VFJB") (lit "5a"), AlgorithmMismatch);
   (ex_text es256_header (lit "R1") (lit "AT1") [] ex_time (lit "0,00") (lit "VFJB") (lit "5a"), fun _ => MalformedReceipt (lit "Unknown Receipt"));
   (ex_text es256_header (lit "R1") (lit "AT1") (lit "1") ex_time (lit "0.00") (lit "VFJB") (lit "5a"), fun _ => MalformedReceipt (lit "1"));
   (ex_text es256_header (lit "R1") (lit "AT1") (lit "1") ex_time (lit "0,00") [] (lit "5a"), MalformedReceipt);
   (ex_text es256_header (lit "R1") (lit "AT1") (lit "1") ex_time (lit "0,00") (lit "VFJB") (lit "#"), fun _ => CertSerialInvalid (lit "1"));
   (ex_text es256_header (lit "R1") (lit "AT0") (lit "1") ex_time (lit "0,00") (lit "VFJB") (lit "5a"), fun _ => InvalidCertificateProvider (lit "1"))].
Lemma ex_texts_fault : Forall (fun te => text_fault toy_world (fst te) (snd te (fst te))) ex_texts.
Proof. unfold ex_texts. repeat (apply Forall_cons; [|]); try apply Forall_nil; (apply jws_diagnosis; [eexists; vm_compute; reflexivity|vm_compute; reflexivity]). Qed.

Definition ex_code (alg zda serial g : str) : str :=
  join [c_us] [[]; alg ++ [c_dash] ++ zda; lit "REG-1"; lit "1"; ex_time; lit "0,00"; lit "0,00"; lit "0,00"; lit "0,00"; lit "0,00"; lit "VFJB"; serial; lit "AAAAAAAAAAA="; g].
Definition ex_codes : list (str * (str -> exn)) :=
  [(lit "_R1-AT1", MalformedReceipt);
   (ex_code (lit "R3") (lit "AT1") (lit "5a") (lit "AAAA"), UnknownAlgorithm);
   (ex_code (lit "R1") (lit "AT1") (lit "5a") (lit "AAA"), MalformedReceipt);
   (ex_code (lit "R1") (lit "AT0") (lit "5a") (lit "AAAA"), fun _ => InvalidCertificateProvider (lit "1"))].
Lemma ex_codes_fault : Forall (fun te => code_fault toy_world (fst te) (snd te (fst te))) ex_codes.
Proof. unfold ex_codes. repeat (apply Forall_cons; [|]); try apply Forall_nil; (apply qr_diagnosis; [eexists; vm_compute; reflexivity|vm_compute; reflexivity]). Qed.

(** Overrides of the third receipt *)
Definition ex_garbled : list (override * (str -> exn)) :=
  [(only_header (lit "{}"), AlgorithmMismatch);
   (only_prefix (lit "R2"), UnknownAlgorithm);
   (only_prefix (lit "X1"), MalformedReceipt);
   (only_id (lit "a_b"), MalformedReceipt);
   (only_zda (lit "A-T"), MalformedReceipt);
   (only_id [], fun _ => MalformedReceipt (lit "Unknown Receipt"));
   (only_register [], fun _ => MalformedReceipt (lit "3"));
   (only_zda (lit "AT"), fun _ => MalformedReceipt (lit "3"));
   (only_zda (lit "AT1"), fun _ => InvalidCertificateProvider (lit "3"));
   (only_time (lit "2017-01-01"), fun _ => MalformedReceipt (lit "3"));
   (only_sum (lit "1.00"), fun _ => MalformedReceipt (lit "3"));
   (only_serial [], fun _ => MalformedReceipt (lit "3"));
   (only_serial (lit "#"), fun _ => CertSerialInvalid (lit "3"));
   (only_serial (lit "5a"), fun _ => InvalidCertificateProvider (lit "3"));
   (only_tc [], MalformedReceipt);
   (only_tc (lit "AAAA"), fun _ => MalformedReceipt (lit "3"));
   (only_chain (lit "AAAA"), fun _ => MalformedReceipt (lit "3"));
   (only_signature (lit "a.b"), MalformedReceipt);
   (only_signature (lit "A"), fun _ => MalformedReceipt (lit "3"))].

Local Ltac not_in := cbn; intuition discriminate.
Local Ltac no_match := intros X; match type of X with
  | alg_text _ _ => apply alg_spec in X | zda_text _ _ => apply zda_spec in X | amount_text _ _ => apply amount_spec in X end; vm_compute in X; discriminate X.

Lemma ex_garbled_all t : Forall (fun oe => garbled toy_world ex_third_q t (fst oe) (snd oe t)) ex_garbled.
Proof.
  unfold ex_garbled. repeat (apply Forall_cons; [cbn [fst snd]; try change (lit "3") with (q_id ex_third_q)|]). 20: apply Forall_nil.
  - apply gb_header. discriminate.
  - apply gb_unknown; [|discriminate]. apply alg_spec. vm_compute. reflexivity.
  - apply gb_prefix. no_match.
  - apply (gb_separator _ _ _ (lit "a_b")); [apply oe_id|]. cbn. auto.
  - apply gb_dash. cbn. auto.
  - apply gb_no_id.
  - apply gb_no_register.
  - apply gb_zda; [no_match|not_in|not_in].
  - apply gb_provider; [apply zda_spec; vm_compute; reflexivity|]. intros [_ X]. specialize (X eq_refl). discriminate X.
  - apply gb_time; [|not_in]. intros d X. apply strptime_spec in X. vm_compute in X. discriminate X.
  - apply (gb_amount _ _ _ (lit "1.00")); [apply oa_a|no_match|not_in].
  - apply gb_no_serial.
  - apply gb_serial; [discriminate| |not_in]. intros [X|X]; [apply key_id_spec in X|apply cert_serial_spec in X]; vm_compute in X; intuition discriminate.
  - apply gb_key; [apply cert_serial_spec; vm_compute; reflexivity|reflexivity|not_in].
  - apply gb_no_counter. intros c [].
  - apply (gb_counter _ _ _ _ 65); [cbn; auto|discriminate| |not_in]. intros (b & E & X). vm_compute in E. apply Ok_inj in E. subst b. cbn in X.
    destruct X as [X|[X|[X|X]]]; try discriminate X. lia.
  - apply gb_chain; [|not_in]. intros b E. vm_compute in E. apply Ok_inj in E. subst b. discriminate.
  - apply gb_segment. intros [X _]. apply X. cbn. auto.
  - apply gb_signature; [split; [not_in|reflexivity]|]. intros b [_ E]. vm_compute in E. discriminate E.
Qed.

(** The text of the third receipt *)
Definition ex_garbled_text (o : override) : option str :=
  match issue_over toy_world ex_third_g (lit "R1") o ex_third_q with
  | (_, Ok r) => match toJWSString r (given (ov_prefix o) (lit "R1")) with Ok t => Some t | Err _ => None end
  | (_, Err _) => None
  end.
Lemma ex_garbled_texts : Forall (fun oe => (exists t, ex_garbled_text (fst oe) = Some t) /\ forall s, ov_signature (fst oe) = Some s -> encodable s) ex_garbled.
Proof.
  unfold ex_garbled. repeat (apply Forall_cons; [|]); try apply Forall_nil; (split; [eexists; vm_compute; reflexivity|]);
    intros s E; try discriminate E; apply Some_inj in E; subst s; eexists; vm_compute; reflexivity.
Qed.

Lemma ex_garbled_case : Forall (fun oe => exists t, ex_garbled_text (fst oe) = Some t /\ forall say sch random x, (forall n, isolated (sch n)) ->
  (exists dep, runTest toy_world (lit "REG-1") ex_key 8 true ex_devs (ex_before ++ [ex_over (fst oe)]) = Ok [dep]
    /\ testVerify toy_world ex_ks ex_key B_unique [dep] = T_raised (snd oe t)
    /\ parse_deps toy_world sch random ex_ks (Some ex_key) (new_cluster B_unique) [] 0 [dep] = T_raised (snd oe t))
  /\ (test_spec toy_world say sch random x ex_ks (lit "REG-1") ex_key 8 true ex_devs B_unique (ex_before ++ [ex_over (fst oe)]) = Ok (R_OK, None)
      <-> expects say x (Some (snd oe t)))) ex_garbled.
Proof.
  apply Forall_forall. intros [o e] I. cbn [fst snd].
  pose proof ex_garbled_texts as Tx. rewrite Forall_forall in Tx. destruct (Tx _ I) as ((t & Et) & Es). cbn [fst] in Et, Es. exists t. split; [exact Et|].
  intros say sch random x Iso. unfold ex_garbled_text in Et.
  destruct (issue_over toy_world ex_third_g (lit "R1") o ex_third_q) as [g' [r|]] eqn:Eo; [|discriminate Et].
  destruct (toJWSString r (given (ov_prefix o) (lit "R1"))) as [t'|] eqn:Ej; [|discriminate Et]. apply Some_inj in Et. subst t'.
  pose proof (ex_garbled_all t) as J. rewrite Forall_forall in J. specialize (J _ I). cbn [fst snd] in J.
  assert (Forall (fun j => in_new j = NO_NEW_DEP) (ex_before ++ [ex_over o])) as Nn by (repeat constructor).
  assert (Forall2 (asked ex_ks true ex_devs) ex_before (ex_asked ex_before)) as As by (apply ex_asked_ok; repeat constructor).
  split.
  - eapply (garbled_outcomes toy_world sch random ex_ks B_unique (lit "REG-1") ex_key 8 true ex_devs ex_before (ex_asked ex_before) (ex_over o) ex_third_q ex_third_v
      ex_g0 ex_third_g ex_third_recs g' r t (e t) toy_hash_ok toy_aes_ok toy_pem_ok Iso ex_name eq_refl eq_refl Nn As (ex_third_wanted o) ex_third_orderly (ex_devs_trusted _) ex_third_issued Eo Ej Es J).
  - eapply (garbled_test toy_world say sch random x ex_ks B_unique (lit "REG-1") ex_key 8 true ex_devs ex_before (ex_asked ex_before) (ex_over o) ex_third_q ex_third_v
      ex_g0 ex_third_g ex_third_recs g' r t (e t) toy_hash_ok toy_aes_ok toy_pem_ok Iso ex_name eq_refl eq_refl Nn As (ex_third_wanted o) ex_third_orderly (ex_devs_trusted _) ex_third_issued Eo Ej Es J).
Qed.

(** The test passes if it expects the exception with the receipt's name in it. *)
Lemma ex_garbled_expected : expects ex_say (ex_expect (Some (lit "MalformedReceiptException")) (Some (lit "Unknown Receipt"))) (Some (MalformedReceipt (lit "Unknown Receipt")))
  /\ ~ expects ex_say (ex_expect (Some (lit "MalformedReceiptException")) (Some (lit "3"))) (Some (MalformedReceipt (lit "Unknown Receipt"))).
Proof.
  split.
  - split; [exists (lit "MalformedReceiptException"); split; [reflexivity|constructor]|]. split; [intros r E _; injection E as <-; reflexivity|]. split; intros; discriminate.
  - intros (_ & H & _). specialize (H (lit "3") eq_refl ltac:(discriminate)). discriminate H.
Qed.
