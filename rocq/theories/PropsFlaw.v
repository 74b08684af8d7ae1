(** C79 DEPs and tests the certificates of which are not trusted. *)
From Verif Require Import PyBase World Codec PyFloat PyTime Algo Receipt SpecReceipt SpecKeys Json JsonText Pem KeyStore VerifyReceipt State DepBase DepParser Verify DepExport
  SpecDep SpecCluster SpecDoc SpecChunks SpecAmount CashReg SpecCashReg RunTest SpecRunTest SpecDiag SpecState SpecPool TestVerify SpecTestVerify TestSetup SpecSetup SpecFlaw
  CertFault CertTest FlawFacts ExampleWorld ExampleDep ExampleDiag ExampleCashReg ExamplePool ExampleRunTest ExampleTestVerify ExampleSetup ExampleLast ExampleFlaw.
Open Scope N_scope.

(** The first group with a certificate that is not trusted, all before it being in order:
    the DEP is rejected in sequence and in parallel, with the same exception, whatever
    the number of parts and the size of the chunks, and the same state is left behind.
    The exception says what is wrong about the certificate. Nothing is asked of the
    receipts of this group and of those after it. *)
Theorem C79_dep : forall w sch ks key c idx before reg after' p gs gs1 g gs2 items c0,
  hash_ok w -> isolated sch -> usual_cluster c -> texts_encodable ks gs ->
  selects c idx before reg after' -> past_of w reg p ->
  occupied gs = gs1 ++ g :: gs2 ->
  Forall (fun g => exists x, gr_cert g = Some x /\ trusted w ks x (gr_chain g)) gs1 ->
  Forall2 (text_item w) (dep_texts ks gs1) items -> valid_sequence w key (start_of_last before) reg (c_used c) p items ->
  gr_cert g = Some c0 -> ~ trusted w ks c0 (gr_chain g) ->
  forall dep nparts n, dep_is w dep gs ->
  exists c' e, verifyDEP w dep ks key c idx = (c', Some e)
    /\ verifyParsedDEP w sch (parse_dict w nparts dep n) ks key c idx = (c', Some e)
    /\ cert_fault w ks c0 (gr_chain g) e.
Proof. exact cert_dict. Qed.
Print Assumptions C79_dep.

Example C79_dep_case : dep_is toy_world ex_cert_dep ex_cert_gs /\ texts_encodable ex_ks ex_cert_gs
  /\ usual_cluster ex_start /\ selects ex_start None [] new_register [] /\ past_of toy_world new_register None
  /\ occupied ex_cert_gs = [Group [ex_t1] (Some ex_cert) []] ++ Group [ex_t2] (Some ex_unknown) [] :: []
  /\ Forall (fun g => exists x, gr_cert g = Some x /\ trusted toy_world ex_ks x (gr_chain g)) [Group [ex_t1] (Some ex_cert) []]
  /\ exists items, Forall2 (text_item toy_world) (dep_texts ex_ks [Group [ex_t1] (Some ex_cert) []]) items
     /\ valid_sequence toy_world (Some ex_key) None new_register (Unique []) None items.
Proof. exact ex_cert_hyps. Qed.
Example C79_dep_case2 : ~ trusted toy_world ex_ks ex_unknown [] /\ isolated ex_last_pool
  /\ snd (verifyDEP toy_world ex_cert_dep ex_ks (Some ex_key) ex_start None) = Some (UntrustedCertificate (lit "1"))
  /\ snd (verifyParsedDEP toy_world ex_last_pool (parse_dict toy_world 1 ex_cert_dep 1) ex_ks (Some ex_key) ex_start None) = Some (UntrustedCertificate (lit "1")).
Proof. exact (conj ex_unknown_distrusted (conj ex_last_isolated ex_cert_alike)). Qed.

(** The same for files that are read piece by piece *)
Theorem C79_file : forall w sch ks key c idx before reg after' p gs gs1 g gs2 items c0,
  hash_ok w -> isolated sch -> usual_cluster c -> texts_encodable ks gs ->
  selects c idx before reg after' -> past_of w reg p ->
  occupied gs = gs1 ++ g :: gs2 ->
  Forall (fun g => exists x, gr_cert g = Some x /\ trusted w ks x (gr_chain g)) gs1 ->
  Forall2 (text_item w) (dep_texts ks gs1) items -> valid_sequence w key (start_of_last before) reg (c_used c) p items ->
  gr_cert g = Some c0 -> ~ trusted w ks c0 (gr_chain g) ->
  forall doc n, dep_doc w doc gs -> plain_names doc ->
  exists c' e, verifyDEP w (load doc) ks key c idx = (c', Some e)
    /\ verifyParsedDEP w sch (parse_inc w P_file doc n) ks key c idx = (c', Some e)
    /\ cert_fault w ks c0 (gr_chain g) e.
Proof. exact cert_file. Qed.
Print Assumptions C79_file.

Example C79_file_case : dep_doc toy_world ex_cert_dep ex_cert_gs /\ plain_names ex_cert_dep
  /\ snd (verifyParsedDEP toy_world ex_last_pool (parse_inc toy_world P_file ex_cert_dep 1) ex_ks (Some ex_key) ex_start None) = Some (UntrustedCertificate (lit "1")).
Proof. exact (conj (proj1 ex_cert_doc) (conj (proj2 ex_cert_doc) ex_cert_inc)). Qed.

(** Only one exception is right about a certificate. *)
Theorem C79_unique : forall w ks c chain e e', hash_ok w ->
  cert_fault w ks c chain e -> cert_fault w ks c chain e' -> e = e'.
Proof. exact cert_fault_fun. Qed.
Print Assumptions C79_unique.

Example C79_unique_case : cert_fault toy_world ex_ks ex_unknown [] (UntrustedCertificate (lit "1")).
Proof. exact ex_unknown_fault. Qed.

(** A test whose first device has a certificate that the key store [ks] does not trust,
    though with another key store [ks'] everything would be in order: it passes exactly
    when it expects the exception that is right about the certificate. *)
Theorem C79_first : forall w say sch random x ks ks' b id key size devs i0 l d0 c0 qs e,
  hash_ok w -> aes_ok w -> pem_ok w -> (forall n, isolated (sch n)) ->
  identifier id -> List.length key = 32%nat -> (5 <= size <= 16)%nat ->
  test_rules w ks' size b true devs (i0 :: l) qs -> newest_in_use (i0 :: l) (owners 1 0 (i0 :: l)) ->
  nth_error devs (in_dev i0) = Some d0 -> dv_cert d0 = Some c0 -> cert_fault w ks c0 (dv_chain d0) e ->
  test_spec w say sch random x ks id key size true devs b (i0 :: l) = Ok (R_OK, None) <-> expects say x (Some e).
Proof. exact first_test. Qed.
Print Assumptions C79_first.

Example C79_first_case : test_rules toy_world ex_ks 8 B_natural true ex_devs ex_test (ex_asked ex_test)
  /\ newest_in_use ex_test (owners 1 0 ex_test) /\ dv_cert (nth 0 ex_devs ex_devB) = Some ex_cert
  /\ cert_fault toy_world [] ex_cert [] (UntrustedCertificate (lit "5a")).
Proof. exact (conj ex_test_rules (conj ex_test_newest (conj eq_refl ex_empty_fault))). Qed.

(** A test with one device as a whole, from a specification that asks for an untrusted,
    a broken or a colliding chain of certificates: it passes exactly when the exception
    due is expected. Serial numbers are those of the certificates concerned. *)
Theorem C79_flawed : forall w own m sch b sp pub priv closed n fl key,
  hash_ok w -> aes_ok w -> pem_ok w -> cert_keys_ok w -> maker_ok w own m ->
  flawed_setup w own m sp closed (pub, priv) n fl ->
  loadB64Key (ts_aes sp) = Ok key -> List.length key = 32%nat -> identifier (ts_id sp) -> (5 <= counter_size sp None <= 16)%nat ->
  instructions_ok w closed 1 (counter_size sp None) b (ts_instrs sp) -> (forall i, isolated (sch i)) ->
  exists e, reported w m closed (pub, priv) n fl e
    /\ forall say random x, testVerify_full w m say sch random x b sp pub priv closed = Ok (R_OK, None) <-> expects say x (Some e).
Proof. exact flawed_test. Qed.
Print Assumptions C79_flawed.

Example C79_flawed_case : flawed_setup toy_world toy_own toy_maker ex_sp_untrusted true (ex_pub, ex_prv) 0 F_untrusted
  /\ flawed_setup toy_world toy_own toy_maker ex_sp_broken false (ex_crt, ex_prv) 2 (F_broken 2)
  /\ flawed_setup toy_world toy_own toy_maker ex_sp_collision false (ex_crt, ex_prv) 1 F_collision
  /\ forall closed, instructions_ok toy_world closed 1 8 B_unique ex_one.
Proof. exact (conj ex_setup_untrusted (conj ex_setup_broken (conj ex_setup_collision ex_one_instructions))). Qed.
Example C79_flawed_passes : forall b random,
  testVerify_full toy_world toy_maker ex_say (fun _ => ex_run_pool b) random (ex_expect (Some (lit "UntrustedCertificateException")) None) B_unique ex_sp_untrusted ex_pub ex_prv true = Ok (R_OK, None)
  /\ testVerify_full toy_world toy_maker ex_say (fun _ => ex_run_pool b) random (ex_expect (Some (lit "CertificateChainBrokenException")) None) B_unique ex_sp_broken ex_crt ex_prv false = Ok (R_OK, None)
  /\ testVerify_full toy_world toy_maker ex_say (fun _ => ex_run_pool b) random (ex_expect (Some (lit "CertificateSerialCollisionException")) None) B_unique ex_sp_collision ex_crt ex_prv false = Ok (R_OK, None).
Proof. exact (fun b random => conj (ex_flaw_untrusted b random) (conj (ex_flaw_broken b random) (ex_flaw_collision b random))). Qed.
