(** Verdicts about tests in the toy world. *)
From Coq Require Import Floats.SpecFloat Lia.
From Verif Require Import PyBase World Codec PyFloat PyTime Algo Receipt Json ListFacts Pem KeyStore State DepParser Verify DepExport
  SpecReceipt SpecKeys SpecDep SpecCluster SpecChunks SpecAmount CashReg SpecCashReg RunTest SpecRunTest RunTestFacts RunTestSeq SpecDoc SpecDiag SpecState TestVerify SpecTestVerify TestVerifyFacts
  ParTheorems AcceptFacts ExampleWorld ExampleDep ExampleCashReg ExampleRunTest.
Open Scope N_scope.

(** Messages of exceptions: their classes' names *)
Definition ex_say (e : exn) : str := hd [] (classes e).
Definition ex_expect (t : option str) (r : option str) : expectation := Expect t r None None.
Definition ex_run_pool (first : bool) : schedule := Schedule (Some 2%nat) 2 (fun _ => if first then 0%nat else 1%nat).

(** The times of the second and the fourth receipt are before those of the receipts
    they follow. *)
Definition ex_twice : list instr :=
  [ex_in (lit "1") 5 0 0 false NO_NEW_DEP None None;
   ex_in (lit "2") 4 0 0 false NO_NEW_DEP None None;
   ex_in (lit "3") 6 0 0 false NO_NEW_DEP None None;
   ex_in (lit "4") 5 0 0 false NO_NEW_DEP None None].
Definition ex_twice_deps : list json := Eval vm_compute in
  match runTest toy_world (lit "REG-1") ex_key 8 true ex_devs ex_twice with Ok d => d | Err _ => [] end.
Definition ex_late : expectation := ex_expect (Some (lit "DecreasingDateException")) (Some (lit "2")).
(** Certificates are omitted. *)
Definition ex_dev0 : device := Device (lit "AT1") (lit "5a") [7] None [].
Definition ex_omitted : list instr :=
  [ex_in (lit "1") 1 0 0 false NO_NEW_DEP None None;
   ex_in (lit "2") 2 0 0 false NO_NEW_DEP None None;
   ex_in (lit "3") 3 0 1 false NO_NEW_DEP None None;
   ex_in (lit "4") 4 0 1 false NO_NEW_DEP None None].
Definition ex_omitted_deps : list json := Eval vm_compute in
  match runTest toy_world (lit "REG-1") ex_key 8 true [ex_dev0; ex_dev0] ex_omitted with Ok d => d | Err _ => [] end.
Definition ex_lacking : expectation := ex_expect (Some (lit "NoCertificateGivenException")) None.

Lemma ex_run_isolated b : isolated (ex_run_pool b).
Proof. vm_compute. intuition lia. Qed.

Lemma ex_twice_made : runTest toy_world (lit "REG-1") ex_key 8 true ex_devs ex_twice = Ok ex_twice_deps.
Proof. vm_compute. reflexivity. Qed.
Lemma ex_twice_raised : testVerify toy_world ex_ks ex_key B_unique ex_twice_deps = T_raised (DecreasingDate (lit "2")).
Proof. vm_compute. reflexivity. Qed.
Lemma ex_twice_parsed b : parse_deps toy_world (fun _ => ex_run_pool b) (fun _ => 2%nat) ex_ks (Some ex_key) (new_cluster B_unique) [] 0 ex_twice_deps
  = T_raised (DecreasingDate (lit (if b then "2" else "4"))).
Proof. destruct b; vm_compute; reflexivity. Qed.
Definition ex_mismatch : str := lit "Result mismatch: without parsing OK:>None<, with parsing FAIL:>Expected ""DecreasingDateException"" at receipt ""2"" but it occured at ""4"" instead<".
Lemma ex_twice_verdict b : test_spec toy_world ex_say (fun _ => ex_run_pool b) (fun _ => 2%nat) ex_late ex_ks (lit "REG-1") ex_key 8 true ex_devs B_unique ex_twice
  = Ok (if b then (R_OK, None) else (R_FAIL, Some ex_mismatch)).
Proof.
  unfold test_spec. rewrite ex_twice_made. unfold test_both. rewrite ex_twice_raised, ex_twice_parsed. destruct b; vm_compute; reflexivity.
Qed.
Definition ex_twice_texts : list str := Eval vm_compute in
  match ex_twice_deps with
  | [JDict d] => match dict_get d k_bg with
                 | Some (JList [JDict g]) => match dict_get g k_recs with Some (JList l) => map (fun j => match j with JStr t => t | _ => [] end) l | _ => [] end
                 | _ => []
                 end
  | _ => []
  end.
Definition ex_twice_gs : list group := [Group ex_twice_texts (Some ex_cert) []].
Lemma ex_twice_is : exists dep, ex_twice_deps = [dep] /\ dep_is toy_world dep ex_twice_gs.
Proof.
  eexists. split; [reflexivity|]. eexists _, _. split; [reflexivity|]. split; [reflexivity|]. constructor; [|constructor].
  eexists _, _, _, []. split; [reflexivity|]. split; [reflexivity|]. split; [left; reflexivity|]. split; [reflexivity|]. split; [|split; [reflexivity|constructor]].
  right. split; [discriminate|]. exists ex_cert. split; [vm_compute; reflexivity|reflexivity].
Qed.
Lemma ex_twice_encodable : texts_encodable ex_ks ex_twice_gs.
Proof. repeat constructor; eexists; vm_compute; reflexivity. Qed.
Lemma ex_twice_regular : Forall (regular_dep toy_world) ex_twice_deps.
Proof.
  pose proof (runTest_exported _ _ _ _ _ _ _ _ ex_twice_made) as X. destruct ex_twice_is as (dep & E & D). rewrite E in *.
  apply Forall_inv in X. destruct (exported_doc _ _ _ X D) as [D' P]. constructor; [|constructor]. exists ex_twice_gs. split; [exact D'|]. split; [exact P|].
  left. repeat constructor. discriminate.
Qed.
Lemma ex_twice_refuted : exists w say sch1 sch2 random x ks id key size multi devs b l m, hash_ok w
  /\ (forall i, isolated (sch1 i)) /\ (forall i, isolated (sch2 i))
  /\ (exists deps, runTest w id key size multi devs l = Ok deps /\ Forall (regular_dep w) deps)
  /\ test_spec w say sch1 random x ks id key size multi devs b l = Ok (R_OK, None)
  /\ test_spec w say sch2 random x ks id key size multi devs b l = Ok (R_FAIL, m).
Proof.
  exists toy_world, ex_say, (fun _ => ex_run_pool true), (fun _ => ex_run_pool false), (fun _ => 2%nat), ex_late, ex_ks, (lit "REG-1"), ex_key, 8%nat, true, ex_devs, B_unique, ex_twice, (Some ex_mismatch).
  split; [exact toy_hash_ok|]. split; [intros _; apply ex_run_isolated|]. split; [intros _; apply ex_run_isolated|].
  split; [|split; [exact (ex_twice_verdict true)|exact (ex_twice_verdict false)]].
  exists ex_twice_deps. split; [exact ex_twice_made|].
  exact ex_twice_regular.
Qed.

Lemma ex_omitted_made : runTest toy_world (lit "REG-1") ex_key 8 true [ex_dev0; ex_dev0] ex_omitted = Ok ex_omitted_deps.
Proof. vm_compute. reflexivity. Qed.
Lemma ex_omitted_raised : testVerify toy_world ex_ks ex_key B_unique ex_omitted_deps = T_raised NoCertificateGiven.
Proof. vm_compute. reflexivity. Qed.
Lemma ex_omitted_parsed : exists c,
  parse_deps toy_world (fun _ => ex_run_pool true) (fun _ => 2%nat) ex_ks (Some ex_key) (new_cluster B_unique) [] 0 ex_omitted_deps = T_ok c
  /\ parse_deps toy_world (fun _ => ex_run_pool true) (fun _ => 3%nat) ex_ks (Some ex_key) (new_cluster B_unique) [] 0 ex_omitted_deps = T_raised NoCertificateGiven.
Proof. eexists. split; vm_compute; reflexivity. Qed.
Lemma ex_omitted_refuted : exists w say sch random1 random2 x ks id key size multi devs b l m, hash_ok w /\ (forall i, isolated (sch i))
  /\ test_spec w say sch random1 x ks id key size multi devs b l = Ok (R_OK, None)
  /\ test_spec w say sch random2 x ks id key size multi devs b l = Ok (R_FAIL, m).
Proof.
  exists toy_world, ex_say, (fun _ => ex_run_pool true), (fun _ => 3%nat), (fun _ => 2%nat), ex_lacking, ex_ks, (lit "REG-1"), ex_key, 8%nat, true, [ex_dev0; ex_dev0], B_unique, ex_omitted.
  destruct ex_omitted_parsed as (c & P1 & P2). eexists. split; [exact toy_hash_ok|]. split; [intros _; apply ex_run_isolated|].
  unfold test_spec. rewrite ex_omitted_made. unfold test_both. rewrite ex_omitted_raised, P1, P2. split; reflexivity.
Qed.
Lemma ex_attribute_refuted : exists w say sch random x ks id key size multi devs b l, hash_ok w /\ (forall i, isolated (sch i))
  /\ (exists deps e, runTest w id key size multi devs l = Ok deps /\ testVerify w ks key b deps = T_raised e /\ ex_type x = Some (hd [] (classes e)))
  /\ test_spec w say sch random x ks id key size multi devs b l = Err PyAttributeError.
Proof.
  exists toy_world, ex_say, (fun _ => ex_run_pool true), (fun _ => 3%nat), (ex_expect (ex_type ex_lacking) (Some (lit "3"))), ex_ks, (lit "REG-1"), ex_key, 8%nat, true, [ex_dev0; ex_dev0], B_unique, ex_omitted.
  destruct ex_omitted_parsed as (c & P1 & P2). split; [exact toy_hash_ok|]. split; [intros _; apply ex_run_isolated|].
  split; [exists ex_omitted_deps, NoCertificateGiven; split; [exact ex_omitted_made|]; split; [exact ex_omitted_raised|reflexivity]|].
  unfold test_spec. rewrite ex_omitted_made. unfold test_both. rewrite ex_omitted_raised. reflexivity.
Qed.

(** A test of a specification that follows the rules *)
Lemma ex_test_passes b random : test_spec toy_world ex_say (fun _ => ex_run_pool b) random (ex_expect None None) ex_ks (lit "REG-1") ex_key 8 true ex_devs B_natural ex_test
  = Ok (R_OK, None).
Proof.
  destruct ex_test_accepted as (deps & c & R & T & _).
  exact (proj2 (tests_pass toy_world ex_say (fun _ => ex_run_pool b) random (ex_expect None None) ex_ks _ _ _ _ _ _ _ deps c toy_hash_ok (fun _ => ex_run_isolated b) eq_refl R T)).
Qed.
