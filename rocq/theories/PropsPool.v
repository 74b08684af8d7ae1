(** Verification with worker processes. *)
From Verif Require Import PyBase World KeyStore Json State DepParser Verify Cli Pool
  SpecDoc SpecClean SpecKeys SpecPool PoolFacts PoolFacts2
  ExampleWorld ExampleDep ExampleCli ExamplePool.
Open Scope N_scope.

(** ** C65 Worker processes *)

(** With no key or a usable key, the program with worker processes ends, and with the
    very result that verification without the trip between processes has: whatever a
    worker raises arrives. *)
Theorem C65_ends w b pick a store stdin dep : pem_ok w -> cert_keys_ok w ->
  (forall key, loadKeyFromJson (load store) = Ok key -> usable_key key) -> texts_encode stdin ->
  verify_py_pool w b pick a store stdin dep = Some (verify_py w b pick a store stdin dep).
Proof. exact (program_ends w b pick a store stdin dep). Qed.
Print Assumptions C65_ends.

Example C65_ends_example : pem_ok toy_world /\ cert_keys_ok toy_world
  /\ (forall key, loadKeyFromJson (load ex_store) = Ok key -> usable_key key)
  /\ verify_py_pool toy_world B_unique (fun _ => 0%nat) (VerifyArgs false A_none 2 0) ex_store JNull ex_dep = Some (Ok None)
  /\ verify_py_pool toy_world B_unique (fun _ => 0%nat) (VerifyArgs false A_none 2 0) ex_store JNull ex_bad
     = Some (Err (NoRestoreReceipt (lit "8"))).
Proof. exact (conj toy_pem_ok (conj toy_cert_keys (conj ex_usable (conj ex_pool ex_pool_fails)))). Qed.

(** The same for the library's function, for all chunks the parsers yield, all schedules
    and all states. *)
Theorem C65_library w sch s ks key c idx : pem_ok w -> store_read w ks -> usable_key key -> state_encodes c ->
  sch_pool sch <> Some 0%nat ->
  (exists nparts dep n, s = parse_dict w nparts dep n) \/ (exists kind doc n, s = parse_inc w kind doc n) ->
  verifyWithPool w sch s ks key c idx = Some (verifyParsedDEP w sch s ks key c idx).
Proof. exact (library_ends w sch s ks key c idx). Qed.
Print Assumptions C65_library.

(** Whatever the key: a result that the program ends with is the right one. *)
Theorem C65_same w b pick a store stdin dep r : pem_ok w -> cert_keys_ok w ->
  verify_py_pool w b pick a store stdin dep = Some r -> r = verify_py w b pick a store stdin dep.
Proof. exact (program_same w b pick a store stdin dep r). Qed.
Print Assumptions C65_same.

(** If it does not end, there are several processes, and some worker found the key invalid. *)
Theorem C65_lost w b pick a store stdin dep : pem_ok w -> cert_keys_ok w ->
  verify_py_pool w b pick a store stdin dep = None ->
  (1 < va_par a)%nat /\ exists pick', verify_py w b pick' a store stdin dep = Err InvalidKey.
Proof. exact (program_lost w b pick a store stdin dep). Qed.
Print Assumptions C65_lost.

(** And that happens: the exception about an invalid key cannot be sent to the main
    process, which then waits forever. *)
Theorem C65_refuted : exists w b pick a store stdin dep, pem_ok w /\ cert_keys_ok w
  /\ verify_py w b pick a store stdin dep = Err InvalidKey /\ verify_py_pool w b pick a store stdin dep = None.
Proof. exact pool_never. Qed.
Print Assumptions C65_refuted.
