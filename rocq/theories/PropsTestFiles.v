(** C80 The files written by run_test.py. *)
From Coq Require Import Floats.SpecFloat.
From Verif Require Import PyBase World Codec PyFloat PyTime Algo Receipt SpecReceipt SpecKeys Json Pem KeyStore VerifyReceipt State DepParser Verify DepExport
  SpecDep SpecCluster SpecAmount CashReg SpecCashReg RunTest SpecRunTest SpecPool SpecState TestVerify TestSetup SpecSetup Cli SpecCli TestFiles SpecTestFiles TestFilesFacts
  ExampleWorld ExampleDep ExampleCashReg ExamplePool ExampleRunTest ExampleSetup ExampleTestFiles.
Open Scope N_scope.

(** Files are written exactly if the command line is complete, all files it names can be
    read and the test can be run. *)
Theorem C80_files : forall w m spec read args files,
  run_test_py w m spec read args = E_wrote files <->
  exists closed sp mats size deps store, command w spec read args closed sp mats size
    /\ runTest_full w m sp mats closed size = Ok (deps, store)
    /\ files = (container_name, store) :: dep_files deps.
Proof. exact files_iff. Qed.
Print Assumptions C80_files.

Example C80_files_case : command toy_world ex_read_spec ex_read ex_args true ex_sp_small (ex_mats true 2) (Some 8%nat)
  /\ command toy_world ex_read_spec ex_read ex_args_open false ex_sp_open (ex_mats false 2) None
  /\ run_test_py toy_world toy_maker ex_read_spec ex_read ex_args = E_wrote ex_written.
Proof. exact (conj ex_command (conj ex_command_open ex_writes)). Qed.

(** No file is written twice, and each DEP is found under its number. *)
Theorem C80_names : forall store deps, deps <> [] ->
  NoDup (map fst ((container_name, store) :: dep_files deps))
  /\ map snd (dep_files deps) = deps
  /\ forall k d, nth_error deps k = Some d ->
     nth_error (dep_files deps) k = Some (lit "dep-export" ++ (if (List.length deps =? 1)%nat then [] else fmt_d (Z.of_nat k)) ++ lit ".json", d).
Proof. exact file_names. Qed.
Print Assumptions C80_names.

Example C80_names_case : map fst ex_written = [lit "cryptographicMaterialContainer.json"; lit "dep-export0.json"; lit "dep-export1.json"; lit "dep-export2.json"; lit "dep-export3.json"; lit "dep-export4.json"]
  /\ map fst (dep_files [JNull]) = [lit "dep-export.json"].
Proof. split; reflexivity. Qed.

(** If the specification is in order, verify.py accepts the files with the container as
    key store, whatever numbers of processes and chunk sizes are given: one DEP after the
    other with the state passed on, and a single DEP without any state. The counters
    in the last state are the turnovers asked for. *)
Theorem C80_accepted : forall w own m b spec read args closed sp mats size key,
  hash_ok w -> aes_ok w -> pem_ok w -> cert_keys_ok w -> maker_ok w own m ->
  command w spec read args closed sp mats size -> setup_ok w own m sp closed mats ->
  loadB64Key (ts_aes sp) = Ok key -> List.length key = 32%nat -> identifier (ts_id sp) -> (5 <= counter_size sp size <= 16)%nat ->
  instructions_ok w closed (List.length mats) (counter_size sp size) b (ts_instrs sp) ->
  exists deps store c, run_test_py w m spec read args = E_wrote ((container_name, store) :: dep_files deps)
    /\ List.length deps = S (List.length (filter starts_dep (ts_instrs sp)))
    /\ (forall k, (k < List.length deps)%nat -> exists r, register_of deps k r)
    /\ (forall pick runs, calls_for deps runs -> verified_each w b pick store runs (verify_py_new b) (cluster_to_json c))
    /\ (forall pick dep par csize stdin, deps = [dep] -> (1 <= par)%nat -> verify_py w b pick (VerifyArgs false A_none par csize) store stdin dep = Ok None)
    /\ (forall r, (r < List.length (c_regs c))%nat <-> In r (owners 1 0 (ts_instrs sp)))
    /\ (forall r reg z, nth_error (c_regs c) r = Some reg ->
          requests_turnover (map (bare_request closed) (of_register r (combine (owners 1 0 (ts_instrs sp)) (ts_instrs sp)))) z -> s_counter reg = z).
Proof. exact files_accepted. Qed.
Print Assumptions C80_accepted.

Example C80_accepted_case : setup_ok toy_world toy_own toy_maker ex_sp_small true (ex_mats true 2)
  /\ setup_ok toy_world toy_own toy_maker ex_sp_open false (ex_mats false 2)
  /\ counter_size ex_sp_small (Some 8%nat) = 8%nat /\ counter_size ex_sp_small None = 5%nat
  /\ instructions_ok toy_world true 2 8 B_natural (ts_instrs ex_sp_small)
  /\ instructions_ok toy_world false 2 8 B_unique (ts_instrs ex_sp_open)
  /\ tl ex_written = dep_files ex_deps
  /\ register_of ex_deps 0 0 /\ register_of ex_deps 1 1 /\ register_of ex_deps 2 0 /\ register_of ex_deps 3 1 /\ register_of ex_deps 4 2.
Proof. exact (conj ex_setup_small (conj ex_setup_open (conj eq_refl (conj eq_refl (conj ex_test_instructions (conj ex_open_instructions (conj eq_refl ex_registers))))))). Qed.

(** The exit status does not tell whether files were written. *)
Theorem C80_status_refuted : exists w m spec read args files args',
  run_test_py w m spec read args = E_wrote files /\ run_test_py w m spec read args' = E_stopped 0.
Proof. exact (ex_intro _ toy_world (ex_intro _ toy_maker (ex_intro _ ex_read_spec (ex_intro _ ex_read (ex_intro _ ex_args (ex_intro _ ex_written (ex_intro _ ex_args_large (conj ex_writes ex_large)))))))). Qed.
Print Assumptions C80_status_refuted.
