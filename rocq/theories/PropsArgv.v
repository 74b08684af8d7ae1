(** C83 The command line of verify.py. *)
From Verif Require Import PyBase World Codec SpecKeys Json KeyStore State Verify Cli SpecCli SpecState Argv SpecArgv ArgvFacts ExampleWorld ExampleDep ExampleCli ExampleArgv.
Open Scope N_scope.

(** Verification is started if and only if the arguments have the parts of the usage
    message, taken greedily, with what they mean. *)
Theorem C83_command : forall w env args a s f, verify_argv w env args = V_run a s f <-> understood w env args a s f.
Proof. exact command_iff. Qed.
Print Assumptions C83_command.

Example C83_command_case : understood toy_world (Some (lit "7")) [lit "continue"; lit "a"; lit "b"] (VerifyArgs false A_continue 1 7) (lit "a") (lit "b").
Proof. exact ex_understood. Qed.

(** Documented arguments are understood as documented, if the name of the key store cannot
    be mistaken for an option. *)
Theorem C83_documented : forall w env args a s f, documented w env args a s f -> plain_name w s -> verify_argv w env args = V_run a s f.
Proof. exact documented_runs. Qed.
Print Assumptions C83_documented.

Example C83_documented_case : documented toy_world (Some (lit "7")) ex_argv (VerifyArgs true A_continue 8 3) (lit "store.json") (lit "dep.json")
  /\ plain_name toy_world (lit "store.json").
Proof. exact (conj ex_documented ex_plain). Qed.

(** All other arguments: a new state, the usage message, or an exception because of the
    environment variable *)
Theorem C83_new : forall w env args, verify_argv w env args = V_new <-> args = [lit "state"].
Proof. exact command_other. Qed.
Print Assumptions C83_new.
Theorem C83_usage : forall w env args d, default_size w env d -> (forall a s f, ~ understood w env args a s f) -> args <> [lit "state"] -> verify_argv w env args = V_usage.
Proof. exact command_usage. Qed.
Print Assumptions C83_usage.
Theorem C83_raises : forall w env args e, verify_argv w env args = V_raised e -> e = PyValueError /\ forall d, ~ default_size w env d.
Proof. exact command_raises. Qed.
Print Assumptions C83_raises.

(** The program reports success if and only if the DEP in the named file is accepted. *)
Theorem C83_success : forall w b pick env read stdin args, hash_ok w -> (forall i, stdin = Ok i -> usual_state i) ->
  (forall n d, read n = Ok d -> regular_file w d \/ forall a s, ~ understood w env args a s n) ->
  forall out, (exists st, verify_program w b pick env read stdin args = VEnd out true st) <->
    exists a s f, understood w env args a s f /\ accepted_files w b read stdin a s f out.
Proof. exact program_success. Qed.
Print Assumptions C83_success.

Example C83_success_case : understood toy_world None ex_short (VerifyArgs true A_none 1 0) (lit "store.json") (lit "dep.json")
  /\ exists st, verify_program toy_world B_unique (fun _ => 0%nat) None ex_read_files (Ok ex_new) ex_short = VEnd (Some (cluster_to_json ex_end)) true st.
Proof. exact ex_success. Qed.

(** The status is zero if and only if it reports success or the arguments are wrong. *)
Theorem C83_status : forall w b pick env read stdin args d, default_size w env d -> args <> [lit "state"] ->
  (ve_status (verify_program w b pick env read stdin args) = 0 <->
   ve_success (verify_program w b pick env read stdin args) = true \/ forall a s f, ~ understood w env args a s f).
Proof. exact program_status. Qed.
Print Assumptions C83_status.

(** So status zero does not mean that anything was verified. *)
Theorem C83_status_refuted : exists w args, forall b pick read stdin, verify_program w b pick None read stdin args = VEnd None false 0 /\ In (lit "dep.json") args.
Proof. exact ex_mistyped. Qed.
Print Assumptions C83_status_refuted.

(** A documented command line with a key store whose name is a number is not understood. *)
Theorem C83_documented_refuted : exists w env args a s f, documented w env args a s f /\ verify_argv w env args = V_usage.
Proof. exact ex_numbered. Qed.
Print Assumptions C83_documented_refuted.

(** The environment variable can end the program though the chunk size is given. *)
Theorem C83_environment_refuted : exists w args a s f, verify_argv w None args = V_run a s f /\ In (lit "chunksize") args /\ exists env, verify_argv w env args = V_raised PyValueError.
Proof. exact ex_environment. Qed.
Print Assumptions C83_environment_refuted.
