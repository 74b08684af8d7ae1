(** Command lines of verify.py in the toy world. *)
From Verif Require Import PyBase World Codec Json KeyStore State Verify Cli SpecCli SpecState Argv SpecArgv ArgvFacts ExampleWorld ExampleDep ExampleCli.
Open Scope N_scope.

Definition ex_argv : list str := [lit "state"; lit "continue"; lit "par"; lit "8"; lit "chunksize"; lit "3"; lit "json"; lit "store.json"; lit "dep.json"].
Lemma ex_documented : documented toy_world (Some (lit "7")) ex_argv (VerifyArgs true A_continue 8 3) (lit "store.json") (lit "dep.json").
Proof.
  exists [lit "state"], [lit "continue"], [lit "par"; lit "8"], [lit "chunksize"; lit "3"], [lit "json"]. split; [|split; [reflexivity|discriminate]].
  exists 7%Z, 8%Z, 3%Z. split; [vm_compute; reflexivity|]. split; [constructor|]. split; [constructor|].
  split; [constructor; vm_compute; reflexivity|]. split; [discriminate|]. split; [reflexivity|]. split; [constructor; vm_compute; reflexivity|].
  split; [discriminate|]. split; [reflexivity|constructor].
Qed.
Lemma ex_plain : plain_name toy_world (lit "store.json").
Proof. split; [vm_compute; intuition discriminate|]. intros i E. vm_compute in E. discriminate E. Qed.
Lemma ex_understood : understood toy_world (Some (lit "7")) [lit "continue"; lit "a"; lit "b"] (VerifyArgs false A_continue 1 7) (lit "a") (lit "b").
Proof. apply command_iff. vm_compute. reflexivity. Qed.

Definition ex_read_files (n : str) : result json :=
  if str_eqb n (lit "store.json") then Ok ex_store else if str_eqb n (lit "dep.json") then Ok ex_dep else Err PyException.
Definition ex_short : list str := [lit "state"; lit "chunksize"; lit "0"; lit "store.json"; lit "dep.json"].
Lemma ex_accepted : accepted_files toy_world B_unique ex_read_files (Ok ex_new) (VerifyArgs true A_none 1 0) (lit "store.json") (lit "dep.json") (Some (cluster_to_json ex_end)).
Proof.
  exists ex_store, ex_dep, ex_new. pose proof (ex_verified (fun _ => 0%nat) 1 0 (le_n _)) as H.
  apply (CliFacts.verify_py_exact toy_world B_unique (fun _ => 0%nat) (VerifyArgs true A_none 1 0) ex_store ex_new ex_dep _ toy_hash_ok (le_n _) ex_new_usual ex_regular) in H
    as (key & ks & c & idx & c' & H).
  exists key, ks, c, idx, c'. split; [reflexivity|]. split; [reflexivity|]. split; [reflexivity|]. exact H.
Qed.
Lemma ex_success : understood toy_world None ex_short (VerifyArgs true A_none 1 0) (lit "store.json") (lit "dep.json")
  /\ exists st, verify_program toy_world B_unique (fun _ => 0%nat) None ex_read_files (Ok ex_new) ex_short = VEnd (Some (cluster_to_json ex_end)) true st.
Proof.
  assert (understood toy_world None ex_short (VerifyArgs true A_none 1 0) (lit "store.json") (lit "dep.json")) as U.
  { apply command_iff. vm_compute. reflexivity. }
  split; [exact U|]. apply (program_success toy_world B_unique _ None ex_read_files (Ok ex_new) ex_short toy_hash_ok).
  - intros i E. injection E as <-. exact ex_new_usual.
  - intros n d E. unfold ex_read_files in E. destruct (str_eqb n (lit "store.json")) eqn:S.
    + right. intros a s X. apply command_iff in X. vm_compute in X. injection X as _ _ Xn. subst n. vm_compute in S. discriminate S.
    + left. destruct (str_eqb n (lit "dep.json")); [injection E as <-; exact ex_regular|discriminate E].
  - exists (VerifyArgs true A_none 1 0), (lit "store.json"), (lit "dep.json"). split; [exact U|exact ex_accepted].
Qed.

(** Findings *)
Lemma ex_mistyped : exists w args, forall b pick read stdin, verify_program w b pick None read stdin args = VEnd None false 0 /\ In (lit "dep.json") args.
Proof. exists toy_world, [lit "par"; lit "two"; lit "store.json"; lit "dep.json"]. intros. split; [reflexivity|cbn [In]; auto]. Qed.
Lemma ex_numbered : exists w env args a s f, documented w env args a s f /\ verify_argv w env args = V_usage.
Proof.
  exists toy_world, (Some (lit "7")), [lit "5"; lit "dep.json"], (VerifyArgs false A_none 1 7), (lit "5"), (lit "dep.json"). split; [|vm_compute; reflexivity].
  exists [], [], [], [], []. split; [|now split].
  exists 7%Z, 1%Z, 7%Z. split; [vm_compute; reflexivity|]. split; [constructor|]. split; [constructor|].
  split; [constructor|]. split; [discriminate|]. split; [reflexivity|]. split; [constructor|]. split; [discriminate|]. split; [reflexivity|constructor].
Qed.
Lemma ex_environment : exists w args a s f, verify_argv w None args = V_run a s f /\ In (lit "chunksize") args /\ exists env, verify_argv w env args = V_raised PyValueError.
Proof.
  exists toy_world, [lit "chunksize"; lit "3"; lit "store.json"; lit "dep.json"], (VerifyArgs false A_none 1 3), (lit "store.json"), (lit "dep.json").
  split; [vm_compute; reflexivity|]. split; [now left|]. exists (Some []). vm_compute. reflexivity.
Qed.
