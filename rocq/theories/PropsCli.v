(** Properties of the command line of verify.py. *)
From Coq Require Import Lia.
From Verif Require Import PyBase World Codec Receipt Json KeyStore State DepParser Verify DepExport SpecDep SpecCluster SpecState SpecChunks SpecDoc SpecKeys SpecExport
  Cli SpecCli CliFacts ExampleWorld ExampleReceipts ExampleDep ExampleInc ExampleExport ExampleCli.
Open Scope N_scope.

(** ** C46 Options of verify.py *)

(** verify.py succeeds if and only if the key store and the state can be read and
    verifyDEP accepts; it writes the new state. *)
Theorem C46_verifies w b pick a store stdin dep o : hash_ok w -> legal_args a -> usual_state stdin -> regular_file w dep ->
  verify_py w b pick a store stdin dep = Ok o <->
  exists key ks c idx c', loadKeyFromJson (load store) = Ok key /\ readStoreFromJson w (load store) = Ok ks
    /\ starts_from b a stdin c /\ chosen a c idx /\ verifyDEP w (load dep) ks key c idx = (c', None)
    /\ o = if va_state a then Some (cluster_to_json c') else None.
Proof. exact (verify_py_exact w b pick a store stdin dep o). Qed.
Print Assumptions C46_verifies.

(** Neither the number of processes, nor the chunk size, nor the order in which
    processes finish matters. *)
Theorem C46_options w b pick pick' a a' store stdin dep o : hash_ok w -> legal_args a -> legal_args a' -> same_task a a' ->
  usual_state stdin -> regular_file w dep ->
  verify_py w b pick a store stdin dep = Ok o <-> verify_py w b pick' a' store stdin dep = Ok o.
Proof. exact (options w b pick pick' a a' store stdin dep o). Qed.
Print Assumptions C46_options.

(** Every state verify.py has written can be read again and is usual. *)
Theorem C46_written w s : hash_ok w -> state_written w s -> exists c, cluster_of_json (load s) = Ok c /\ usual_cluster c.
Proof. exact (written_usual w s). Qed.
Print Assumptions C46_written.

(** [state continue] with a new state is an error, whatever the DEP. *)
Theorem C46_continue w b b' pick par size store dep key ks : loadKeyFromJson (load store) = Ok key -> readStoreFromJson w (load store) = Ok ks ->
  verify_py w b pick (VerifyArgs true A_continue par size) store (verify_py_new b') dep = Err InvalidCashRegisterIndex.
Proof. exact (nothing_to_continue w b b' pick par size store dep key ks). Qed.
Print Assumptions C46_continue.

Example C46_example pick : regular_file toy_world ex_dep /\ usual_state ex_new /\ loadKeyFromJson (load ex_store) = Ok (Some ex_key)
  /\ readStoreFromJson toy_world (load ex_store) = Ok ex_ks
  /\ verify_py toy_world B_unique pick (VerifyArgs true A_none 1 0) ex_store ex_new ex_dep = Ok (Some (cluster_to_json ex_end))
  /\ verify_py toy_world B_unique pick (VerifyArgs true A_none 8 3) ex_store ex_new ex_dep = Ok (Some (cluster_to_json ex_end)).
Proof.
  exact (conj ex_regular (conj ex_new_usual (conj ex_store_key (conj ex_store_keys (conj
    (ex_verified pick 1 0 ltac:(lia)) (ex_verified pick 8 3 ltac:(lia))))))).
Qed.

(** ** C47 Verification in several calls of verify.py *)

(** A DEP in two parts: the state of the first call is passed to the second. *)
Theorem C47_parts w b pick a a1 a2 store stdin dep dep1 dep2 gs gs1 gs2 s : hash_ok w ->
  legal_args a -> legal_args a1 -> legal_args a2 -> va_state a = true -> same_task a a1 ->
  va_state a2 = true -> va_register a2 = next_part (va_register a) ->
  usual_state stdin -> regular_file w dep -> regular_file w dep1 -> regular_file w dep2 ->
  dep_doc w dep gs -> dep_doc w dep1 gs1 -> dep_doc w dep2 gs2 -> cut gs gs1 gs2 -> text_stamps gs1 <> [] -> text_stamps gs2 <> [] ->
  verify_py w b pick a store stdin dep = Ok (Some s) <->
  exists s1, verify_py w b pick a1 store stdin dep1 = Ok (Some s1) /\ verify_py w b pick a2 store s1 dep2 = Ok (Some s).
Proof. exact (parts w b pick a a1 a2 store stdin dep dep1 dep2 gs gs1 gs2 s). Qed.
Print Assumptions C47_parts.

Example C47_parts_example : regular_file toy_world ex_dep /\ regular_file toy_world ex_dep1e /\ regular_file toy_world ex_dep2
  /\ dep_doc toy_world ex_dep (ex_gs1 ++ ex_gs2) /\ dep_doc toy_world ex_dep1e (ex_gs1 ++ [Group [] (Some ex_cert) []]) /\ dep_doc toy_world ex_dep2 ex_gs2
  /\ cut (ex_gs1 ++ ex_gs2) (ex_gs1 ++ [Group [] (Some ex_cert) []]) ex_gs2
  /\ text_stamps (ex_gs1 ++ [Group [] (Some ex_cert) []]) <> [] /\ text_stamps ex_gs2 <> [].
Proof.
  split; [exact ex_regular|]. split; [exact ex_regular1|]. split; [exact ex_regular2|]. split; [exact ex_dep_doc|].
  split; [exact ex_dep1e_doc|]. split; [exact ex_dep2_doc|]. split; [exact ex_cut|]. split; discriminate.
Qed.

(** A DEP that was split by split.py: the files one after the other, each with any
    number of processes and any chunk size. *)
Theorem C47_split w b pick kind store doc n gs runs r par size s s' : hash_ok w -> pem_ok w -> kind <> P_certless ->
  plain_names doc -> dep_doc w doc gs -> canonical_texts gs -> certs_or_one gs ->
  split_py w kind doc n = (map snd runs, None) -> (1 <= par)%nat -> Forall (fun x => (1 <= fst (fst x))%nat) runs -> usual_state s ->
  verify_py w b pick (VerifyArgs true r par size) store s doc = Ok (Some s') <->
  verified_in_turn w b pick store r runs s s'.
Proof. exact (split_in_turn w b pick kind store doc n gs runs r par size s s'). Qed.
Print Assumptions C47_split.

Example C47_split_example pick : split_py toy_world P_file ex_dep 3 = (map snd ex_runs, None) /\ List.length ex_runs = 3%nat
  /\ verified_in_turn toy_world B_unique pick ex_store A_none ex_runs ex_new (cluster_to_json ex_end).
Proof. exact (conj (proj1 ex_split) (conj eq_refl (ex_in_turn pick))). Qed.
