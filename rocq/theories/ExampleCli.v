(** A DEP verified with verify.py in one go and in parts. *)
From Coq Require Import Lia.
From Verif Require Import PyBase World Codec Receipt Json KeyStore State DepParser Verify DepExport SpecDep SpecCluster SpecState SpecChunks SpecDoc SpecKeys SpecExport
  ParTheorems StateFacts Cli SpecCli CliFacts ExampleWorld ExampleReceipts ExampleDep ExampleInc ExampleExport.
Open Scope N_scope.

Definition ex_store : json := Eval vm_compute in writeStoreToJson toy_world ex_ks (Some (b64encode ex_key)).
Lemma ex_store_key : loadKeyFromJson (load ex_store) = Ok (Some ex_key).
Proof. vm_compute. reflexivity. Qed.
Lemma ex_store_keys : readStoreFromJson toy_world (load ex_store) = Ok ex_ks.
Proof. vm_compute. reflexivity. Qed.

Lemma ex_regular : regular_file toy_world ex_dep.
Proof.
  split; [apply plainb_ok; vm_compute; reflexivity|]. exists (ex_gs1 ++ ex_gs2). split; [exact ex_dep_doc|]. left; repeat constructor; discriminate.
Qed.

Definition ex_new : json := verify_py_new B_unique.
Lemma ex_new_usual : usual_state ex_new.
Proof. exact (written_usual_state toy_world ex_new toy_hash_ok (written_new toy_world B_unique)). Qed.

(** With any number of processes and any chunk size *)
Lemma ex_verified pick par size : (1 <= par)%nat ->
  verify_py toy_world B_unique pick (VerifyArgs true A_none par size) ex_store ex_new ex_dep = Ok (Some (cluster_to_json ex_end)).
Proof.
  intros H. apply verify_py_spec; [exact toy_hash_ok|exact H|exact ex_new_usual|exact ex_regular|].
  exists (Some ex_key), ex_ks, ex_start, ex_end. split; [exact ex_store_key|]. split; [exact ex_store_keys|].
  split; [apply cluster_file_roundtrip; constructor|]. split; [exact ex_accepted|reflexivity].
Qed.

(** Some runs for the files of ex_split *)
Definition ex_runs : list (nat * nat * json) := combine [(1%nat, 0%nat); (4%nat, 0%nat); (2%nat, 1%nat)] ex_files.
Lemma ex_runs_files : map snd ex_runs = ex_files.
Proof. reflexivity. Qed.
Lemma ex_in_turn pick : verified_in_turn toy_world B_unique pick ex_store A_none ex_runs ex_new (cluster_to_json ex_end).
Proof.
  apply (split_in_turn toy_world B_unique pick P_file ex_store ex_dep 3 (ex_gs1 ++ ex_gs2) ex_runs A_none 1 0).
  - exact toy_hash_ok.
  - exact toy_pem_ok.
  - discriminate.
  - exact (proj1 ex_regular).
  - exact ex_dep_doc.
  - exact ex_canonical.
  - left; repeat constructor; discriminate.
  - rewrite ex_runs_files. exact (proj1 ex_split).
  - lia.
  - unfold ex_runs. assert (List.length ex_files = 3%nat) as L by reflexivity. destruct ex_files as [|? [|? [|? [|? ?]]]]; try discriminate.
    cbn [combine]. repeat first [apply Forall_nil|apply Forall_cons; [cbn [fst]; lia|]].
  - exact ex_new_usual.
  - apply ex_verified. lia.
Qed.

(** Parts *)
Lemma ex_dep1e_doc : dep_doc toy_world ex_dep1e (ex_gs1 ++ [Group [] (Some ex_cert) []]).
Proof.
  eexists _, _. split; [reflexivity|]. split; [once_at 0%nat|].
  constructor; [apply ex_group_doc|]. constructor; [apply ex_group_doc|]. constructor; [apply ex_group_doc|constructor].
Qed.
Lemma ex_regular1 : regular_file toy_world ex_dep1e.
Proof.
  split; [apply plainb_ok; vm_compute; reflexivity|]. eexists. split; [exact ex_dep1e_doc|]. left; repeat constructor; discriminate.
Qed.
Lemma ex_regular2 : regular_file toy_world ex_dep2.
Proof.
  split; [apply plainb_ok; vm_compute; reflexivity|]. eexists. split; [exact ex_dep2_doc|]. left; repeat constructor; discriminate.
Qed.
