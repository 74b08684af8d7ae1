(** Verification with worker processes: an example, and a key that no worker can report. *)
From Verif Require Import PyBase World Codec CodecFacts CodecFacts2 PemFacts Algo Receipt Json Pem KeyStore VerifyReceipt State DepBase DepParser Verify Cli Pool
  ListFacts SpecReceipt SpecDep SpecKeys KeyFacts SpecCluster SpecClean SpecPool CleanFacts PoolFacts PoolFacts2
  ExampleWorld ExampleReceipts ExampleDep ExampleClean ExampleKeys ExampleCli.
Open Scope N_scope.

Lemma toy_cert_keys : cert_keys_ok toy_world.
Proof.
  intros c [t H]. cbn [toy_world w_load_cert w_cert_pubkey] in *.
  assert (is_bytes c) as B.
  { unfold toy_unpem in H. destruct (split_char c_nl t) as [|l l0]; [discriminate|].
    destruct (a2b_base64 (List.concat (removelast l0))) as [[|b bs]|] eqn:E; try discriminate. apply Some_inj in H. subst c. now apply a2b_bytes in E. }
  assert (is_bytes [nth 1 c 0]) as B1.
  { constructor; [|constructor]. destruct c as [|a [|b c]]; [reflexivity|reflexivity|]. exact (Forall_inv (Forall_inv_tail B)). }
  exists (pem_text key_label [b64encode [nth 1 c 0]] []). cbn [toy_world w_load_pubkey]. rewrite toy_unpem_text.
  - cbn [List.concat]. rewrite app_nil_r, a2b_b64encode by exact B1. reflexivity.
  - cbn. unfold c_nl. intuition discriminate.
  - constructor; [apply b64encode_data|constructor].
Qed.

(** The store of the example without a key for the counters, and with an empty one *)
Definition ex_store_empty : json := Eval vm_compute in writeStoreToJson toy_world ex_ks (Some []).

Lemma ex_usable : forall key, loadKeyFromJson (load ex_store) = Ok key -> usable_key key.
Proof. intros key H. rewrite ex_store_key in H. apply Ok_inj in H. subst key. intros k E. apply Some_inj in E. now subst k. Qed.
Lemma ex_pool : verify_py_pool toy_world B_unique (fun _ => 0%nat) (VerifyArgs false A_none 2 0) ex_store JNull ex_dep = Some (Ok None).
Proof. vm_compute. reflexivity. Qed.
Lemma ex_pool_fails : verify_py_pool toy_world B_unique (fun _ => 0%nat) (VerifyArgs false A_none 2 0) ex_store JNull ex_bad = Some (Err (NoRestoreReceipt (lit "8"))).
Proof. vm_compute. reflexivity. Qed.

Theorem pool_never : exists w b pick a store stdin dep, pem_ok w /\ cert_keys_ok w
  /\ verify_py w b pick a store stdin dep = Err InvalidKey /\ verify_py_pool w b pick a store stdin dep = None.
Proof.
  exists toy_world, B_unique, (fun _ => 0%nat), (VerifyArgs false A_none 2 0), ex_store_empty, JNull, ex_dep.
  split; [exact toy_pem_ok|]. split; [exact toy_cert_keys|]. split; vm_compute; reflexivity.
Qed.
