(** The command line of verification_state.py in the toy world. *)
From Verif Require Import PyBase World Codec Receipt Json Pem KeyStore VerifyReceipt State DepParser Verify DepExport StateCli SpecReceipt ReceiptFacts RoundTrip2 SpecDep SpecCluster SpecDoc SpecChunks IncTheorems SpecExport
  VerifyFacts SpecState SpecConvert SpecStateCli ConvertFacts StateCliFacts ExampleWorld ExampleReceipts ExampleDep ExampleInc ExampleExport ExampleConvert.
Open Scope N_scope.
Open Scope py_scope.
Import State.

Definition ex_py (cmd : state_cmd) (s : json) : json :=
  match state_py toy_world Py3 B_unique 2 cmd s with Ok s' => s' | Err _ => JNull end.

(** A new state with one register *)
Definition ex_s0 : json := Eval vm_compute in ex_py S_create JNull.
Definition ex_s1 : json := Eval vm_compute in ex_py S_add ex_s0.
Definition ex_s2 : json := Eval vm_compute in ex_py (S_update (-1) ex_dep1 (Some ex_key)) ex_s1.
Definition ex_c1 : cluster := Cluster [new_register] (Unique []).
Definition ex_c1v : cluster := Eval vm_compute in fst (verifyDEP toy_world (load ex_dep1) ex_ks (Some ex_key) ex_c1 (Some 0%Z)).
Lemma ex_s1_read : cluster_of_json (load ex_s1) = Ok ex_c1.
Proof. vm_compute. reflexivity. Qed.
Lemma ex_updated : state_py toy_world Py3 B_unique 2 (S_update (-1) ex_dep1 (Some ex_key)) ex_s1 = Ok ex_s2
  /\ verifyDEP toy_world (load ex_dep1) ex_ks (Some ex_key) ex_c1 (Some 0%Z) = (ex_c1v, None)
  /\ cluster_of_json (load ex_s2) = Ok (Cluster (c_regs ex_c1v) (Unique [])) /\ c_used ex_c1v <> Unique [].
Proof. split; [vm_compute; reflexivity|]. split; [vm_compute; reflexivity|]. split; [vm_compute; reflexivity|discriminate]. Qed.
Lemma ex_c1_usual : usual new_register.
Proof. split; [tauto|discriminate]. Qed.

(** The ID of the first receipt is used again. *)
Definition ex_t5_dup := Eval vm_compute in
  ex_signed (ex_rec (lit "1") (lit "2017-01-01T09:00:00") (lit "0,00") (ex_tc (lit "1") 350) ex_t4).
Definition ex_dep_dup : json := ex_dep_of [ex_group ex_cert_text [] [ex_t5_dup]].
Lemma update_forgets : exists w py b k n doc doc2 key ks s c c1 s' cu,
  cluster_of_json (load s) = Ok c /\ verifyDEP w (load doc) ks key c (Some 0%Z) = (c1, None)
  /\ snd (verifyDEP w (load doc2) ks key c1 (Some 0%Z)) = Some (DuplicateReceiptId (lit "1"))
  /\ state_py w py b k (S_update n doc key) s = Ok s' /\ cluster_of_json (load s') = Ok cu /\ snd (verifyDEP w (load doc2) ks key cu (Some 0%Z)) = None.
Proof.
  exists toy_world, Py3, B_unique, 2%nat, 0%Z, ex_dep1, ex_dep_dup, (Some ex_key), ex_ks, ex_s1, ex_c1, ex_c1v, ex_s2, (Cluster (c_regs ex_c1v) (Unique [])).
  split; [exact ex_s1_read|]. split; [apply ex_updated|]. split; [vm_compute; reflexivity|]. split; [vm_compute; reflexivity|]. split; [apply ex_updated|]. vm_compute. reflexivity.
Qed.

(** A second register is added and reset: the IDs of the first are forgotten. *)
Definition ex_s3 : json := Eval vm_compute in ex_py S_add (cluster_to_json ex_c1v).
Definition ex_s4 : json := Eval vm_compute in ex_py (S_reset 1) ex_s3.
Definition ex_c3 : cluster := Cluster (c_regs ex_c1v ++ [new_register]) (c_used ex_c1v).
Definition ex_c4 : cluster := Cluster (c_regs ex_c1v ++ [new_register]) (Unique []).
Lemma reset_forgets : exists w py b k s s' c c' doc key ks,
  cluster_of_json (load s) = Ok c /\ state_py w py b k (S_reset 1) s = Ok s' /\ cluster_of_json (load s') = Ok c'
  /\ snd (verifyDEP w (load doc) ks key c (Some 0%Z)) = Some (DuplicateReceiptId (lit "1")) /\ snd (verifyDEP w (load doc) ks key c' (Some 0%Z)) = None.
Proof.
  exists toy_world, Py3, B_unique, 2%nat, ex_s3, ex_s4, ex_c3, ex_c4, ex_dep_dup, (Some ex_key), ex_ks.
  split; [vm_compute; reflexivity|]. split; [vm_compute; reflexivity|]. split; [vm_compute; reflexivity|]. split; vm_compute; reflexivity.
Qed.

Definition ex_edits : list state_cmd :=
  [S_show; S_add; S_setLast 1 ex_t2; S_setCounter (-1) 700; S_setChain 1 (lit "None"); S_toggle 1; S_setStart (-2) ex_t1; S_readIds (Some (id_file [lit "7"; lit "8"]));
   S_copy 0 ex_s2 (-1); S_delete 1; S_reset 0].
Lemma ex_edited : forallb edit_cmd ex_edits = true /\ fold_left (fun s cmd => ex_py cmd s) ex_edits (cluster_to_json ex_c1v) = ex_s1
  /\ ex_py (S_copy 0 ex_s2 (-1)) ex_s1 = ex_s2 /\ ex_py (S_readIds (Some (id_file [lit "7"; lit "8"]))) ex_s1 = cluster_to_json (Cluster [new_register] (Unique [lit "7"; lit "8"])).
Proof. split; [reflexivity|]. split; [vm_compute; reflexivity|]. split; vm_compute; reflexivity. Qed.
