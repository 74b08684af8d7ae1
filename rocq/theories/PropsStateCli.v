(** The command line of verification_state.py. *)
From Verif Require Import PyBase World Codec Receipt Json Pem KeyStore VerifyReceipt State DepParser Verify DepExport StateCli SpecReceipt ReceiptFacts RoundTrip2 SpecDep SpecCluster SpecDoc SpecChunks IncTheorems SpecExport
  VerifyFacts SpecState SpecConvert SpecStateCli ConvertFacts StateCliFacts StateCliFacts2 ExampleWorld ExampleReceipts ExampleDep ExampleInc ExampleExport ExampleConvert ExampleStateCli.
Open Scope N_scope.
Import State.

(** ** C52 Editing a state file *)

(** A command succeeds exactly if the state file can be read and allows the change, and the new
    file stands for the state after it. *)
Theorem C52_commands w py b k cmd s s' : edit_cmd cmd = true ->
  state_py w py b k cmd s = Ok s' <->
  exists c c', cluster_of_json (load s) = Ok c /\ changes w b cmd c c' /\ s' = cluster_to_json c' /\ cluster_of_json (load s') = Ok c'.
Proof. exact (edit_spec w py b k cmd s s'). Qed.
Print Assumptions C52_commands.

(** The IDs of a file with one ID per line *)
Theorem C52_ids w ids : Forall (fun i => ~ In c_nl i /\ ~ In 13 i /\ no_edge_space w i) ids -> ids_of_file w (Some (id_file ids)) = ids.
Proof. exact (id_file_read w ids). Qed.
Print Assumptions C52_ids.

Example C52_example : forallb edit_cmd ex_edits = true /\ fold_left (fun s cmd => ex_py cmd s) ex_edits (cluster_to_json ex_c1v) = ex_s1
  /\ ex_py (S_copy 0 ex_s2 (-1)) ex_s1 = ex_s2 /\ ex_py (S_readIds (Some (id_file [lit "7"; lit "8"]))) ex_s1 = cluster_to_json (Cluster [new_register] (Unique [lit "7"; lit "8"])).
Proof. exact ex_edited. Qed.

(** Resetting one register forgets the IDs of the others: a DEP of register 0 that is refused
    because of a used ID is accepted after register 1 was reset. *)
Theorem C52_reset_refuted : exists w py b k s s' c c' doc key ks,
  cluster_of_json (load s) = Ok c /\ state_py w py b k (S_reset 1) s = Ok s' /\ cluster_of_json (load s') = Ok c'
  /\ snd (verifyDEP w (load doc) ks key c (Some 0%Z)) = Some (DuplicateReceiptId (lit "1")) /\ snd (verifyDEP w (load doc) ks key c' (Some 0%Z)) = None.
Proof. exact reset_forgets. Qed.
Print Assumptions C52_reset_refuted.

(** ** C53 Updating a register without verification *)

(** If verification would accept the DEP, updateCashRegister leads to the same registers. The used IDs
    stay as they are. *)
Theorem C53_update w py b k n doc gs key ks s c before reg after c' : hash_ok w -> plain_names doc -> dep_doc w doc gs ->
  cluster_of_json (load s) = Ok c -> c_regs c = before ++ reg :: after -> usual reg -> at_index n before after ->
  verifyDEP w (load doc) ks key c (Some (Z.of_nat (List.length before))) = (c', None) ->
  exists s', state_py w py b k (S_update n doc key) s = Ok s' /\ cluster_of_json (load s') = Ok (Cluster (c_regs c') (c_used c)).
Proof. exact (update_verified w py b k n doc gs key ks s c before reg after c'). Qed.
Print Assumptions C53_update.

(** A further DEP that is accepted after verification is also accepted after it. *)
Theorem C53_continues w py b k n doc gs key ks s c before reg after c' ids doc2 c2 : hash_ok w -> plain_names doc -> dep_doc w doc gs ->
  cluster_of_json (load s) = Ok c -> c_used c = Unique ids -> c_regs c = before ++ reg :: after -> usual reg -> at_index n before after ->
  verifyDEP w (load doc) ks key c (Some (Z.of_nat (List.length before))) = (c', None) ->
  verifyDEP w (load doc2) ks key c' (Some (Z.of_nat (List.length before))) = (c2, None) ->
  exists s' cu c2', state_py w py b k (S_update n doc key) s = Ok s' /\ cluster_of_json (load s') = Ok cu
    /\ verifyDEP w (load doc2) ks key cu (Some (Z.of_nat (List.length before))) = (c2', None) /\ c_regs c2' = c_regs c2.
Proof. exact (update_continues w py b k n doc gs key ks s c before reg after c' ids doc2 c2). Qed.
Print Assumptions C53_continues.

Example C53_example : hash_ok toy_world /\ plain_names ex_dep1 /\ dep_doc toy_world ex_dep1 ex_gs1 /\ cluster_of_json (load ex_s1) = Ok ex_c1 /\ c_regs ex_c1 = [] ++ new_register :: []
  /\ usual new_register /\ at_index (-1) [] [] /\ verifyDEP toy_world (load ex_dep1) ex_ks (Some ex_key) ex_c1 (Some 0%Z) = (ex_c1v, None)
  /\ snd (verifyDEP toy_world (load ex_dep2) ex_ks (Some ex_key) ex_c1v (Some 0%Z)) = None.
Proof.
  split; [exact toy_hash_ok|]. split; [apply plainb_ok; vm_compute; reflexivity|]. split; [exact ex_dep1_doc|]. split; [exact ex_s1_read|]. split; [reflexivity|].
  split; [exact ex_c1_usual|]. split; [right; reflexivity|]. split; [apply ex_updated|]. vm_compute. reflexivity.
Qed.

(** As the IDs of the DEP are not recorded, the reverse is false. *)
Theorem C53_ids_refuted : exists w py b k n doc doc2 key ks s c c1 s' cu,
  cluster_of_json (load s) = Ok c /\ verifyDEP w (load doc) ks key c (Some 0%Z) = (c1, None)
  /\ snd (verifyDEP w (load doc2) ks key c1 (Some 0%Z)) = Some (DuplicateReceiptId (lit "1"))
  /\ state_py w py b k (S_update n doc key) s = Ok s' /\ cluster_of_json (load s') = Ok cu /\ snd (verifyDEP w (load doc2) ks key cu (Some 0%Z)) = None.
Proof. exact update_forgets. Qed.
Print Assumptions C53_ids_refuted.

(** Files that are no DEP are never taken. *)
Theorem C53_document w py b k n doc key s s' : plain_names doc -> state_py w py b k (S_update n doc key) s = Ok s' -> exists gs, dep_doc w doc gs.
Proof. exact (update_document w py b k n doc key s s'). Qed.
Print Assumptions C53_document.

Example C53_document_example : plain_names ex_doc_lacking
  /\ state_py toy_world Py3 B_unique 2 (S_update 0 ex_doc_lacking None) ex_s1 = Err MissingDEPElement.
Proof. split; [apply plainb_ok; vm_compute; reflexivity|]. vm_compute. reflexivity. Qed.

(** ** C54 States from receipts in different formats *)
Theorem C54_formats w py b k key t r s : tabular w t -> reads w t r ->
  exists qr csv, toBasicCode r (lit "R1") = Ok qr /\ toCSV r (lit "R1") = Ok csv
    /\ state_py w py b k (S_from F_qr qr key) s = state_py w py b k (S_from F_jws t key) s
    /\ state_py w py b k (S_from F_csv csv key) s = state_py w py b k (S_from F_jws t key) s
    /\ state_py w py b k (S_fromStart F_qr qr) s = state_py w py b k (S_fromStart F_jws t) s
    /\ state_py w py b k (S_fromStart F_csv csv) s = state_py w py b k (S_fromStart F_jws t) s.
Proof. exact (from_formats w py b k key t r s). Qed.
Print Assumptions C54_formats.

Example C54_example : tabular toy_world ex_t2 /\ exists s', state_py toy_world Py3 B_unique 2 (S_from F_jws ex_t2 (Some ex_key)) JNull = Ok s'.
Proof. split; [apply tabularb_ok; vm_compute; reflexivity|]. eexists. vm_compute. reflexivity. Qed.

(** They serve for verification from that receipt on: of the rest of a register's receipts,
    and of one register of a cluster. *)
Theorem C54_middle w py dep dep2 gs gs1 gs2 ks key c idx c' t v rest r alg b k arg s : hash_ok w ->
  dep_is w dep gs -> dep_is w dep2 gs2 -> cut gs gs1 gs2 -> verifyDEP w dep ks key c idx = (c', None) ->
  dep_texts ks gs2 = (t, v) :: rest -> fromJWSString w t = Ok (r, alg) -> standard r -> strip (char_isspace w) arg = t ->
  b = backend_of (c_used c) \/ b = B_unique ->
  exists s' c0 c2 reg2 before reg after reg',
    state_py w py b k (S_from F_jws arg key) s = Ok s' /\ cluster_of_json (load s') = Ok c0
    /\ verifyDEP w dep2 ks key c0 (Some 0%Z) = (c2, None) /\ c_regs c2 = [reg2]
    /\ selects c idx before reg after /\ c_regs c' = before ++ reg' :: after
    /\ s_last reg2 = s_last reg' /\ (key <> None -> s_counter reg2 = s_counter reg').
Proof. exact (from_middle w py dep dep2 gs gs1 gs2 ks key c idx c' t v rest r alg b k arg s). Qed.
Print Assumptions C54_middle.

Example C54_middle_example : strip (char_isspace toy_world) ([32] ++ ex_t2) = ex_t2 /\ fromJWSString toy_world ex_t2 = Ok (ex_t2_receipt, lit "R1")
  /\ standard ex_t2_receipt /\ dep_texts ex_ks [Group [ex_t2; ex_t3] (Some ex_cert) []] = [(ex_t2, fromCert ex_cert); (ex_t3, fromCert ex_cert)]
  /\ state_py toy_world Py3 B_unique 2 (S_from F_jws ([32] ++ ex_t2) (Some ex_key)) JNull = Ok (cluster_to_json ex_middle).
Proof.
  split; [vm_compute; reflexivity|]. split; [vm_compute; reflexivity|]. split; [split; vm_compute; discriminate|].
  split; [reflexivity|vm_compute; reflexivity].
Qed.

Theorem C54_start w py dep gs ks key c idx before after c' t v rest b k arg s : hash_ok w -> dep_is w dep gs ->
  selects c idx before new_register after -> verifyDEP w dep ks key c idx = (c', None) ->
  dep_texts ks gs = (t, v) :: rest -> strip (char_isspace w) arg = t -> b = backend_of (c_used c) \/ b = B_unique ->
  exists s' c0 c2 reg', state_py w py b k (S_fromStart F_jws arg) s = Ok s' /\ cluster_of_json (load s') = Ok c0
    /\ verifyDEP w dep ks key c0 (Some 0%Z) = (c2, None) /\ c_regs c2 = [reg'] /\ c_regs c' = before ++ reg' :: after.
Proof. exact (from_start w py dep gs ks key c idx before after c' t v rest b k arg s). Qed.
Print Assumptions C54_start.

Definition ex_alone : cluster := Eval vm_compute in fromArbitraryStartReceipt (rec_of (fromJWSString toy_world ex_d1)) B_unique.
Example C54_start_example : strip (char_isspace toy_world) (ex_d1 ++ [c_nl]) = ex_d1
  /\ exists s' c0, state_py toy_world Py3 B_unique 2 (S_fromStart F_jws (ex_d1 ++ [c_nl])) JNull = Ok s' /\ cluster_of_json (load s') = Ok c0
       /\ snd (verifyDEP toy_world ex_depd ex_ks (Some ex_key) c0 (Some 0%Z)) = None.
Proof.
  split; [vm_compute; reflexivity|]. exists (cluster_to_json ex_alone), ex_alone. repeat split; vm_compute; reflexivity.
Qed.
