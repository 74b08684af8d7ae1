(** Properties of register states, used receipt IDs and of their serialisation. *)
From Coq Require Import Permutation.
From Verif Require Import PyBase World Codec Algo Receipt DepBase Json KeyStore VerifyReceipt State DepParser Verify SpecDep
  SpecCluster SpecState StateFacts UpdateFacts ExampleWorld ExampleReceipts ExampleDep.
Open Scope N_scope.
Open Scope py_scope.

(** ** C21 Update without verification *)

(** Whatever verification of a group makes of the state of a register, the update
    without verification makes of it as well. *)
Theorem C21_update w g v key ps reg u reg' u' : proper v -> usual reg ->
  verifyGroup w g v key ps reg u = Ok (reg', u') ->
  updateFromDEPGroup w reg g key = Ok reg' /\ usual reg'.
Proof. exact (update_faithful w g v key ps reg u reg' u'). Qed.
Print Assumptions C21_update.

(** The same for the groups of a package one after the other *)
Theorem C21_package w groups key ps reg u reg' u' : Forall (fun g => proper (snd g)) groups -> usual reg ->
  verifyGroupsWithVerifiers w groups key ps reg u = Ok (reg', u') ->
  predict_groups w key reg groups = Ok reg' /\ usual reg'.
Proof. exact (predict_faithful w groups key ps reg u reg' u'). Qed.
Print Assumptions C21_package.

Example C21_example :
  usual new_register
  /\ verifyGroup toy_world [ex_t1; ex_t2; ex_t3; ex_t4] (fromCert ex_cert) (Some ex_key) None new_register (Unique [])
     = Ok (hd new_register (c_regs ex_mid), c_used ex_mid)
  /\ updateFromDEPGroup toy_world new_register [ex_t1; ex_t2; ex_t3; ex_t4] (Some ex_key)
     = Ok (hd new_register (c_regs ex_mid)).
Proof.
  split; [split; [split; intros _; now left|discriminate]|]. split; vm_compute; reflexivity.
Qed.

(** A state made by fromArbitraryReceipt has a last receipt but no start receipt.
    Verification leaves the start receipt unset, the update sets it. *)
Theorem C21_middle_refuted : exists w r c reg g v key u reg' u' reg'',
  fromArbitraryReceipt w r (lit "R1") key B_unique = Ok c /\ c_regs c = [reg]
  /\ verifyGroup w g v key None reg u = Ok (reg', u')
  /\ updateFromDEPGroup w reg g key = Ok reg''
  /\ s_start reg' = None /\ s_start reg'' <> None.
Proof.
  exists toy_world, ex_t2_receipt, ex_middle, ex_middle_reg, [ex_t2; ex_t3], (fromCert ex_cert), (Some ex_key), (Unique []).
  exists (fst ex_middle_after), (snd ex_middle_after).
  exists (RegState (Some ex_t2) (s_last (fst ex_middle_after)) (s_counter (fst ex_middle_after))
            (s_restore (fst ex_middle_after)) (s_chain (fst ex_middle_after))).
  split; [vm_compute; reflexivity|]. split; [reflexivity|]. split; [vm_compute; reflexivity|].
  split; [vm_compute; reflexivity|]. split; [reflexivity|discriminate].
Qed.
Print Assumptions C21_middle_refuted.

(** ** C30 Used receipt IDs *)

(** The IDs of all parts can be used one by one exactly if those of each part can be
    on their own and the results can be merged; the outcome is the same. *)
Theorem C30_merge w parts u v :
  use_ids w u (concat parts) = Ok v <->
  exists ps, Forall2 (fun part p => use_ids w (used_new (backend_of u)) part = Ok p) parts ps
    /\ used_merge w u ps = Ok v.
Proof. exact (merge_spec w parts u v). Qed.
Print Assumptions C30_merge.

(** Sets: neither the order of recorded IDs nor of new ones matters. *)
Theorem C30_order w a a' l l' v : Permutation a a' -> Permutation l l' ->
  use_ids w (Unique a) l = Ok v -> exists v', use_ids w (Unique a') l' = Ok v' /\ same_used v v'.
Proof. exact (set_order w a a' l l' v). Qed.
Print Assumptions C30_order.

Theorem C30_sorted w l v :
  use_ids w (used_new B_natural) l = Ok v -> exists v', use_ids w (used_new B_unique) l = Ok v'.
Proof. exact (sorted_set w l v). Qed.
Print Assumptions C30_sorted.

Example C30_example :
  use_ids toy_world (Unique [lit "b"]) (concat [[lit "a"; lit "c"]; []; [lit "d"]]) = Ok (Unique [lit "b"; lit "a"; lit "c"; lit "d"])
  /\ used_merge toy_world (Unique [lit "b"]) [Unique [lit "a"; lit "c"]; Unique []; Unique [lit "d"]]
     = Ok (Unique [lit "b"; lit "a"; lit "c"; lit "d"])
  /\ used_merge toy_world (Unique [lit "b"]) [Unique [lit "a"; lit "c"]; Unique [lit "b"]] = Err (DuplicateReceiptId (lit "b"))
  /\ use_ids toy_world (used_new B_natural) [lit "A9"; lit "a10"; lit "B2"] = Ok (Natural (Some (lit "A9")) (Some (lit "B2")))
  /\ used_merge toy_world (Natural (Some (lit "A9")) (Some (lit "a10"))) [Natural None None; Natural (Some (lit "B2")) (Some (lit "B7"))]
     = Ok (Natural (Some (lit "A9")) (Some (lit "B7"))).
Proof. repeat split; vm_compute; reflexivity. Qed.

(** The converse of C30_sorted is false by design: IDs out of order, and also two that
    differ by case only. *)
Example C30_sorted_example :
  use_ids toy_world (used_new B_unique) [lit "a1"; lit "A1"] = Ok (Unique [lit "a1"; lit "A1"])
  /\ use_ids toy_world (used_new B_natural) [lit "a1"; lit "A1"] = Err (DuplicateReceiptId (lit "A1")).
Proof. split; vm_compute; reflexivity. Qed.

(** ** C34 Serialisation of the state *)

Theorem C34_roundtrip c : wf_used (c_used c) -> cluster_of_json (load (cluster_to_json c)) = Ok c.
Proof. exact (cluster_file_roundtrip c). Qed.
Print Assumptions C34_roundtrip.

(** Every state that was read meets the condition; so does the new one, and
    verification keeps it. *)
Theorem C34_read j c : cluster_of_json j = Ok c -> wf_used (c_used c).
Proof. exact (cluster_read_wf j c). Qed.
Print Assumptions C34_read.

Theorem C34_wf w dep ks key c idx c' e : hash_ok w ->
  wf_used (c_used c) -> verifyDEP w dep ks key c idx = (c', e) -> wf_used (c_used c').
Proof. exact (verify_wf w dep ks key c idx c' e). Qed.
Print Assumptions C34_wf.

(** The order in which a set is written does not matter. *)
Theorem C34_order w dep ks key regs u u' idx c1 : hash_ok w -> same_used u u' ->
  verifyDEP w dep ks key (Cluster regs u) idx = (c1, None) ->
  exists c1', verifyDEP w dep ks key (Cluster regs u') idx = (c1', None)
    /\ c_regs c1' = c_regs c1 /\ same_used (c_used c1) (c_used c1').
Proof. exact (same_state w dep ks key regs u u' idx c1). Qed.
Print Assumptions C34_order.

(** Verification goes on after writing and reading the state. *)
Example C34_example :
  wf_used (c_used ex_mid)
  /\ cluster_of_json (load (cluster_to_json ex_mid)) = Ok ex_mid
  /\ cluster_of_json (load (cluster_to_json ex_end_natural)) = Ok ex_end_natural
  /\ same_used (Unique [lit "1"; lit "2"]) (Unique [lit "2"; lit "1"]).
Proof.
  split.
  - apply (C34_read (cluster_to_json ex_mid)). vm_compute. reflexivity.
  - split; [vm_compute; reflexivity|]. split; [vm_compute; reflexivity|]. apply perm_swap.
Qed.
