(** Verification that starts in the middle of a register's receipts. *)
From Verif Require Import PyBase World Codec PyFloat Algo Receipt DepBase Json KeyStore VerifyReceipt State DepParser Verify SpecDep
  SpecCluster MiddleFacts MiddleFacts2 ExampleWorld ExampleReceipts ExampleDep.
Open Scope N_scope.
Open Scope py_scope.

(** ** C33 Starting in the middle *)

(** If a DEP is accepted, so is any rest of it that begins with a standard receipt,
    from the state made for this receipt; last receipt and turnover counter are the
    same in the end. *)
Theorem C33_middle w dep dep2 gs gs1 gs2 ks key c idx c' s v rest r alg b : hash_ok w ->
  dep_is w dep gs -> dep_is w dep2 gs2 -> cut gs gs1 gs2 ->
  verifyDEP w dep ks key c idx = (c', None) ->
  dep_texts ks gs2 = (s, v) :: rest -> fromJWSString w s = Ok (r, alg) -> standard r ->
  b = backend_of (c_used c) \/ b = B_unique ->
  exists c0 c2 reg2 before reg after reg',
    fromArbitraryReceipt w r alg key b = Ok c0
    /\ verifyDEP w dep2 ks key c0 (Some 0%Z) = (c2, None)
    /\ c_regs c2 = [reg2]
    /\ selects c idx before reg after /\ c_regs c' = before ++ reg' :: after
    /\ s_last reg2 = s_last reg' /\ (key <> None -> s_counter reg2 = s_counter reg').
Proof. exact (middle w dep dep2 gs gs1 gs2 ks key c idx c' s v rest r alg b). Qed.
Print Assumptions C33_middle.

(** From the second of eight receipts on *)
Definition ex_rest : json := ex_dep_of [ex_group ex_cert_text [] [ex_t2; ex_t3; ex_t4; ex_t5; ex_t6; ex_t7; ex_t8]].
Lemma ex_dep12_is : dep_is toy_world ex_dep12 [Group [ex_t1; ex_t2; ex_t3; ex_t4; ex_t5; ex_t6; ex_t7; ex_t8] (Some ex_cert) []].
Proof. eexists _, _. split; [reflexivity|]. split; [reflexivity|]. repeat constructor; apply ex_group_is. Qed.
Lemma ex_rest_is : dep_is toy_world ex_rest [Group [ex_t2; ex_t3; ex_t4; ex_t5; ex_t6; ex_t7; ex_t8] (Some ex_cert) []].
Proof. eexists _, _. split; [reflexivity|]. split; [reflexivity|]. repeat constructor; apply ex_group_is. Qed.

Example C33_example :
  verifyDEP toy_world ex_dep12 ex_ks (Some ex_key) ex_start None = (ex_end, None)
  /\ cut [Group [ex_t1; ex_t2; ex_t3; ex_t4; ex_t5; ex_t6; ex_t7; ex_t8] (Some ex_cert) []] [Group [ex_t1] (Some ex_cert) []]
       [Group [ex_t2; ex_t3; ex_t4; ex_t5; ex_t6; ex_t7; ex_t8] (Some ex_cert) []]
  /\ fromJWSString toy_world ex_t2 = Ok (ex_t2_receipt, lit "R1") /\ standard ex_t2_receipt
  /\ fromArbitraryReceipt toy_world ex_t2_receipt (lit "R1") (Some ex_key) B_unique = Ok ex_middle
  /\ exists c2, verifyDEP toy_world ex_rest ex_ks (Some ex_key) ex_middle (Some 0%Z) = (c2, None)
       /\ map s_counter (c_regs c2) = [260%Z] /\ map s_counter (c_regs ex_end) = [260%Z].
Proof.
  split; [exact ex_accepted12|]. split.
  { exists [], [ex_t1], [ex_t2; ex_t3; ex_t4; ex_t5; ex_t6; ex_t7; ex_t8], (Some ex_cert), [], [].
    split; [reflexivity|]. split; [reflexivity|]. split; [reflexivity|]. right. split; reflexivity. }
  split; [vm_compute; reflexivity|]. split; [split; intros H; vm_compute in H; discriminate H|].
  split; [vm_compute; reflexivity|].
  exists (fst (verifyDEP toy_world ex_rest ex_ks (Some ex_key) ex_middle (Some 0%Z))).
  split; [vm_compute; reflexivity|]. split; vm_compute; reflexivity.
Qed.

(** From the cancellation on: the made up state has no turnover, so that the next
    standard receipt is rejected. *)
Definition ex_rest6 : json := ex_dep_of [ex_group ex_cert_text [] [ex_t6; ex_t7; ex_t8]].
Definition ex_t6_receipt : receipt := Eval vm_compute in rec_of (fromJWSString toy_world ex_t6).
Definition ex_middle6 : cluster := Eval vm_compute in
  match fromArbitraryReceipt toy_world ex_t6_receipt (lit "R1") (Some ex_key) B_unique with Ok c => c | Err _ => ex_start end.

Theorem C33_cancellation_refuted : exists w dep dep2 gs gs1 gs2 ks key c c' s v rest r c0,
  hash_ok w /\ dep_is w dep gs /\ dep_is w dep2 gs2 /\ cut gs gs1 gs2
  /\ verifyDEP w dep ks key c None = (c', None)
  /\ dep_texts ks gs2 = (s, v) :: rest /\ fromJWSString w s = Ok (r, lit "R1") /\ cancellation r
  /\ fromArbitraryReceipt w r (lit "R1") key (backend_of (c_used c)) = Ok c0
  /\ snd (verifyDEP w dep2 ks key c0 (Some 0%Z)) = Some (InvalidTurnoverCounter (lit "8")).
Proof.
  exists toy_world, ex_dep12, ex_rest6, [Group [ex_t1; ex_t2; ex_t3; ex_t4; ex_t5; ex_t6; ex_t7; ex_t8] (Some ex_cert) []],
    [Group [ex_t1; ex_t2; ex_t3; ex_t4; ex_t5] (Some ex_cert) []], [Group [ex_t6; ex_t7; ex_t8] (Some ex_cert) []],
    ex_ks, (Some ex_key), ex_start, ex_end, ex_t6, (fromCert ex_cert).
  eexists. exists ex_t6_receipt, ex_middle6.
  split; [exact toy_hash_ok|]. split; [exact ex_dep12_is|].
  split; [eexists _, _; split; [reflexivity|]; split; [reflexivity|]; repeat constructor; apply ex_group_is|].
  split.
  { exists [], [ex_t1; ex_t2; ex_t3; ex_t4; ex_t5], [ex_t6; ex_t7; ex_t8], (Some ex_cert), [], [].
    split; [reflexivity|]. split; [reflexivity|]. split; [reflexivity|]. right. split; reflexivity. }
  split; [exact ex_accepted12|]. split; [reflexivity|]. split; [vm_compute; reflexivity|]. split; [vm_compute; reflexivity|].
  split; vm_compute; reflexivity.
Qed.
Print Assumptions C33_cancellation_refuted.

(** The same for a register of a cluster: its DEP is accepted without the other registers, if
    verification starts from the state made from its start receipt, and leaves it in the
    same state. *)
Theorem C33_start w dep gs ks key c idx before after c' s v rest r alg b : hash_ok w -> dep_is w dep gs ->
  selects c idx before new_register after -> verifyDEP w dep ks key c idx = (c', None) ->
  dep_texts ks gs = (s, v) :: rest -> fromJWSString w s = Ok (r, alg) -> b = backend_of (c_used c) \/ b = B_unique ->
  exists c2 reg', verifyDEP w dep ks key (fromArbitraryStartReceipt r b) (Some 0%Z) = (c2, None)
    /\ c_regs c2 = [reg'] /\ c_regs c' = before ++ reg' :: after.
Proof. exact (start_alone w dep gs ks key c idx before after c' s v rest r alg b). Qed.
Print Assumptions C33_start.

(** The second register of the cluster; from a fresh state its DEP is refused. *)
Example C33_start_example : dep_is toy_world ex_depd [Group [ex_d1; ex_d2] None []]
  /\ selects ex_cluster1 None (c_regs ex_cluster1) new_register []
  /\ verifyDEP toy_world ex_depd ex_ks (Some ex_key) ex_cluster1 None = (ex_cluster2, None)
  /\ snd (verifyDEP toy_world ex_depd ex_ks (Some ex_key) ex_start None) = Some (InvalidChainingOnInitial (lit "B1")).
Proof.
  split; [eexists _, _; split; [reflexivity|]; split; [reflexivity|]; constructor; [|constructor];
    eexists _, (JList (map JStr [ex_d1; ex_d2])), [], []; split; [reflexivity|]; split; [reflexivity|]; split; [now left|];
    split; [reflexivity|]; split; [now left|]; split; [reflexivity|constructor]|].
  split; [apply sel_new; [now left|right; vm_compute; discriminate]|]. split; [exact ex_accepted_d|]. vm_compute. reflexivity.
Qed.
