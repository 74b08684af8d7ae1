(** Properties of parallel verification and of the distribution of work. *)
From Coq Require Import Lia.
From Verif Require Import PyBase World Codec Receipt DepBase Json Pem KeyStore VerifyReceipt State DepParser Verify SpecDep SpecCluster
  SpecState SpecChunks AcceptFacts DictFacts ParTheorems BalanceFacts ExampleWorld ExampleReceipts ExampleDep ExamplePar.
Open Scope N_scope.
Open Scope py_scope.

(** ** C22 Parallel verification equals sequential verification *)

(** What verifyDEP accepts is accepted by verifyParsedDEP, too, and the states of
    the cluster afterwards are the same: for all numbers of parts, chunk sizes,
    processes and schedules. *)
Theorem C22_accepts w sch dep nparts n ks key c idx c' : hash_ok w -> isolated sch -> usual_cluster c ->
  verifyDEP w dep ks key c idx = (c', None) ->
  verifyParsedDEP w sch (parse_dict w nparts dep n) ks key c idx = (c', None).
Proof. intros HO Iso U. exact (proj1 (parallel_dict w sch dep nparts n ks key c idx c' HO Iso U)). Qed.
Print Assumptions C22_accepts.

(** The converse holds for DEPs in which all groups with receipts have
    certificates, or that consist of one such group. *)
Theorem C22_exact w sch dep nparts n ks key c idx c' : hash_ok w -> isolated sch -> usual_cluster c ->
  (forall gs, dep_is w dep gs -> certs_or_one gs) ->
  verifyParsedDEP w sch (parse_dict w nparts dep n) ks key c idx = (c', None) <->
  verifyDEP w dep ks key c idx = (c', None).
Proof. exact (parallel_iff w sch dep nparts n ks key c idx c'). Qed.
Print Assumptions C22_exact.

(** New clusters are usual and stay so, whether or not DEPs are accepted. *)
Theorem C22_usual w dep ks key c idx b : hash_ok w ->
  usual_cluster (new_cluster b)
  /\ (usual_cluster c -> usual_cluster (fst (verifyDEP w dep ks key c idx))).
Proof. exact (usual_closed w dep ks key c idx b). Qed.
Print Assumptions C22_usual.

Definition ex_pool : schedule := Schedule (Some 2%nat) 4 (fun l => List.length l).
Example C22_example :
  isolated ex_pool /\ usual_cluster ex_start /\ dep_is toy_world ex_dep (ex_gs1 ++ ex_gs2) /\ certs_or_one (ex_gs1 ++ ex_gs2)
  /\ verifyParsedDEP toy_world ex_pool (parse_dict toy_world 3 ex_dep 0) ex_ks (Some ex_key) ex_start None = (ex_end, None)
  /\ List.length (fst (parse_dict toy_world 3 ex_dep 0)) = 3%nat
  /\ snd (verifyParsedDEP toy_world ex_pool (parse_dict toy_world 1 ex_bad 1) ex_ks (Some ex_key) ex_start None) <> None.
Proof.
  split; [vm_compute; intuition lia|]. split; [apply new_usual|]. split; [exact ex_dep_is|].
  split; [left; repeat constructor; discriminate|]. split; [vm_compute; reflexivity|]. split; [reflexivity|]. vm_compute. discriminate.
Qed.

(** The states differ if verification starts with a receipt in the middle: the
    prediction for the second package takes the first receipt for the start
    receipt, which is therefore recorded as such. *)
Theorem C22_middle_refuted : exists w sch dep n ks key r c c1 c2,
  hash_ok w /\ isolated sch /\ (forall gs, dep_is w dep gs -> certs_or_one gs)
  /\ fromArbitraryReceipt w r (lit "R1") key B_unique = Ok c
  /\ verifyDEP w dep ks key c (Some 0%Z) = (c1, None)
  /\ verifyParsedDEP w sch (parse_dict w 1 dep n) ks key c (Some 0%Z) = (c2, None)
  /\ map s_start (c_regs c1) = [None] /\ map s_start (c_regs c2) <> [None].
Proof. exact parallel_middle. Qed.
Print Assumptions C22_middle_refuted.

(** ** C23 Verification without pool *)

(** With the default backend, no DEP of at least two chunks can be verified in
    batches in which several packages belong to the same task. *)
Theorem C23_rejected w sch s ks key c idx : backend_of (c_used c) = B_unique -> (1 <= sch_nprocs sch)%nat ->
  Forall with_receipts (fst s) -> (2 <= List.length (fst s))%nat -> (2 <= sch_nprocs sch)%nat ->
  (2 <= task_size (sch_pool sch) (Nat.min (sch_nprocs sch) (List.length (fst s))))%nat ->
  snd (verifyParsedDEP w sch s ks key c idx) <> None.
Proof. exact (shared_rejected w sch s ks key c idx). Qed.
Print Assumptions C23_rejected.

(** This is always so without a pool if nprocs is not 1, *)
Theorem C23_refuted : exists w dep ks key c c', hash_ok w /\ usual_cluster c
  /\ verifyDEP w dep ks key c None = (c', None)
  /\ forall nprocs pick,
     ((nprocs = 1)%nat ->
      verifyParsedDEP w (Schedule None nprocs pick) (parse_dict w 1 dep 4) ks key c None = (c', None))
     /\ ((2 <= nprocs)%nat ->
         snd (verifyParsedDEP w (Schedule None nprocs pick) (parse_dict w 1 dep 4) ks key c None) <> None).
Proof. exact no_pool. Qed.
Print Assumptions C23_refuted.

(** but one chunk gives the same result for all values of nprocs, with or without a
    pool. *)
Theorem C23_one w sch1 sch2 ks key c cl idx : (1 <= sch_nprocs sch1)%nat -> (1 <= sch_nprocs sch2)%nat ->
  (match sch_pool sch1 with Some p => (1 <= p)%nat | None => True end) ->
  (match sch_pool sch2 with Some p => (1 <= p)%nat | None => True end) ->
  verifyParsedDEP w sch1 ([c], None) ks key cl idx = verifyParsedDEP w sch2 ([c], None) ks key cl idx.
Proof. exact (one_chunk w sch1 sch2 ks key c cl idx). Qed.
Print Assumptions C23_one.

Example C23_example :
  snd (verifyParsedDEP toy_world (Schedule None 2 (fun _ => 0%nat)) (parse_dict toy_world 1 ex_dep 4) ex_ks (Some ex_key) ex_start None)
  = Some (DuplicateReceiptId (lit "1"))
  /\ verifyParsedDEP toy_world (Schedule None 2 (fun _ => 0%nat)) (parse_dict toy_world 1 ex_dep 8) ex_ks (Some ex_key) ex_start None
  = (ex_end, None).
Proof. split; vm_compute; reflexivity. Qed.

(** ** C24 Chunk size *)

Theorem C24_size w sch sch' dep nparts nparts' n n' ks key c idx c' : hash_ok w -> isolated sch -> isolated sch' -> usual_cluster c ->
  (forall gs, dep_is w dep gs -> certs_or_one gs) ->
  verifyParsedDEP w sch (parse_dict w nparts dep n) ks key c idx = (c', None) <->
  verifyParsedDEP w sch' (parse_dict w nparts' dep n') ks key c idx = (c', None).
Proof. exact (any_size w sch sch' dep nparts nparts' n n' ks key c idx c'). Qed.
Print Assumptions C24_size.

(** Without certificates it depends on the chunk size whether a DEP is accepted
    that must be rejected. *)
Theorem C24_refuted : exists w sch dep ks key c c',
  hash_ok w /\ isolated sch /\ usual_cluster c
  /\ snd (verifyDEP w dep ks key c None) = Some NoCertificateGiven
  /\ snd (verifyParsedDEP w sch (parse_dict w 1 dep 2) ks key c None) = Some NoCertificateGiven
  /\ verifyParsedDEP w sch (parse_dict w 1 dep 1) ks key c None = (c', None)
  /\ verifyParsedDEP w sch (parse_dict w 1 dep 0) ks key c None = (c', None).
Proof. exact size_matters. Qed.
Print Assumptions C24_refuted.

Example C24_example :
  verifyParsedDEP toy_world ex_pool (parse_dict toy_world 1 ex_dep 3) ex_ks (Some ex_key) ex_start None = (ex_end, None)
  /\ verifyParsedDEP toy_world ex_pool (parse_dict toy_world 2 ex_dep 0) ex_ks (Some ex_key) ex_start None = (ex_end, None).
Proof. split; vm_compute; reflexivity. Qed.

(** ** C27 Part count *)

(** Every successful parse into [np] parts gives at most [np] chunks, which
    contain the receipts of the DEP as required for this number of receipts per
    chunk. *)
Theorem C27_parts w np dep chunks : (1 < np)%nat -> arrays dep -> parse_dict w np dep 0 = (chunks, None) ->
  (1 <= List.length chunks <= np)%nat
  /\ exists gs dgs, dep_is w dep gs /\ Forall2 encoded gs dgs /\ delivers (ceil_div (size dgs) np) dgs chunks.
Proof. exact (parts_bound w np dep chunks). Qed.
Print Assumptions C27_parts.

Example C27_example :
  arrays ex_dep /\ snd (parse_dict toy_world 3 ex_dep 0) = None
  /\ map size (fst (parse_dict toy_world 3 ex_dep 0)) = [3; 3; 2]%nat
  /\ map (@List.length _) (fst (parse_dict toy_world 3 ex_dep 0)) = [2; 2; 1]%nat.
Proof.
  split.
  - intros d js E K. injection E as <-. injection K as <-. repeat constructor; intros g jr E K; injection E as <-; injection K as <-; eauto.
  - split; [reflexivity|]. split; vm_compute; reflexivity.
Qed.

(** The receipts are not counted if the element is not an array. *)
Theorem C27_text_refuted : exists w dep chunks, parse_dict w 2 dep 0 = (chunks, None) /\ List.length chunks = 3%nat.
Proof. exact parts_exceeded. Qed.
Print Assumptions C27_text_refuted.

(** ** C29 Distribution of work *)

(** Groups are distributed onto at most as many packages as there are processes:
    nothing is lost, doubled or reordered, every receipt keeps its verifier, no
    package or group is empty, and no package has more than its share. If there
    are no receipts at all, an exception is raised. *)
Theorem C29_balance {A} (groups : list (list A * nat)) np : (1 <= np)%nat ->
  (assigned groups = [] /\ balanceGroupsWithVerifiers groups np = Err PyValueError)
  \/ exists pkgs, assigned groups <> [] /\ balanceGroupsWithVerifiers groups np = Ok pkgs
      /\ flat_map assigned pkgs = assigned groups
      /\ (1 <= List.length pkgs <= np)%nat
      /\ Forall (fun p => assigned p <> [] /\ Forall (fun g => fst g <> []) p /\ alternating p
           /\ (List.length (assigned p) <= ceil_div (List.length (assigned groups)) np)%nat) pkgs.
Proof. exact (balance_spec groups np). Qed.
Print Assumptions C29_balance.

(** Chunks are distributed onto batches of at most as many chunks as there are
    processes. If the parser raises an exception, so does the distribution, after
    complete batches. *)
Theorem C29_batches {A} (s : stream A) n : (1 <= n)%nat ->
  snd (getChunksForProcs s n) = snd s
  /\ Forall (fun b => (1 <= List.length b <= n)%nat) (fst (getChunksForProcs s n))
  /\ exists rest, concat (fst (getChunksForProcs s n)) ++ rest = fst s
     /\ (snd s = None -> rest = []) /\ (List.length rest < n)%nat.
Proof. exact (batches_of s n). Qed.
Print Assumptions C29_batches.

(** A package has the groups of the chunk with the verifiers due to them. *)
Theorem C29_package w ks c p : hash_ok w -> packageChunkWithVerifiers w ks c = Ok p ->
  p = map (fun g => (g_recs g, verifier_of ks (g_cert g))) c.
Proof. exact (package_groups w ks c p). Qed.
Print Assumptions C29_package.

Example C29_example :
  balanceGroupsWithVerifiers [([1; 2; 3], 0%nat); ([], 1%nat); ([4; 5], 1%nat); ([6; 7], 0%nat)] 3
  = Ok [[([1; 2; 3], 0%nat)]; [([4; 5], 1%nat); ([6], 0%nat)]; [([7], 0%nat)]]
  /\ getChunksForProcs ([1; 2; 3; 4; 5], None) 2 = ([[1; 2]; [3; 4]; [5]], None)
  /\ packageChunkWithVerifiers toy_world ex_ks [DGroup [ex_t1] (Some ex_cert) []] = Ok [([ex_t1], fromCert ex_cert)].
Proof. split; [reflexivity|]. split; [reflexivity|]. vm_compute. reflexivity. Qed.
