(** Counterexamples about parallel verification. *)
From Coq Require Import Lia.
From Verif Require Import PyBase World Codec Receipt DepBase Json Pem KeyStore VerifyReceipt State DepParser Verify SpecDep SpecCluster SeqFacts
  SpecState SpecChunks DictFacts ParTheorems BalanceFacts ExampleWorld ExampleReceipts ExampleDep.
Open Scope N_scope.
Open Scope py_scope.

Definition ex_pool2 : schedule := Schedule (Some 2%nat) 2 (fun _ => 0%nat).
Lemma ex_pool2_isolated : isolated ex_pool2.
Proof. vm_compute. intuition lia. Qed.

Definition ex_dep_middle : json := ex_dep_of [ex_group ex_cert_text [] [ex_t2; ex_t3]].
Definition ex_middle_seq : cluster := Eval vm_compute in fst (ex_run ex_dep_middle ex_middle (Some 0%Z)).
Definition ex_middle_par : cluster := Eval vm_compute in
  fst (verifyParsedDEP toy_world ex_pool2 (parse_dict toy_world 1 ex_dep_middle 1) ex_ks (Some ex_key) ex_middle (Some 0%Z)).

Lemma ex_dep_middle_is : dep_is toy_world ex_dep_middle [Group [ex_t2; ex_t3] (Some ex_cert) []].
Proof. eexists _, _. split; [reflexivity|]. split; [reflexivity|]. repeat constructor; apply ex_group_is. Qed.

Lemma parallel_middle : exists w sch dep n ks key r c c1 c2,
  hash_ok w /\ isolated sch /\ (forall gs, dep_is w dep gs -> certs_or_one gs)
  /\ fromArbitraryReceipt w r (lit "R1") key B_unique = Ok c
  /\ verifyDEP w dep ks key c (Some 0%Z) = (c1, None)
  /\ verifyParsedDEP w sch (parse_dict w 1 dep n) ks key c (Some 0%Z) = (c2, None)
  /\ map s_start (c_regs c1) = [None] /\ map s_start (c_regs c2) <> [None].
Proof.
  exists toy_world, ex_pool2, ex_dep_middle, 1%nat, ex_ks, (Some ex_key), ex_t2_receipt, ex_middle, ex_middle_seq, ex_middle_par.
  split; [exact toy_hash_ok|]. split; [exact ex_pool2_isolated|]. split.
  { intros gs H. rewrite <- (dep_is_fun _ _ _ _ ex_dep_middle_is H). right. reflexivity. }
  split; [vm_compute; reflexivity|]. split; [vm_compute; reflexivity|]. split; [vm_compute; reflexivity|].
  split; [reflexivity|discriminate].
Qed.

Lemma no_pool : exists w dep ks key c c', hash_ok w /\ usual_cluster c
  /\ verifyDEP w dep ks key c None = (c', None)
  /\ forall nprocs pick,
     ((nprocs = 1)%nat ->
      verifyParsedDEP w (Schedule None nprocs pick) (parse_dict w 1 dep 4) ks key c None = (c', None))
     /\ ((2 <= nprocs)%nat ->
         snd (verifyParsedDEP w (Schedule None nprocs pick) (parse_dict w 1 dep 4) ks key c None) <> None).
Proof.
  exists toy_world, ex_dep, ex_ks, (Some ex_key), ex_start, ex_end. split; [exact toy_hash_ok|]. split; [apply new_usual|].
  split; [exact ex_accepted|]. intros nprocs pick. split.
  - intros ->. assert (isolated (Schedule None 1 pick)) as Iso by (split; [cbn; lia|reflexivity]).
    exact (proj1 (parallel_dict toy_world (Schedule None 1 pick) ex_dep 1 4 ex_ks (Some ex_key) ex_start None ex_end toy_hash_ok Iso
      (new_usual B_unique)) ex_accepted).
  - intros N. assert (List.length (fst (parse_dict toy_world 1 ex_dep 4)) = 2%nat) as L by (vm_compute; reflexivity).
    apply shared_rejected; cbn [sch_nprocs sch_pool]; [reflexivity|lia| |lia|exact N|].
    + assert (forallb (existsb has_receipts) (fst (parse_dict toy_world 1 ex_dep 4)) = true) as F by (vm_compute; reflexivity).
      rewrite forallb_forall in F. apply Forall_forall. intros x Hx. apply F in Hx. apply existsb_exists in Hx as (g & Hg & X).
      apply Exists_exists. exists g. split; [exact Hg|]. unfold has_receipts in X. destruct (g_recs g); discriminate.
    + rewrite L. unfold task_size. lia.
Qed.

Definition ex_certless : json := ex_dep_of [ex_group [] [] [ex_c1]; ex_group [] [] [ex_c2]].

Lemma size_matters : exists w sch dep ks key c c',
  hash_ok w /\ isolated sch /\ usual_cluster c
  /\ snd (verifyDEP w dep ks key c None) = Some NoCertificateGiven
  /\ snd (verifyParsedDEP w sch (parse_dict w 1 dep 2) ks key c None) = Some NoCertificateGiven
  /\ verifyParsedDEP w sch (parse_dict w 1 dep 1) ks key c None = (c', None)
  /\ verifyParsedDEP w sch (parse_dict w 1 dep 0) ks key c None = (c', None).
Proof.
  exists toy_world, ex_pool2, ex_certless, ex_ks, (Some ex_key), ex_start, ex_cluster1.
  split; [exact toy_hash_ok|]. split; [exact ex_pool2_isolated|]. split; [apply new_usual|].
  split; [vm_compute; reflexivity|]. split; [vm_compute; reflexivity|]. split; vm_compute; reflexivity.
Qed.

Definition ex_text_group : json := JDict [(k_cert, JStr []); (k_certs, JList []); (k_recs, JStr (lit "x"))].

Lemma parts_exceeded : exists w dep chunks, parse_dict w 2 dep 0 = (chunks, None) /\ List.length chunks = 3%nat.
Proof.
  exists toy_world, (ex_dep_of [ex_text_group; ex_text_group; ex_text_group]).
  eexists. split; reflexivity.
Qed.
