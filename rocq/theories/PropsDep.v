(** Properties of DEP verification: C11-C20, C31, C32, C35.

    The vocabulary is that of SpecDep.v and SpecCluster.v. The statements about an
    accepted DEP name the register that was selected, the receipts of the DEP and
    the register's last receipt; all three are determined by the arguments, see
    [C11_determined]. *)
From Verif Require Import PyBase World Codec PyFloat PyTime Algo Receipt ReceiptFacts SpecReceipt DepBase Json Pem
  KeyStore VerifyReceipt State DepParser Verify SpecDep SpecCluster DepFacts StepFacts ClusterFacts AcceptFacts SeqFacts
  DepTheorems PartsFacts TamperFacts ExampleWorld ExampleReceipts ExampleDep.
From Coq Require Import Lia.
Open Scope N_scope.
Open Scope py_scope.

(** ** The objects the statements speak about are unique. *)
Theorem C11_determined w ks dep c idx :
  (forall l l', dep_items w ks dep l -> dep_items w ks dep l' -> l = l')
  /\ (forall b r a b' r' a', selects c idx b r a -> selects c idx b' r' a' -> b = b' /\ r = r' /\ a = a')
  /\ (forall reg p p', past_of w reg p -> past_of w reg p' -> p = p').
Proof. exact (conj (dep_items_fun w ks dep) (conj (selects_fun c idx) (past_of_fun w))). Qed.
Print Assumptions C11_determined.

(** ** C11 Chaining *)
Theorem C11_chaining w dep ks key c idx c' : hash_ok w ->
  verifyDEP w dep ks key c idx = (c', None) ->
  exists before reg after items p,
    selects c idx before reg after /\ dep_items w ks dep items /\ past_of w reg p /\ items <> []
    /\ (forall l1 a b l2, items = l1 ++ a :: b :: l2 -> chain_value w (i_jws a) (r_previousChain (i_rec b)))
    /\ (forall i r, items = i :: r ->
          match truthy (s_chain reg) with
          | Some v => r_previousChain (i_rec i) = v
          | None => chain_value w (predecessor_text (start_of_last before) p i) (r_previousChain (i_rec i))
          end).
Proof. exact (chaining w dep ks key c idx c'). Qed.
Print Assumptions C11_chaining.

(** The hypotheses of this and the following theorems are met by a DEP with eight
    receipts. *)
Example C11_example :
  hash_ok toy_world /\ verifyDEP toy_world ex_dep ex_ks (Some ex_key) ex_start None = (ex_end, None).
Proof. exact (conj toy_hash_ok ex_accepted). Qed.

(** ** C12 Signatures *)
Theorem C12_signatures w dep ks key c idx c' : hash_ok w ->
  verifyDEP w dep ks key c idx = (c', None) ->
  exists gs items,
    dep_is w dep gs /\ trust_rule w ks (occupied gs)
    /\ Forall2 (text_item w) (dep_texts ks gs) items /\ items <> []
    /\ Forall (fun i => cert_fits w (i_ver i) (i_rec i)
         /\ (unsigned (i_rec i) \/ exists k, key_of w (i_ver i) (i_rec i) k /\ signed_by w k (i_rec i))) items.
Proof. exact (signatures w dep ks key c idx c'). Qed.
Print Assumptions C12_signatures.

(** Verification notices a signature made with another key. *)
Definition C12_forged : str := Eval vm_compute in
  let f := ex_rec (lit "1") (lit "2017-01-01T08:00:00") (lit "0,00") (ex_tc (lit "1") 0) (lit "REG-1") in
  ex_input f ++ [c_dot] ++ b64url_nopad (toy_sign [8] (ex_input f)).
Example C12_example :
  snd (ex_run (ex_dep_of [ex_group ex_cert_text [] [C12_forged]]) ex_start None) = Some (InvalidSignature (lit "1")).
Proof. vm_compute. reflexivity. Qed.

(** ** C13 Receipt IDs *)
Theorem C13_unique w dep ks key c idx c' l : hash_ok w ->
  c_used c = Unique l ->
  verifyDEP w dep ks key c idx = (c', None) ->
  exists before reg after items p l',
    selects c idx before reg after /\ dep_items w ks dep items /\ past_of w reg p
    /\ NoDup (ids items)
    /\ (forall x, In x (ids items) -> In x l ->
          p = None /\ absent (start_of_last before) /\ exists i r, items = i :: r /\ x = r_receiptId (i_rec i))
    /\ c_used c' = Unique l' /\ (forall x, In x l' <-> In x l \/ In x (ids items)).
Proof. exact (unique_ids_set w dep ks key c idx c' l). Qed.
Print Assumptions C13_unique.

Theorem C13_sorted w dep ks key c idx c' mi ma : hash_ok w ->
  c_used c = Natural mi ma ->
  verifyDEP w dep ks key c idx = (c', None) ->
  exists before reg after items p,
    selects c idx before reg after /\ dep_items w ks dep items /\ past_of w reg p
    /\ NoDup (ids items) /\ increasing w (ids items)
    /\ (forall m x, ma = Some m -> In x (ids items) -> natural_lt w m x
          \/ (p = None /\ absent (start_of_last before))).
Proof. exact (unique_ids_sorted w dep ks key c idx c' mi ma). Qed.
Print Assumptions C13_sorted.

Example C13_example :
  c_used ex_mid = Unique [lit "1"; lit "2"; lit "3"; lit "4"]
  /\ verifyDEP toy_world ex_dep2 ex_ks (Some ex_key) ex_mid (Some 0%Z) = (ex_end, None)
  /\ verifyDEP toy_world ex_dep12 ex_ks (Some ex_key) ex_natural None = (ex_end_natural, None)
  /\ c_used ex_end_natural = Natural (Some (lit "1")) (Some (lit "8")).
Proof. split; [reflexivity|]. split; [exact ex_part2|]. split; [exact ex_accepted_natural|reflexivity]. Qed.

(** ** C14 Register, system type, time *)
Theorem C14_consistency w dep ks key c idx c' : hash_ok w ->
  verifyDEP w dep ks key c idx = (c', None) ->
  exists before reg after items p,
    selects c idx before reg after /\ dep_items w ks dep items /\ past_of w reg p
    /\ (forall l1 a l2 b l3, items = l1 ++ a :: l2 ++ b :: l3 -> agrees (i_rec b) (i_rec a))
    /\ (forall s r b, p = Some (s, r) -> In b items -> agrees (i_rec b) r)
    /\ (forall s r b, p = None -> cluster_past w (start_of_last before) (Some (s, r)) -> In b items -> agrees (i_rec b) r).
Proof. exact (consistency w dep ks key c idx c'). Qed.
Print Assumptions C14_consistency.

(** A receipt one second before its predecessor *)
Definition C14_early : str := Eval vm_compute in
  ex_signed (ex_rec (lit "2") (lit "2017-01-01T07:59:59") (lit "1,00") (ex_tc (lit "2") 100) ex_t1).
Example C14_example :
  snd (ex_run (ex_dep_of [ex_group ex_cert_text [] [ex_t1; C14_early]]) ex_start None) = Some (DecreasingDate (lit "2")).
Proof. vm_compute. reflexivity. Qed.

(** ** C15 Turnover counter *)
Theorem C15_counter w dep ks k c idx c' : hash_ok w ->
  verifyDEP w dep ks (Some k) c idx = (c', None) ->
  exists before reg after items reg',
    selects c idx before reg after /\ dep_items w ks dep items
    /\ c_regs c' = before ++ reg' :: after
    /\ (forall l1 i l2, items = l1 ++ i :: l2 -> standard (i_rec i) ->
          List.length k = 32%nat /\
          exists z, turnover (l1 ++ [i]) z /\ decrypts w k (i_rec i) (s_counter reg + z)%Z)
    /\ (exists z, turnover items z /\ s_counter reg' = (s_counter reg + z)%Z).
Proof. exact (counter w dep ks k c idx c'). Qed.
Print Assumptions C15_counter.

Example C15_example : map s_counter (c_regs ex_mid) = [350%Z] /\ map s_counter (c_regs ex_end) = [260%Z].
Proof. split; reflexivity. Qed.

(** ** C16 Start receipts *)
Theorem C16_start w dep ks key c idx c' : hash_ok w ->
  verifyDEP w dep ks key c idx = (c', None) ->
  exists before reg after items reg' i r,
    selects c idx before reg after /\ dep_items w ks dep items
    /\ c_regs c' = before ++ reg' :: after
    /\ items = i :: r
    /\ (past_of w reg None ->
        ~ unsigned (i_rec i) /\ zero (i_rec i) /\ standard (i_rec i)
        /\ (exists k, key_of w (i_ver i) (i_rec i) k /\ signed_by w k (i_rec i))
        /\ s_start reg' = Some (i_jws i)).
Proof. exact (start_receipt w dep ks key c idx c'). Qed.
Print Assumptions C16_start.

Example C16_example : past_of toy_world new_register None /\ map s_start (c_regs ex_end) = [Some ex_t1].
Proof. split; [now left|reflexivity]. Qed.

(** ** C17 Restore receipts *)
Theorem C17_restore w dep ks key c idx c' : hash_ok w ->
  verifyDEP w dep ks key c idx = (c', None) ->
  exists before reg after items p reg',
    selects c idx before reg after /\ dep_items w ks dep items /\ past_of w reg p
    /\ c_regs c' = before ++ reg' :: after
    /\ (s_restore reg = true -> forall i r, items = i :: r -> plain_zero (i_rec i))
    /\ (forall l1 i j l2, items = l1 ++ i :: j :: l2 ->
          calls_for_restore (last_of p l1) (i_rec i) -> plain_zero (i_rec j))
    /\ (forall l1 i, items = l1 ++ [i] -> (s_restore reg' = true <-> calls_for_restore (last_of p l1) (i_rec i))).
Proof. exact (restore w dep ks key c idx c'). Qed.
Print Assumptions C17_restore.

(** The example DEP has an outage; its first part ends where a restore receipt is due,
    which the second part begins with. *)
Example C17_example :
  map s_restore (c_regs ex_mid) = [true] /\ map s_restore (c_regs ex_end) = [false]
  /\ snd (ex_run ex_bad ex_start None) = Some (NoRestoreReceipt (lit "8")).
Proof. split; [reflexivity|]. split; [reflexivity|]. vm_compute. reflexivity. Qed.

(** ** C18 Exact acceptance condition *)
Theorem C18_exact w dep ks key c idx c' : hash_ok w ->
  verifyDEP w dep ks key c idx = (c', None) <->
  exists before reg after reg' p items,
    selects c idx before reg after
    /\ dep_ok w ks dep items
    /\ past_of w reg p
    /\ valid_sequence w key (start_of_last before) reg (c_used c) p items
    /\ register_after key reg p items reg'
    /\ c' = Cluster (before ++ reg' :: after) (used_after (c_used c) items).
Proof. exact (verifyDEP_spec w dep ks key c idx c'). Qed.
Print Assumptions C18_exact.

(** The same for lists of groups with verifiers, without a cluster *)
Theorem C18_groups w groups key ps reg u reg' u' :
  groups <> [] -> Forall (fun g => proper (snd g)) groups ->
  verifyGroupsWithVerifiers w groups key ps reg u = Ok (reg', u') <->
  exists p items, past_of w reg p /\ Forall2 (item_of w) (flat groups) items
    /\ valid_sequence w key ps reg u p items /\ register_after key reg p items reg' /\ u' = used_after u items.
Proof. exact (groups_spec w groups key ps reg u reg' u'). Qed.
Print Assumptions C18_groups.

(** ** C19 Tamper evidence *)
Theorem C19_same_length w dep dep' ks ks' key key' c c' idx idx' c1 c1' items items' : hash_ok w ->
  verifyDEP w dep ks key c idx = (c1, None) ->
  verifyDEP w dep' ks' key' c' idx' = (c1', None) ->
  dep_items w ks dep items -> dep_items w ks' dep' items' ->
  List.length items = List.length items' ->
  option_map fst (last_of None items) = option_map fst (last_of None items') ->
  map i_jws items = map i_jws items'
  \/ exists a a', In a items /\ In a' items' /\ chain_collision w (i_jws a) (i_jws a').
Proof. exact (tamper_evidence w dep dep' ks ks' key key' c c' idx idx' c1 c1' items items'). Qed.
Print Assumptions C19_same_length.

(** Complete DEPs, from the first receipt of a register on, of any length *)
Theorem C19_complete w dep dep' ks ks' key key' c c' idx idx' c1 c1' before reg after before' reg' after' items items' :
  hash_ok w ->
  verifyDEP w dep ks key c idx = (c1, None) -> verifyDEP w dep' ks' key' c' idx' = (c1', None) ->
  selects c idx before reg after -> selects c' idx' before' reg' after' ->
  virgin before reg -> virgin before' reg' ->
  dep_items w ks dep items -> dep_items w ks' dep' items' ->
  option_map fst (last_of None items) = option_map fst (last_of None items') ->
  map i_jws items = map i_jws items'
  \/ exists s s', hashed items s /\ hashed items' s' /\ chain_collision w s s'.
Proof.
  exact (tamper_complete w dep dep' ks ks' key key' c c' idx idx' c1 c1' before reg after before' reg' after' items items').
Qed.
Print Assumptions C19_complete.

Example C19_example :
  verifyDEP toy_world ex_dep ex_ks (Some ex_key) ex_start None = (ex_end, None)
  /\ verifyDEP toy_world ex_dep12 ex_ks (Some ex_key) ex_natural None = (ex_end_natural, None)
  /\ selects ex_start None [] new_register [] /\ selects ex_natural None [] new_register []
  /\ virgin [] new_register
  /\ exists items items', dep_items toy_world ex_ks ex_dep items /\ dep_items toy_world ex_ks ex_dep12 items'
       /\ List.length items = List.length items'
       /\ option_map fst (last_of None items) = option_map fst (last_of None items').
Proof.
  split; [exact ex_accepted|]. split; [exact ex_accepted_natural|].
  split; [constructor; auto|]. split; [constructor; auto|]. split; [repeat split; now left|].
  pose proof ex_accepted as H. pose proof ex_accepted_natural as H'.
  apply verifyDEP_spec in H as (? & ? & ? & ? & ? & l & _ & D & _); [|exact toy_hash_ok].
  apply verifyDEP_spec in H' as (? & ? & ? & ? & ? & l' & _ & D' & _); [|exact toy_hash_ok].
  exists l, l'. split; [now apply dep_ok_items|]. split; [now apply dep_ok_items|].
  destruct D as (gs & D & _ & F & _), D' as (gs' & D' & _ & F' & _).
  rewrite (dep_is_fun _ _ _ _ D ex_dep_is) in F.
  assert (dep_is toy_world ex_dep12 [Group [ex_t1; ex_t2; ex_t3; ex_t4; ex_t5; ex_t6; ex_t7; ex_t8] (Some ex_cert) []]) as X.
  { eexists _, _. split; [reflexivity|]. split; [reflexivity|]. repeat constructor. apply ex_group_is. }
  rewrite (dep_is_fun _ _ _ _ D' X) in F'.
  change (dep_texts ex_ks [Group [ex_t1; ex_t2; ex_t3; ex_t4; ex_t5; ex_t6; ex_t7; ex_t8] (Some ex_cert) []])
    with (dep_texts ex_ks (ex_gs1 ++ ex_gs2)) in F'.
  assert (l = l') as -> by (eapply Forall2_fun; [|exact F|exact F']; intros; eapply text_item_fun; eauto).
  auto.
Qed.

(** ** C20 Parts *)
Theorem C20_parts w dep dep1 dep2 gs gs1 gs2 ks key c idx before reg after c' : hash_ok w ->
  dep_is w dep gs -> dep_is w dep1 gs1 -> dep_is w dep2 gs2 -> cut gs gs1 gs2 ->
  dep_texts ks gs1 <> [] -> dep_texts ks gs2 <> [] ->
  selects c idx before reg after ->
  verifyDEP w dep ks key c idx = (c', None) <->
  exists c1, verifyDEP w dep1 ks key c idx = (c1, None)
    /\ verifyDEP w dep2 ks key c1 (same_register before) = (c', None).
Proof.
  exact (fun HO D D1 D2 C N1 N2 => parts_whole w dep dep1 dep2 ks key c idx before reg after c' HO
           (concatenated_cut w ks dep dep1 dep2 gs gs1 gs2 D D1 D2 C N1 N2)).
Qed.
Print Assumptions C20_parts.

Theorem C20_error w dep dep1 dep2 gs gs1 gs2 ks key c idx before reg after c' e : hash_ok w ->
  dep_is w dep gs -> dep_is w dep1 gs1 -> dep_is w dep2 gs2 -> cut gs gs1 gs2 ->
  dep_texts ks gs1 <> [] -> dep_texts ks gs2 <> [] ->
  texts_encodable ks gs -> trust_rule w ks (occupied gs) ->
  selects c idx before reg after ->
  verifyDEP w dep ks key c idx = (c', Some e) ->
  verifyDEP w dep1 ks key c idx = (c', Some e)
  \/ exists c1 c2, verifyDEP w dep1 ks key c idx = (c1, None)
       /\ verifyDEP w dep2 ks key c1 (same_register before) = (c2, Some e).
Proof. exact (parts_error w dep dep1 dep2 gs gs1 gs2 ks key c idx before reg after c' e). Qed.
Print Assumptions C20_error.

(** For groups and within a group, results and exceptions are the same for any
    arguments. *)
Theorem C20_groups w groups1 groups2 key ps reg u :
  verifyGroupsWithVerifiers w (groups1 ++ groups2) key ps reg u =
  do ru <- verifyGroupsWithVerifiers w groups1 key ps reg u;
  verifyGroupsWithVerifiers w groups2 key ps (fst ru) (snd ru).
Proof. exact (groups_parts w groups1 groups2 key ps reg u). Qed.
Print Assumptions C20_groups.

Theorem C20_group w g1 g2 v key ps reg u :
  verifyGroup w (g1 ++ g2) v key ps reg u =
  do ru <- verifyGroup w g1 v key ps reg u;
  verifyGroup w g2 v key ps (fst ru) (snd ru).
Proof. exact (group_parts w g1 g2 v key ps reg u). Qed.
Print Assumptions C20_group.

Example C20_example :
  dep_is toy_world ex_dep (ex_gs1 ++ ex_gs2) /\ dep_is toy_world ex_dep2 ex_gs2
  /\ dep_is toy_world ex_dep1e (ex_gs1 ++ [Group [] (Some ex_cert) []])
  /\ cut (ex_gs1 ++ ex_gs2) (ex_gs1 ++ [Group [] (Some ex_cert) []]) ex_gs2
  /\ selects ex_start None [] new_register []
  /\ verifyDEP toy_world ex_dep ex_ks (Some ex_key) ex_start None = (ex_end, None)
  /\ snd (ex_run ex_bad2 ex_mid (Some 0%Z)) = Some (NoRestoreReceipt (lit "8"))
  /\ snd (ex_run ex_bad ex_start None) = Some (NoRestoreReceipt (lit "8")).
Proof.
  split; [exact ex_dep_is|]. split; [exact ex_dep2_is|]. split; [exact ex_dep1e_is|]. split; [exact ex_cut|].
  split; [constructor; auto|]. split; [exact ex_accepted|]. split; vm_compute; reflexivity.
Qed.

(** ** C31 Clusters *)
Theorem C31_cluster w dep ks key c idx c' : hash_ok w ->
  verifyDEP w dep ks key c idx = (c', None) ->
  exists before reg after items p reg' i r,
    selects c idx before reg after /\ dep_items w ks dep items /\ past_of w reg p
    /\ c_regs c' = before ++ reg' :: after
    /\ items = i :: r
    /\ (forall s, p = None -> truthy (s_chain reg) = None -> truthy (start_of_last before) = Some s ->
        s_start reg' = Some (i_jws i)
        /\ chain_value w s (r_previousChain (i_rec i))
        /\ Forall (fun j => closed (i_rec j)) items
        /\ exists q, reads w s q /\ closed q /\ agrees (i_rec i) q).
Proof. exact (cluster_chain w dep ks key c idx c'). Qed.
Print Assumptions C31_cluster.

Theorem C31_no_gap w dep ks key c idx : c_regs c <> [] -> truthy (start_of_last (c_regs c)) = None ->
  idx = None \/ idx = Some (Z.of_nat (List.length (c_regs c))) ->
  verifyDEP w dep ks key c idx = (c, Some NoStartReceiptForLastCashRegister).
Proof. exact (no_gap w dep ks key c idx). Qed.
Print Assumptions C31_no_gap.

Example C31_example :
  verifyDEP toy_world ex_depd ex_ks (Some ex_key) ex_cluster1 None = (ex_cluster2, None)
  /\ selects ex_cluster1 None (c_regs ex_cluster1) new_register []
  /\ truthy (start_of_last (c_regs ex_cluster1)) = Some ex_c1
  /\ map s_start (c_regs ex_cluster2) = [Some ex_c1; Some ex_d1]
  /\ c_regs (Cluster [new_register] (Unique [])) <> [].
Proof.
  split; [exact ex_accepted_d|]. split; [constructor; [auto|right; discriminate]|]. split; [reflexivity|].
  split; [reflexivity|discriminate].
Qed.

(** ** C32 Failed verification *)
Theorem C32_failed w dep ks key c idx c' e :
  verifyDEP w dep ks key c idx = (c', Some e) -> unharmed c c'.
Proof. exact (failed_verifyDEP w dep ks key c idx c' e). Qed.
Print Assumptions C32_failed.

Theorem C32_failed_parallel w sch s ks key c idx c' e :
  verifyParsedDEP w sch s ks key c idx = (c', Some e) -> unharmed c c'.
Proof. exact (failed_verifyParsedDEP w sch s ks key c idx c' e). Qed.
Print Assumptions C32_failed_parallel.

Theorem C32_succeeded w dep ks key c idx c' :
  verifyDEP w dep ks key c idx = (c', None) ->
  exists before reg after reg', selects c idx before reg after /\ c_regs c' = before ++ reg' :: after.
Proof. exact (succeeded_verifyDEP w dep ks key c idx c'). Qed.
Print Assumptions C32_succeeded.

Theorem C32_succeeded_parallel w sch s ks key c idx c' :
  verifyParsedDEP w sch s ks key c idx = (c', None) ->
  exists before reg after reg', selects c idx before reg after /\ c_regs c' = before ++ reg' :: after.
Proof. exact (succeeded_verifyParsedDEP w sch s ks key c idx c'). Qed.
Print Assumptions C32_succeeded_parallel.

(** A failed attempt leaves an empty register behind if it was to be a new one, so that
    the next attempt for a new register fails for another reason. *)
Example C32_example :
  ex_run ex_bad2 ex_start None = (Cluster [new_register] (Unique []), Some (NonzeroTurnoverOnInitial (lit "8"))).
Proof. vm_compute. reflexivity. Qed.

Theorem C32_retry_refuted : exists w dep bad ks key c c1 e,
  snd (verifyDEP w dep ks key c None) = None
  /\ verifyDEP w bad ks key c None = (c1, Some e)
  /\ snd (verifyDEP w dep ks key c1 None) = Some NoStartReceiptForLastCashRegister.
Proof.
  exists toy_world, ex_dep, ex_bad2, ex_ks, (Some ex_key), ex_start, (Cluster [new_register] (Unique [])).
  exists (match snd (ex_run ex_bad2 ex_start None) with Some e => e | None => PyException end).
  split; [vm_compute; reflexivity|]. split; vm_compute; reflexivity.
Qed.
Print Assumptions C32_retry_refuted.

(** ** C35 Certificate chains *)
Theorem C35_chain w ks c chain : hash_ok w ->
  verifyCert w c chain ks = Ok tt <-> trusted w ks c chain.
Proof. exact (fun HO => verifyCert_spec w ks c chain HO). Qed.
Print Assumptions C35_chain.

(** The certificate with serial 1 is signed by the one with serial 90, which the key
    store contains. *)
Example C35_example :
  trusted toy_world ex_ks [1; 9; 7] [ex_cert] /\ ~ trusted toy_world ex_ks [1; 9; 6] [ex_cert].
Proof.
  split.
  - apply C35_chain; [exact toy_hash_ok|]. vm_compute. reflexivity.
  - intros H. apply C35_chain in H; [|exact toy_hash_ok]. vm_compute in H. discriminate.
Qed.
