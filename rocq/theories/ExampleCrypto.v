(** Verification with and without key. *)
From Verif Require Import PyBase World Codec Algo Receipt Json KeyStore State Verify SpecDep SpecCluster SeqFacts AcceptFacts SpecCounter CounterFacts SpecCrypto ExampleWorld ExampleReceipts ExampleDep.
Open Scope N_scope.

Definition ex_end_keyless : cluster := Eval vm_compute in fst (verifyDEP toy_world ex_dep ex_ks None ex_start None).
Lemma ex_accepted_keyless : verifyDEP toy_world ex_dep ex_ks None ex_start None = (ex_end_keyless, None).
Proof. vm_compute. reflexivity. Qed.
Lemma ex_keyless_counter : map s_counter (c_regs ex_end_keyless) = [0%Z] /\ map s_counter (c_regs ex_end) <> [0%Z].
Proof. split; [reflexivity|discriminate]. Qed.

(** The first part without key, the second with it *)
Definition ex_mid_keyless : cluster := Eval vm_compute in fst (verifyDEP toy_world ex_dep1 ex_ks None ex_start None).
Lemma key_later : exists w dep dep1 dep2 gs gs1 gs2 ks k c c1 c' e, hash_ok w
  /\ dep_is w dep gs /\ dep_is w dep1 gs1 /\ dep_is w dep2 gs2 /\ cut gs gs1 gs2
  /\ verifyDEP w dep ks (Some k) c None = (c', None)
  /\ verifyDEP w dep1 ks None c None = (c1, None)
  /\ snd (verifyDEP w dep2 ks (Some k) c1 (Some 0%Z)) = Some (InvalidTurnoverCounter e).
Proof.
  exists toy_world, ex_dep, ex_dep1e, ex_dep2. exists (ex_gs1 ++ ex_gs2), (ex_gs1 ++ [Group [] (Some ex_cert) []]), ex_gs2.
  exists ex_ks, ex_key, ex_start, ex_mid_keyless, ex_end, (lit "5"). split; [exact toy_hash_ok|].
  split; [exact ex_dep_is|]. split; [exact ex_dep1e_is|]. split; [exact ex_dep2_is|]. split; [exact ex_cut|]. split; [exact ex_accepted|].
  split; vm_compute; reflexivity.
Qed.

Lemma ex_two_items : verifyDEP toy_world ex_dep ex_ks (Some ex_key) ex_start None = (ex_end, None)
  /\ exists items i j l, dep_items toy_world ex_ks ex_dep items /\ items = i :: j :: l.
Proof.
  split; [exact ex_accepted|].
  destruct (proj1 (verifyDEP_spec toy_world ex_dep ex_ks (Some ex_key) ex_start None ex_end toy_hash_ok) ex_accepted)
    as (b & r & a & r' & p & items & _ & D & _). apply dep_ok_items in D. exists items.
  pose proof D as (gs & G & F). rewrite (dep_is_fun _ _ _ _ G ex_dep_is) in F.
  inversion F as [|? i ? l1 _ F1]; subst. inversion F1 as [|? j ? l2 _ F2]; subst. exists i, j, l2. auto.
Qed.

Lemma ex_reuse : exists iv o1 o2, initial_vector toy_world (lit "A1") (lit "2") iv /\ initial_vector toy_world (lit "A") (lit "12") iv
  /\ counter_mode toy_world ex_key iv [0; 0; 0; 0; 0; 0; 1; 94] o1 /\ counter_mode toy_world ex_key iv [0; 0; 0; 0; 0; 0; 0; 7] o2.
Proof.
  assert (exists iv, r1_iv toy_world (lit "A1") (lit "2") = Ok iv) as (iv & E) by (eexists; reflexivity).
  assert (initial_vector toy_world (lit "A1") (lit "2") iv) as I by (apply iv_iff; [exact toy_hash_ok|exact E]).
  assert (initial_vector toy_world (lit "A") (lit "12") iv) as J by (apply iv_iff; [exact toy_hash_ok|exact E]).
  destruct (iv_facts _ _ _ _ toy_hash_ok I) as [L B].
  exists iv, (aes256ctr toy_world iv ex_key [0; 0; 0; 0; 0; 0; 1; 94]), (aes256ctr toy_world iv ex_key [0; 0; 0; 0; 0; 0; 0; 7]).
  split; [exact I|]. split; [exact J|]. split; apply counter_mode_ctr; auto using toy_aes_ok.
Qed.
