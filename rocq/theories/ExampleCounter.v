(** Concrete counters. *)
From Verif Require Import PyBase World Codec Algo Receipt SpecDep DepFacts VerifyFacts SpecCounter CounterFacts ExampleWorld ExampleReceipts ExampleDep.
Open Scope N_scope.

Lemma ex_blocks : exists b, r1_encrypt toy_world (lit "REG") (lit "17") (-5)%Z ex_key 40 = Ok b /\ List.length b = 40%nat.
Proof. eexists. split; vm_compute; reflexivity. Qed.

Definition ex_counter_of (x : result (receipt * str)) : result Z :=
  match x with Ok (r, _) => decryptTC toy_world r ex_key | Err e => Err e end.
Lemma ex_counter : ex_counter_of (fromJWSString toy_world ex_t4) = Ok 350%Z.
Proof. vm_compute. reflexivity. Qed.
Lemma ex_shows : exists s r, reads toy_world s r /\ shows_counter toy_world ex_key r 350%Z.
Proof.
  pose proof ex_counter as H. unfold ex_counter_of in H. destruct (fromJWSString toy_world ex_t4) as [[r a]|] eqn:E; [|discriminate].
  apply parse_reads in E as [_ R]. exists ex_t4, r. split; [exact R|]. now apply (decryptTC_spec toy_world ex_t4 r ex_key _ toy_hash_ok toy_aes_ok R).
Qed.
