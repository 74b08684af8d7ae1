(** Properties of initialisation vectors and of verification without key. *)
From Verif Require Import PyBase World Codec Algo Receipt Json KeyStore State Verify SpecDep SpecCluster SpecCounter SpecCrypto CryptoFacts CounterFacts
  ExampleWorld ExampleReceipts ExampleDep ExampleCrypto.
Open Scope N_scope.

(** ** C48 Initialisation vectors are not reused *)

(** Two receipts of an accepted DEP have the same vector only if two different
    messages have the same half of the hash value. *)
Theorem C48_vectors w dep ks key c idx c' items l1 i l2 j l3 iv : hash_ok w -> verifyDEP w dep ks key c idx = (c', None) ->
  dep_items w ks dep items -> items = l1 ++ i :: l2 ++ j :: l3 ->
  initial_vector w (r_registerId (i_rec i)) (r_receiptId (i_rec i)) iv ->
  initial_vector w (r_registerId (i_rec j)) (r_receiptId (i_rec j)) iv -> half_collision w.
Proof. exact (vectors_differ w dep ks key c idx c' items l1 i l2 j l3 iv). Qed.
Print Assumptions C48_vectors.

Example C48_vectors_example : verifyDEP toy_world ex_dep ex_ks (Some ex_key) ex_start None = (ex_end, None)
  /\ exists items i j l, dep_items toy_world ex_ks ex_dep items /\ items = i :: j :: l.
Proof. exact ex_two_items. Qed.

(** Of two counters encrypted with the same vector and key, the ciphertexts reveal
    in which bits the counters differ. *)
Theorem C48_reuse w key iv d1 o1 d2 o2 i x1 x2 : counter_mode w key iv d1 o1 -> counter_mode w key iv d2 o2 ->
  nth_error d1 i = Some x1 -> nth_error d2 i = Some x2 ->
  exists y1 y2, nth_error o1 i = Some y1 /\ nth_error o2 i = Some y2 /\ N.lxor y1 y2 = N.lxor x1 x2.
Proof. exact (reuse w key iv d1 o1 d2 o2 i x1 x2). Qed.
Print Assumptions C48_reuse.

(** This happens: different registers with different receipt IDs may have the same
    vector whatever the hash function, since register ID and receipt ID are joined
    without separator. *)
Theorem C48_registers_refuted : exists reg1 id1 reg2 id2, reg1 <> reg2 /\ id1 <> id2
  /\ forall w, hash_ok w -> exists iv, initial_vector w reg1 id1 iv /\ initial_vector w reg2 id2 iv.
Proof. exact registers_share. Qed.
Print Assumptions C48_registers_refuted.

Example C48_reuse_example : exists iv o1 o2, initial_vector toy_world (lit "A1") (lit "2") iv /\ initial_vector toy_world (lit "A") (lit "12") iv
  /\ counter_mode toy_world ex_key iv [0; 0; 0; 0; 0; 0; 1; 94] o1 /\ counter_mode toy_world ex_key iv [0; 0; 0; 0; 0; 0; 0; 7] o2.
Proof. exact ex_reuse. Qed.

(** ** C49 Verification without key *)

(** A DEP is accepted with key if and only if it is accepted without and its
    counters are right. The states differ only in the counter of the register,
    which stays the same without key. *)
Theorem C49_without_key w dep ks k c idx c' : hash_ok w ->
  verifyDEP w dep ks (Some k) c idx = (c', None) <->
  exists before reg after reg' u items z,
    selects c idx before reg after
    /\ verifyDEP w dep ks None c idx = (Cluster (before ++ reg' :: after) u, None)
    /\ dep_items w ks dep items /\ counter_rule w (Some k) (s_counter reg) items /\ turnover items z
    /\ s_counter reg' = s_counter reg
    /\ c' = Cluster (before ++ with_counter reg' (s_counter reg + z) :: after) u.
Proof. exact (without_key w dep ks k c idx c'). Qed.
Print Assumptions C49_without_key.

Example C49_example : verifyDEP toy_world ex_dep ex_ks (Some ex_key) ex_start None = (ex_end, None)
  /\ verifyDEP toy_world ex_dep ex_ks None ex_start None = (ex_end_keyless, None)
  /\ map s_counter (c_regs ex_end_keyless) = [0%Z] /\ map s_counter (c_regs ex_end) <> [0%Z].
Proof. exact (conj ex_accepted (conj ex_accepted_keyless ex_keyless_counter)). Qed.

(** Hence the key must not be added later: after a part was verified without key,
    the rest of a valid DEP is rejected with it. *)
Theorem C49_key_later_refuted : exists w dep dep1 dep2 gs gs1 gs2 ks k c c1 c' e, hash_ok w
  /\ dep_is w dep gs /\ dep_is w dep1 gs1 /\ dep_is w dep2 gs2 /\ cut gs gs1 gs2
  /\ verifyDEP w dep ks (Some k) c None = (c', None)
  /\ verifyDEP w dep1 ks None c None = (c1, None)
  /\ snd (verifyDEP w dep2 ks (Some k) c1 (Some 0%Z)) = Some (InvalidTurnoverCounter e).
Proof. exact key_later. Qed.
Print Assumptions C49_key_later_refuted.
