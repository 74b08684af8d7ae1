(** C66 The demo program. *)
From Coq Require Import Floats.SpecFloat.
From Verif Require Import PyBase World Codec PyFloat PyTime Algo Receipt SpecReceipt SpecKeys Json Pem KeyStore VerifyReceipt State DepParser Verify DepExport
  SpecDep SpecCluster CashReg SpecCashReg Demo SpecDemo DemoFacts ExampleWorld ExampleDep ExampleDemo.
Open Scope N_scope.

(** Whatever the random numbers, the printed DEP is accepted with the key store that
    has the public key, with or without the AES key and in both ways to record IDs, if
    the clock does not go backwards. It has the wanted number of receipts, the IDs of
    which are their numbers in at least five digits. *)
Theorem C66_accepted : forall w ks b key a draws n k, hash_ok w -> aes_ok w -> pem_ok w ->
  demo_key_stored w ks (da_mode a) -> demo_aes_key (da_key a) k -> py_int w 10 (da_num a) = Some n -> (1 <= n <= 10 ^ 13)%Z ->
  (forall i, draw_ok (draws i)) -> steady draws -> key = None \/ key = Some k ->
  exists dep reg ids, demo w a draws = Ok (Some dep)
    /\ verifyDEP w (load dep) ks key (new_cluster b) None = (Cluster [reg] (fold_left used_add ids (used_new b)), None)
    /\ List.length ids = Z.to_nat n /\ forall i id, nth_error ids i = Some id -> numbered_id i id.
Proof. exact demo_accepted. Qed.
Print Assumptions C66_accepted.

(** Hypotheses met, for both kinds of systems *)
Example C66_accepted_case : demo_key_stored toy_world ex_ks (da_mode ex_args) /\ demo_key_stored toy_world ex_ks (da_mode ex_args_closed)
  /\ demo_aes_key (da_key ex_args) ex_key /\ (forall i, draw_ok (ex_draw i)) /\ steady ex_draw
  /\ exists dep c, demo toy_world ex_args ex_draw = Ok (Some dep)
    /\ verifyDEP toy_world (load dep) ex_ks (Some ex_key) (new_cluster B_natural) None = (c, None)
    /\ map s_counter (c_regs c) = [- 199346]%Z /\ c_used c = Natural (Some (lit "00000")) (Some (lit "00003")).
Proof. exact (conj (proj1 ex_demo_stored) (conj (proj2 ex_demo_stored) (conj ex_demo_key (conj ex_draw_ok (conj ex_steady ex_demo_accepted))))). Qed.

(** The clock is the local one, which goes back at the end of summer time. Then the DEP
    is rejected. *)
Theorem C66_clock_refuted : exists w ks a draws k dep cl, hash_ok w /\ aes_ok w /\ pem_ok w /\ demo_key_stored w ks (da_mode a) /\ demo_aes_key (da_key a) k
  /\ py_int w 10 (da_num a) = Some 2%Z /\ (forall i, draw_ok (draws i))
  /\ demo w a draws = Ok (Some dep) /\ verifyDEP w (load dep) ks (Some k) (new_cluster B_unique) None = (cl, Some (DecreasingDate (lit "00001"))).
Proof. exact demo_clock. Qed.
Print Assumptions C66_clock_refuted.
