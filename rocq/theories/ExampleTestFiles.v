(** Runs of run_test.py in the toy world. *)
From Coq Require Import Lia ZifyClasses ZifyN ZifyNat ZifyBool Floats.SpecFloat.
From Verif Require Import PyBase ListFacts World Codec PyFloat PyTime Receipt Json KeyStore VerifyReceipt State DepParser Verify DepExport
  SpecReceipt SpecDep SpecCluster SpecAmount SpecKeys SpecPool SpecState CashReg SpecCashReg Override RunTest SpecRunTest TestVerify TestSetup SpecSetup SetupFacts SetupTest
  Cli SpecCli TestFiles SpecTestFiles TestFilesFacts ExampleWorld ExampleDep ExampleCashReg ExamplePool ExampleRunTest ExampleTestVerify ExampleSetup ExampleFlaw.
Open Scope N_scope.

(** Counters of five octets, unless the command line says otherwise *)
Definition ex_sp_small : tspec := TSpec 2 ex_aes (Some 5%nat) (lit "REG-1") (lit "U:ATU12345678") true false false None None None None None ex_test.
Definition ex_read_spec (f : str) : result tspec := if str_eqb f (lit "spec.json") then Ok ex_sp_small else if str_eqb f (lit "open.json") then Ok ex_sp_open else Err PyException.
Definition ex_read (f : str) : result str :=
  if str_eqb f (lit "key") then Ok ex_prv else if str_eqb f (lit "pub") then Ok ex_pub else if str_eqb f (lit "crt") then Ok ex_crt else Err PyException.
Definition ex_args : list str := [lit "closed"; lit "spec.json"; lit "key"; lit "pub"; lit "key"; lit "pub"; lit "8"].
Definition ex_args_open : list str := [lit "open"; lit "open.json"; lit "key"; lit "crt"; lit "key"; lit "crt"].
Definition ex_args_large : list str := [lit "closed"; lit "spec.json"; lit "key"; lit "pub"; lit "key"; lit "pub"; lit "17"].

Lemma ex_command : command toy_world ex_read_spec ex_read ex_args true ex_sp_small (ex_mats true 2) (Some 8%nat).
Proof.
  exists (lit "spec.json"), [(lit "key", lit "pub"); (lit "key", lit "pub")], [lit "8"]. split; [reflexivity|]. split; [reflexivity|]. split; [reflexivity|]. split; [discriminate|].
  split; [repeat constructor|]. exists (lit "8"). split; [reflexivity|]. split; [reflexivity|lia].
Qed.
Lemma ex_command_open : command toy_world ex_read_spec ex_read ex_args_open false ex_sp_open (ex_mats false 2) None.
Proof.
  exists (lit "open.json"), [(lit "key", lit "crt"); (lit "key", lit "crt")], []. split; [reflexivity|]. split; [reflexivity|]. split; [reflexivity|]. split; [discriminate|].
  split; [repeat constructor|reflexivity].
Qed.
Lemma ex_setup_small : setup_ok toy_world toy_own toy_maker ex_sp_small true (ex_mats true 2).
Proof. exact ex_setup_closed. Qed.

(** Five DEPs of three registers *)
Definition ex_ended : test_end := Eval vm_compute in run_test_py toy_world toy_maker ex_read_spec ex_read ex_args.
Definition ex_written : list (str * json) := Eval vm_compute in match ex_ended with E_wrote f => f | _ => [] end.
Lemma ex_writes : run_test_py toy_world toy_maker ex_read_spec ex_read ex_args = E_wrote ex_written.
Proof. vm_compute. reflexivity. Qed.
Definition ex_deps : list json := Eval vm_compute in map snd (tl ex_written).
Lemma ex_registers : register_of ex_deps 0 0 /\ register_of ex_deps 1 1 /\ register_of ex_deps 2 0 /\ register_of ex_deps 3 1 /\ register_of ex_deps 4 2.
Proof.
  assert (dep_register [] 0 (nth 0 ex_deps JNull) = Ok (0, 1)%nat /\ dep_register [0%nat] 1 (nth 1 ex_deps JNull) = Ok (1, 2)%nat
    /\ dep_register [0; 1]%nat 2 (nth 2 ex_deps JNull) = Ok (0, 2)%nat /\ dep_register [0; 1; 0]%nat 2 (nth 3 ex_deps JNull) = Ok (1, 2)%nat
    /\ dep_register [0; 1; 0; 1]%nat 2 (nth 4 ex_deps JNull) = Ok (2, 3)%nat) as (E0 & E1 & E2 & E3 & E4).
  { repeat split; vm_compute; reflexivity. }
  destruct (known_next ex_deps [] 0 _ _ _ (known_nil _) eq_refl E0) as [K0 R0].
  destruct (known_next ex_deps [0%nat] 1 _ _ _ K0 eq_refl E1) as [K1 R1].
  destruct (known_next ex_deps [0; 1]%nat 2 _ _ _ K1 eq_refl E2) as [K2 R2].
  destruct (known_next ex_deps [0; 1; 0]%nat 2 _ _ _ K2 eq_refl E3) as [K3 R3].
  destruct (known_next ex_deps [0; 1; 0; 1]%nat 2 _ _ _ K3 eq_refl E4) as [_ R4].
  split; [now apply R0|]. split; [now apply R1|]. split; [now apply R2|]. split; [now apply R3|]. now apply R4.
Qed.
Lemma ex_large : run_test_py toy_world toy_maker ex_read_spec ex_read ex_args_large = E_stopped 0.
Proof. vm_compute. reflexivity. Qed.
