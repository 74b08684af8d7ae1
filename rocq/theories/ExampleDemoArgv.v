(** demo.py with key_store.py and verify.py in the toy world. *)
From Coq Require Import Lia Floats.SpecFloat.
From Verif Require Import PyBase World Codec PyFloat PyTime Algo Receipt SpecReceipt ReceiptFacts SpecKeys Json Pem KeyStore VerifyReceipt State DepExport CashReg SpecCashReg Demo SpecDemo DemoFacts
  Cli Argv SpecArgv ArgvFacts KeyStoreCli SpecKeyStoreCli StateArgv SpecStateArgv KeyArgv SpecKeyArgv KeyArgvFacts Remote DemoArgv SpecDemoArgv DemoArgvFacts
  ExampleWorld ExampleReceipts ExampleDep ExampleKeys ExampleKeyStoreCli ExampleCashReg ExampleDemo ExampleStateArgv ExampleKeyArgv SpecRemote RemoteFacts ExampleRemote.
Open Scope N_scope.

Definition ex_off : network := Network (Answer JNull) (Answer JNull) (fun _ _ => Answer JNull).
Definition ex_b64 : str := Eval vm_compute in b64encode ex_key.
Definition ex_dfiles (aes : str) : files :=
  Files (fun _ => Err PyException)
    (fun n => if str_eqb n (lit "p.pem") then Ok [7] else if str_eqb n (lit "c.crt") then Ok (ex_pem ex_cert) else if str_eqb n (lit "aes") then Ok aes else Err PyException).
Definition ex_dcalls (aes : str) : list (list str * str) :=
  [([lit "k.json"; lit "create"], []); ([lit "k.json"; lit "add"; lit "c.crt"], []); ([lit "k.json"; lit "setSymmetricKey"], aes)].
Definition ex_dwords : list str := [lit "p.pem"; lit "c.crt"; lit "aes"; lit "2"].
Definition ex_aes : str := Eval vm_compute in ex_b64 ++ [c_nl].

Lemma ex_dmeets : key_files toy_world (ex_dfiles ex_aes) [lit "p.pem"; lit "c.crt"] [lit "add"; lit "c.crt"] /\ demo_aes_key (universal_newlines ex_aes) ex_key
  /\ store_session toy_world (ex_dcalls ex_aes) (ex_dfiles ex_aes) (ex_ksession (ex_dfiles ex_aes) (ex_dcalls ex_aes)).
Proof.
  split; [|split; [|apply ex_ksession_ok]].
  - apply (kf_open toy_world _ _ _ [7] (ex_pem ex_cert) ex_cert); try (vm_compute; reflexivity). apply toy_key_pair.
  - exists ex_aes. split; [vm_compute; reflexivity|split; vm_compute; reflexivity].
Qed.
Lemma ex_dunderstood : understood toy_world None [lit "par"; lit "2"; lit "chunksize"; lit "1"; lit "k.json"; lit "d.json"] (VerifyArgs false A_none 2 1) (lit "k.json") (lit "d.json").
Proof. apply command_iff. reflexivity. Qed.


(** What the programs do, also for a number below one and a key file that does not exist *)
Definition ex_dep2r : json := Eval vm_compute in
  match demo_program toy_world ex_off (ex_ksession (ex_dfiles ex_aes) (ex_dcalls ex_aes)) ex_draw ex_dwords with D_printed d => d | _ => JNull end.
Definition ex_dread (n : str) : result json :=
  if str_eqb n (lit "d.json") then Ok ex_dep2r else f_json (ex_ksession (ex_dfiles ex_aes) (ex_dcalls ex_aes)) n.
Lemma ex_druns : demo_program toy_world ex_off (ex_ksession (ex_dfiles ex_aes) (ex_dcalls ex_aes)) ex_draw ex_dwords = D_printed ex_dep2r
  /\ demo_program toy_world ex_off (ex_dfiles ex_aes) ex_draw [lit "p.pem"; lit "c.crt"; lit "none"; lit "0"] = D_number
  /\ demo_program toy_world ex_off (ex_dfiles ex_aes) ex_draw [lit "p.pem"; lit "c.crt"; lit "none"; lit "1"] = D_raised
  /\ demo_program toy_world ex_off (ex_dfiles ex_aes) ex_draw [lit "p.pem"; lit "c.crt"; lit "2"] = D_usage
  /\ verify_program toy_world B_unique (fun _ => 0%nat) None ex_dread (Err PyException) [lit "chunksize"; lit "0"; lit "k.json"; lit "d.json"] = VEnd None true 0.
Proof. repeat split; vm_compute; reflexivity. Qed.

(** With the service, which is lost after two receipts *)
Definition ex_net : network := Network (Answer (JDict ex_cd)) (Answer (JDict ex_zd)) ex_lost.
Lemma ex_net_for : service_for toy_world ex_net ex_cert.
Proof.
  exists ex_cd, ex_zd, ex_remote, ex_priv, 2%nat. do 5 (split; [reflexivity|]). split; [exact (proj1 ex_remote_device)|]. split; [discriminate|].
  split; [exists 90%Z; split; reflexivity|]. split; [apply toy_key_pair|]. split; [lia|]. intros i. apply ex_serves.
Qed.
Definition ex_net_dep : json := Eval vm_compute in
  match demo_program toy_world ex_net (ex_ksession (ex_dfiles ex_aes) (ex_dcalls ex_aes)) ex_draw [lit "aes"; lit "4"] with D_printed d => d | _ => JNull end.
Lemma ex_net_runs : demo_program toy_world ex_net (ex_ksession (ex_dfiles ex_aes) (ex_dcalls ex_aes)) ex_draw [lit "aes"; lit "4"] = D_printed ex_net_dep
  /\ demo_program toy_world ex_off (ex_dfiles ex_aes) ex_draw [lit "aes"; lit "4"] = D_raised.
Proof. split; vm_compute; reflexivity. Qed.
