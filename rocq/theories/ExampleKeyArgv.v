(** Calls of key_store.py. *)
From Verif Require Import PyBase World Codec Json Pem KeyStore DepExport KeyStoreCli ListFacts SpecKeys SpecKeyStoreCli StateArgv SpecStateArgv KeyArgv SpecKeyArgv KeyArgvFacts
  ExampleWorld ExampleReceipts ExampleDep ExampleKeys ExampleKeyStoreCli ExampleStateArgv.
Open Scope N_scope.

Definition ex_kfiles : files :=
  Files (fun _ => Err PyException) (fun n => if str_eqb n (lit "a.crt") then Ok (ex_pem ex_cert22) else if str_eqb n (lit "b.crt") then Ok (ex_pem ex_cert) else Err PyException).
Definition ex_kcalls : list (list str * str) :=
  [([lit "k.json"; lit "create"], []);
   ([lit "k.json"; lit "add"; lit "a.crt"], []);
   ([lit "k.json"; lit "add"; lit "c.crt"], []);
   ([lit "k.json"; lit "add"; lit "b.crt"; lit "U:1"], []);
   ([lit "k.json"; lit "add"], []);
   ([lit "k.json"; lit "setSymmetricKey"], b64encode ex_key ++ [c_nl]);
   ([lit "k.json"; lit "del"; lit "U:1"], [])].
Definition ex_ksession (fs : files) (calls : list (list str * str)) : files :=
  fold_left (fun fs c => ex_next fs (store_program toy_world fs (snd c) (fst c))) calls fs.
Lemma ex_ksession_ok calls : forall fs, store_session toy_world calls fs (ex_ksession fs calls).
Proof. induction calls as [|[a s] l IH]; intros fs; [constructor|]. econstructor; [apply ex_next_after|]. apply IH. Qed.
Definition ex_kends : list p_end := Eval vm_compute in
  map (fun n => match store_program toy_world (ex_ksession ex_kfiles (firstn n ex_kcalls)) (snd (nth n ex_kcalls ([], []))) (fst (nth n ex_kcalls ([], []))) with
                | P_done _ out => P_done None out | e => e end) [0; 1; 2; 3; 4; 5; 6]%nat.
Lemma ex_kends_are : ex_kends = [P_done None []; P_done None []; P_raised; P_done None []; P_usage; P_done None []; P_done None []].
Proof. reflexivity. Qed.
Lemma ex_kkept : keeps toy_world (ex_ksession ex_kfiles (firstn 1 ex_kcalls)) (lit "k.json")
  /\ store_program toy_world (ex_ksession ex_kfiles ex_kcalls) [] [lit "k.json"; lit "list"] = P_done None (numSerialToKeyId (w_serial toy_world ex_cert22) ++ [c_nl])
  /\ store_program toy_world (ex_ksession ex_kfiles ex_kcalls) [] [lit "k.json"; lit "showSymmetricKey"] = P_done None (b64encode ex_key ++ [c_nl]).
Proof.
  split; [exists (written_store toy_world [] None), [], None; split; [vm_compute; reflexivity|split; vm_compute; reflexivity]|]. split; vm_compute; reflexivity.
Qed.

(** A certificate under a name that is no number *)
Definition ex_badini : str := lit "[certificates]" ++ [c_nl] ++ lit "root = " ++ ex_cert_text ++ [c_nl].
Lemma ini_breaks : exists w fs stdin name j out, pem_ok w /\ keeps w fs name /\ store_program w fs stdin [name; lit "fromLegacyIni"] = P_done (Some (name, j)) out
  /\ forall ks key, ~ opens w j ks key.
Proof.
  exists toy_world, (Files (fun _ => Ok ex_kfile) (fun _ => Err PyException)), ex_badini, (lit "k"), (written_store toy_world [(lit "root", KeyTuple [7] (Some ex_cert))] None), [].
  split; [exact toy_pem_ok|]. split; [exists ex_kfile, ex_kstore, (Some ex_key); split; [reflexivity|exact ex_kopens]|]. split; [vm_compute; reflexivity|].
  intros ks key [R _]. assert (readStoreFromJson toy_world (load (written_store toy_world [(lit "root", KeyTuple [7] (Some ex_cert))] None)) = Err KeyStoreError) as E by (vm_compute; reflexivity).
  rewrite E in R. discriminate R.
Qed.
