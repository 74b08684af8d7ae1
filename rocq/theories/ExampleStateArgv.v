(** Calls of verification_state.py. *)
From Verif Require Import PyBase World Codec Receipt Json Pem KeyStore VerifyReceipt State DepParser Verify DepExport StateCli SpecArgv StateArgv SpecStateArgv StateArgvFacts
  ExampleWorld ExampleReceipts ExampleDep ExampleInc ExampleExport ExampleConvert ExampleStateCli.
Open Scope N_scope.
Import State.

Definition ex_put (fs : files) (name : str) (j : json) : files := Files (fun n => if str_eqb n name then Ok j else f_json fs n) (f_text fs).
Definition ex_next (fs : files) (e : p_end) : files := match e with P_done (Some (n, j)) _ => ex_put fs n j | _ => fs end.
Lemma ex_next_after fs e : files_after fs e (ex_next fs e).
Proof.
  destruct e as [| |[[n j]|] out]; try reflexivity. cbn [files_after ex_next ex_put f_json f_text]. rewrite ListFacts.str_eqb_refl. split; [reflexivity|].
  intros m N. destruct (str_eqb m n) eqn:E; [apply ListFacts.str_eqb_eq in E; contradiction|]. auto.
Qed.

Lemma plain_line s : existsb (N.eqb c_nl) s = false -> ~ In c_nl s.
Proof. intros H I. assert (existsb (N.eqb c_nl) s = true) as X by (apply existsb_exists; exists c_nl; split; [exact I|reflexivity]). congruence. Qed.

(** A DEP, a text with IDs, a key *)
Definition ex_files : files :=
  Files (fun n => if str_eqb n (lit "dep.json") then Ok ex_dep1 else Err PyException)
    (fun n => if str_eqb n (lit "ids.txt") then Ok (lit "7" ++ [c_nl] ++ lit "8" ++ [c_nl]) else if str_eqb n (lit "key.txt") then Ok (b64encode ex_key) else Err PyException).
Definition ex_call := state_program toy_world Py3 B_unique 2.
Definition ex_calls : list (list str) :=
  [[lit "s.json"; lit "create"];
   [lit "s.json"; lit "addCashRegister"];
   [lit "s.json"; lit "readUsedReceiptIds"; lit "ids.txt"];
   [lit "s.json"; lit "updateCashRegister"; lit " 0"; lit "dep.json"; lit "key.txt"];
   [lit "s.json"; lit "deleteCashRegister"; lit "zero"];
   [lit "s.json"; lit "deleteCashRegister"];
   [lit "s.json"; lit "setLastTurnoverCounter"; lit "-1"; lit "700"]].
Definition ex_session (fs : files) (calls : list (list str)) : files := fold_left (fun fs args => ex_next fs (ex_call fs args)) calls fs.
Lemma ex_session_ok calls : forall fs, session toy_world Py3 B_unique 2 calls fs (ex_session fs calls).
Proof. induction calls as [|a l IH]; intros fs; [constructor|]. econstructor; [apply ex_next_after|]. apply IH. Qed.
Definition ex_ended : files := ex_session ex_files ex_calls.
Definition ex_end_state : cluster := Cluster [RegState (Some ex_t1) (Some ex_t4) 700 true None] (Unique [lit "7"; lit "8"]).
Lemma ex_ended_holds : holds ex_ended (lit "s.json") ex_end_state /\ f_json ex_ended (lit "dep.json") = Ok ex_dep1
  /\ map (fun n => ex_call (ex_session ex_files (firstn n ex_calls)) (nth n ex_calls [])) [4; 5]%nat = [P_raised; P_usage].
Proof.
  split; [exists (cluster_to_json ex_end_state); split; vm_compute; reflexivity|]. split; vm_compute; reflexivity.
Qed.
Lemma ex_end_lined : lined ex_end_state.
Proof.
  unfold lined, ex_end_state. cbn [c_regs]. constructor; [|constructor]. cbn [s_start s_last]. split; intros s E; injection E as <-; apply plain_line; vm_compute; reflexivity.
Qed.
Definition ex_shown : list str :=
  [lit "Cash Register 0:"; lit "            Start Receipt: " ++ ex_t1; lit "             Last Receipt: " ++ ex_t4; lit "    Last Turnover Counter: 700";
   lit "     Need Restore Receipt: True"; []; lit " Used Receipt IDs Backend: USED_RECEIPT_IDS_UNIQUE"].
Lemma ex_shown_is : exists wr, ex_call ex_ended [lit "s.json"; lit "show"] = P_done wr (List.concat (map (fun l => l ++ [c_nl]) ex_shown)).
Proof. exists (Some (lit "s.json", cluster_to_json ex_end_state)). vm_compute. reflexivity. Qed.

(** Two states that are shown alike, of which only one allows a DEP: the used IDs are not shown. *)
Definition ex_two : files :=
  Files (fun n => if str_eqb n (lit "a") then Ok (cluster_to_json ex_c1v) else if str_eqb n (lit "b") then Ok ex_s2 else Err PyException) (fun _ => Err PyException).
Lemma shown_two : exists w py b k fs wr wr' out c c' doc key ks, holds fs (lit "a") c /\ holds fs (lit "b") c'
  /\ state_program w py b k fs [lit "a"; lit "show"] = P_done wr out /\ state_program w py b k fs [lit "b"; lit "show"] = P_done wr' out
  /\ snd (verifyDEP w (load doc) ks key c (Some 0%Z)) = Some (DuplicateReceiptId (lit "1")) /\ snd (verifyDEP w (load doc) ks key c' (Some 0%Z)) = None.
Proof.
  exists toy_world, Py3, B_unique, 2%nat, ex_two, (Some (lit "a", cluster_to_json ex_c1v)), (Some (lit "b", ex_s2)), (cluster_text ex_c1v), ex_c1v, (Cluster (c_regs ex_c1v) (Unique [])), ex_dep_dup, (Some ex_key), ex_ks.
  split; [exists (cluster_to_json ex_c1v); split; vm_compute; reflexivity|]. split; [exists ex_s2; split; vm_compute; reflexivity|].
  split; [vm_compute; reflexivity|]. split; [vm_compute; reflexivity|]. split; vm_compute; reflexivity.
Qed.

(** Looking at a state changes the file: what is not known is dropped. *)
Lemma show_changes : exists w py b k fs file j j' out, f_json fs file = Ok j /\ state_program w py b k fs [file; lit "show"] = P_done (Some (file, j')) out /\ j' <> j.
Proof.
  exists toy_world, Py3, B_unique, 2%nat, (Files (fun _ => Ok (JDict [(lit "note", JStr (lit "x")); (k_regs, JList []); (k_used, used_to_json (Unique []))])) (fun _ => Err PyException)), (lit "a").
  eexists. exists (cluster_to_json (Cluster [] (Unique []))). eexists. split; [reflexivity|]. split; [vm_compute; reflexivity|]. vm_compute. discriminate.
Qed.

(** A state with two registers, shown *)
Definition ex_pair : cluster := Cluster [RegState (Some ex_t1) (Some ex_t4) 700 true None; RegState None None (-3) false None] (Unique []).
Definition ex_pair_files : files := Files (fun n => Ok (cluster_to_json ex_pair)) (fun _ => Err PyException).
Definition ex_pair_shown : list str :=
  [lit "Cash Register 0:"; lit "            Start Receipt: " ++ ex_t1; lit "             Last Receipt: " ++ ex_t4; lit "    Last Turnover Counter: 700";
   lit "     Need Restore Receipt: True"; [];
   lit "Cash Register 1:"; lit "            Start Receipt: None"; lit "             Last Receipt: None"; lit "    Last Turnover Counter: -3";
   lit "     Need Restore Receipt: False"; []; lit " Used Receipt IDs Backend: USED_RECEIPT_IDS_UNIQUE"].
Lemma ex_pair_is : holds ex_pair_files (lit "p") ex_pair
  /\ ex_call ex_pair_files [lit "p"; lit "show"] = P_done (Some (lit "p", cluster_to_json ex_pair)) (List.concat (map (fun l => l ++ [c_nl]) ex_pair_shown)).
Proof. split; [exists (cluster_to_json ex_pair); split; vm_compute; reflexivity|]. vm_compute. reflexivity. Qed.
