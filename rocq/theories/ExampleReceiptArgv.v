(** Calls of receipt.py and verify_receipt.py in the toy world. *)
From Coq Require Import Lia.
From Verif Require Import PyBase World Codec CodecFacts2 Receipt Json KeyStore VerifyReceipt DepExport Url StateCli ReceiptCli SpecReceipt ReceiptFacts SpecDep SpecReceiptCli ReceiptCliFacts
  StateArgv SpecStateArgv StateArgvFacts ReceiptArgv SpecReceiptArgv ReceiptArgvFacts ExampleWorld ExampleReceipts ExampleDep ExampleInc ExampleExport ExampleKeys ExampleCli ExampleConvert ExampleReceiptCli.
Open Scope N_scope.
Open Scope py_scope.

Definition no_reason (s : str) : option str := None.
Definition store_files : files := Files (fun s => if str_eqb s (lit "keys.json") then Ok ex_store else Err PyException) (fun _ => Err PyException).

(** Three receipts as lines of a CSV file, the last one of a failed device *)
Lemma ex_calls : receipt_program toy_world Py3 ex_offline (lines_text ex_csvs) [lit "csv"; lit "qr"] = R_end false (lines_text ex_qrs)
  /\ receipt_program toy_world Py3 ex_offline [] [lit "csv"; lit "QR"] = R_usage
  /\ verify_receipt_program toy_world Py3 ex_offline no_reason store_files (lines_text ex_csvs) [lit "csv"; lit "keys.json"] =
     R_end false (lines_text [lit "Line   2: At receipt ""3"": Signature System failed. This is probably fine."; lit "2 of 3 receipts verified successfully."])
  /\ verify_receipt_program toy_world Py3 ex_offline no_reason store_files [] [lit "csv"] = R_usage.
Proof. repeat split; vm_compute; reflexivity. Qed.
Lemma ex_meets : plain_format F_csv /\ format_word (lit "csv") F_csv /\ source (lines_text ex_csvs) [] (V_stdin (lines_text ex_csvs)) /\ f_json store_files (lit "keys.json") = Ok ex_store
  /\ readStoreFromJson toy_world (load ex_store) = Ok ex_ks.
Proof. split; [unfold plain_format; tauto|]. split; [constructor|]. split; [constructor|]. split; [reflexivity|]. exact ex_store_keys. Qed.
Lemma ex_tidy : tidy no_reason [(2%nat, SignatureSystemFailed (lit "3"))].
Proof.
  intros k e [I|[]]. injection I as <- <-. split; [|discriminate]. intros rec A. unfold about in A.
  repeat (destruct A as [A|A]; [try discriminate A; injection A as <-; cbn; intuition discriminate|]). discriminate A.
Qed.

(** Receipts of failed devices whose IDs contain the ends and beginnings of lines of the report *)
Definition off (id : str) : str := ex_unsigned (ex_rec id (lit "2017-01-01T08:00:01") (lit "0,50") (lit "U1RP") ex_t2).
Definition between (k : N) : str := lit """: Signature System failed. This is probably fine." ++ [c_nl] ++ lit "Line   " ++ [k] ++ lit ": At receipt """.
Definition ex_in1 : str := Eval vm_compute in lines_text [off (lit "X" ++ between 49 ++ lit "Y"); ex_t2; off (lit "Z")].
Definition ex_in2 : str := Eval vm_compute in lines_text [off (lit "X"); off (lit "Y" ++ between 50 ++ lit "Z"); ex_t2].
Lemma forged : exists w py fetch fs stdin stdin' args j failed failed' good total out, f_json fs (lit "keys.json") = Ok j /\ args = [lit "jws"; lit "keys.json"]
  /\ verify_receipt_py w py fetch F_jws j (V_stdin stdin) = (failed, Ok (good, total)) /\ verify_receipt_py w py fetch F_jws j (V_stdin stdin') = (failed', Ok (good, total))
  /\ map fst failed = [0%nat; 2%nat] /\ map fst failed' = [0%nat; 1%nat]
  /\ (forall reason, verify_receipt_program w py fetch reason fs stdin args = R_end false out /\ verify_receipt_program w py fetch reason fs stdin' args = R_end false out).
Proof.
  exists toy_world, Py3, ex_offline, store_files, ex_in1, ex_in2, [lit "jws"; lit "keys.json"], ex_store,
    [(0%nat, SignatureSystemFailed (lit "X" ++ between 49 ++ lit "Y")); (2%nat, SignatureSystemFailed (lit "Z"))],
    [(0%nat, SignatureSystemFailed (lit "X")); (1%nat, SignatureSystemFailed (lit "Y" ++ between 50 ++ lit "Z"))], 1%nat, 3%nat,
    (lines_text (map (failure_line no_reason) [(0%nat, SignatureSystemFailed (lit "X")); (1%nat, SignatureSystemFailed (lit "Y")); (2%nat, SignatureSystemFailed (lit "Z"))] ++ [summary_line 1 3])).
  split; [reflexivity|]. split; [reflexivity|]. split; [vm_compute; reflexivity|]. split; [vm_compute; reflexivity|]. split; [reflexivity|]. split; [reflexivity|].
  intros reason. split; vm_compute; reflexivity.
Qed.

(** A receipt that is not verified does not change the status. *)
Lemma status_zero : exists w py fetch fs stdin args failed j, f_json fs (lit "keys.json") = Ok j /\ verify_receipt_py w py fetch F_qr j (V_argument stdin) = (failed, Ok (0%nat, 1%nat))
  /\ args = [lit "qr"; lit "keys.json"; stdin] /\ forall reason, exists out, verify_receipt_program w py fetch reason fs [] args = R_end false out.
Proof.
  exists toy_world, Py3, ex_offline, store_files, [], [lit "qr"; lit "keys.json"; []]. eexists. exists ex_store. split; [reflexivity|]. split; [vm_compute; reflexivity|]. split; [reflexivity|].
  intros reason. eexists. vm_compute. reflexivity.
Qed.
