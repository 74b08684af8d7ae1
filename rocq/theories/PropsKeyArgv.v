(** The command line of key_store.py. *)
From Verif Require Import PyBase World Codec Json Pem KeyStore DepExport KeyStoreCli SpecKeys SpecKeyStoreCli StateArgv SpecStateArgv KeyArgv SpecKeyArgv KeyArgvFacts
  ExampleWorld ExampleReceipts ExampleDep ExampleKeys ExampleKeyStoreCli ExampleStateArgv ExampleKeyArgv.
Open Scope N_scope.

(** ** C85 Calls of key_store.py *)

(** A call succeeds exactly if its words are one of the lines of the usage message, the files named can be
    read and the command succeeds; it then writes the key store, if the command changes it, and nothing else. *)
Theorem C85_command w fs stdin args written out : store_program w fs stdin args = P_done written out <->
  exists file words cmd j j', args = file :: words /\ store_asks fs stdin words cmd
    /\ (cmd = K_create \/ (exists t, cmd = K_fromIni t) \/ f_json fs file = Ok j)
    /\ key_store_py w cmd j = Ok (j', out) /\ written = option_map (fun x => (file, x)) j'.
Proof. exact (store_done w fs stdin args written out). Qed.
Print Assumptions C85_command.

(** The usage message is for other commands and wrong numbers of words. *)
Theorem C85_usage w fs stdin args : store_program w fs stdin args = P_usage <-> ~ store_shaped args.
Proof. exact (store_usage w fs stdin args). Qed.
Print Assumptions C85_usage.

(** list, showSymmetricKey and toLegacyIni write no file. *)
Theorem C85_prints w fs stdin file word written out : printing word -> store_program w fs stdin [file; word] = P_done written out -> written = None.
Proof. exact (store_prints w fs stdin file word written out). Qed.
Print Assumptions C85_prints.

(** Whatever calls are made, a file that holds a key store goes on to hold one, if it is not written from an INI file. *)
Theorem C85_session w calls fs fs' : pem_ok w -> store_session w calls fs fs' ->
  forall name, ~ In [name; lit "fromLegacyIni"] (map fst calls) -> keeps w fs name -> keeps w fs' name.
Proof. exact (store_session_keeps w calls fs fs'). Qed.
Print Assumptions C85_session.

(** Files that are never named as the key store stay as they are. *)
Theorem C85_others w calls fs fs' : store_session w calls fs fs' ->
  forall name, (forall args stdin, In (args, stdin) calls -> hd_error args <> Some name) -> f_json fs' name = f_json fs name /\ f_text fs' name = f_text fs name.
Proof. exact (store_session_others w calls fs fs'). Qed.
Print Assumptions C85_others.

Example C85_example : store_session toy_world ex_kcalls ex_kfiles (ex_ksession ex_kfiles ex_kcalls)
  /\ ex_kends = [P_done None []; P_done None []; P_raised; P_done None []; P_usage; P_done None []; P_done None []]
  /\ keeps toy_world (ex_ksession ex_kfiles (firstn 1 ex_kcalls)) (lit "k.json")
  /\ store_program toy_world (ex_ksession ex_kfiles ex_kcalls) [] [lit "k.json"; lit "list"] = P_done None (numSerialToKeyId (w_serial toy_world ex_cert22) ++ [c_nl])
  /\ store_program toy_world (ex_ksession ex_kfiles ex_kcalls) [] [lit "k.json"; lit "showSymmetricKey"] = P_done None (b64encode ex_key ++ [c_nl]).
Proof. split; [apply ex_ksession_ok|]. split; [exact ex_kends_are|]. exact ex_kkept. Qed.

(** From an INI file a key store can be written that cannot be read any more. *)
Theorem C85_ini_refuted : exists w fs stdin name j out, pem_ok w /\ keeps w fs name /\ store_program w fs stdin [name; lit "fromLegacyIni"] = P_done (Some (name, j)) out
  /\ forall ks key, ~ opens w j ks key.
Proof. exact ini_breaks. Qed.
Print Assumptions C85_ini_refuted.
