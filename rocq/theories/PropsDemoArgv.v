(** demo.py, key_store.py and verify.py together. *)
From Coq Require Import Floats.SpecFloat.
From Verif Require Import PyBase World Codec PyFloat PyTime Algo Receipt SpecReceipt SpecKeys Json Pem KeyStore State DepExport CashReg SpecCashReg Demo SpecDemo
  Cli Argv SpecArgv KeyStoreCli StateArgv SpecStateArgv KeyArgv SpecKeyArgv Remote DemoArgv SpecDemoArgv DemoArgvFacts ExampleWorld ExampleDep ExampleDemo ExampleKeyArgv ExampleDemoArgv.
Open Scope N_scope.

(** ** C88 A demonstration DEP is accepted by verify.py with the key store set up by key_store.py *)

(** After key_store.py was called to create a key store, to add the certificate or public key and to set the AES key,
    demo.py prints a DEP for the private key that belongs to it, and verify.py reports success for the two files and
    ends with status 0, whatever the options par and chunksize. *)
Theorem C88_accepted : forall w net fs fs' draws words add store aesf num at_ k n x y, hash_ok w -> aes_ok w -> pem_ok w ->
  key_files w fs words add -> f_text fs aesf = Ok at_ -> demo_aes_key (universal_newlines at_) k -> ~ In store (aesf :: words) ->
  py_int w 10 num = Some n -> (1 <= n <= 10 ^ 13)%Z -> (forall i, draw_ok (draws i)) -> steady draws ->
  store_session w [([store; lit "create"], x); (store :: add, y); ([store; lit "setSymmetricKey"], at_)] fs fs' ->
  exists dep, demo_program w net fs' draws (words ++ [aesf; num]) = D_printed dep
    /\ forall b pick env read stdin args a depf, understood w env args a store depf -> va_state a = false -> va_register a = A_none ->
        read store = f_json fs' store -> read depf = Ok dep -> verify_program w b pick env read stdin args = VEnd None true 0.
Proof. exact demo_verified. Qed.
Print Assumptions C88_accepted.

(** The same with the signature service, if the certificate in the key store is the one it tells of and it signs with the
    key that belongs to it; it may fail for good after the first receipt. *)
Theorem C88_service : forall w net fs fs' draws certf t c store aesf num at_ k n x y, hash_ok w -> aes_ok w -> pem_ok w ->
  f_text fs certf = Ok t -> loadCert w (universal_newlines t) = Ok c -> service_for w net c ->
  f_text fs aesf = Ok at_ -> demo_aes_key (universal_newlines at_) k -> store <> aesf -> store <> certf ->
  py_int w 10 num = Some n -> (1 <= n <= 10 ^ 13)%Z -> (forall i, draw_ok (draws i)) -> steady draws ->
  store_session w [([store; lit "create"], x); ([store; lit "add"; certf], y); ([store; lit "setSymmetricKey"], at_)] fs fs' ->
  exists dep, demo_program w net fs' draws [aesf; num] = D_printed dep
    /\ forall b pick env read stdin args a depf, understood w env args a store depf -> va_state a = false -> va_register a = A_none ->
        read store = f_json fs' store -> read depf = Ok dep -> verify_program w b pick env read stdin args = VEnd None true 0.
Proof. exact service_verified. Qed.
Print Assumptions C88_service.

Example C88_service_case : service_for toy_world ex_net ex_cert
  /\ demo_program toy_world ex_net (ex_ksession (ex_dfiles ex_aes) (ex_dcalls ex_aes)) ex_draw [lit "aes"; lit "4"] = D_printed ex_net_dep
  /\ demo_program toy_world ex_off (ex_dfiles ex_aes) ex_draw [lit "aes"; lit "4"] = D_raised.
Proof. exact (conj ex_net_for ex_net_runs). Qed.

(** demo.py shows its usage if and only if the number of words is not one of those in the usage message. *)
Theorem C88_usage : forall w net fs draws args, demo_program w net fs draws args = D_usage <-> ~ demo_shaped args.
Proof. exact demo_usage. Qed.
Print Assumptions C88_usage.

(** It refuses the number of receipts if and only if the device is at hand and the number is below one; the AES key file
    is not looked at before. *)
Theorem C88_number : forall w net fs draws args, demo_program w net fs draws args = D_number <->
  exists words keyf num n, args = words ++ [keyf; num] /\ device_words w net fs words /\ py_int w 10 num = Some n /\ (n < 1)%Z.
Proof. exact demo_number. Qed.
Print Assumptions C88_number.

(** A DEP is printed only if all files named were read and the last but one holds an AES key in base64. It has as many
    receipts as asked for, in one group without certificates. *)
Theorem C88_printed : forall w net fs draws args dep, demo_program w net fs draws args = D_printed dep ->
  exists words keyf num text b k rs, args = words ++ [keyf; num] /\ device_words w net fs words /\ f_text fs keyf = Ok text
    /\ utf8_encode (universal_newlines text) = Ok b /\ b64decode b = Ok k
    /\ dep = plain_dep rs /\ py_int w 10 num = Some (Z.of_nat (List.length rs)) /\ rs <> [].
Proof. exact demo_printed. Qed.
Print Assumptions C88_printed.

Example C88_case : key_files toy_world (ex_dfiles ex_aes) [lit "p.pem"; lit "c.crt"] [lit "add"; lit "c.crt"] /\ demo_aes_key (universal_newlines ex_aes) ex_key
  /\ store_session toy_world (ex_dcalls ex_aes) (ex_dfiles ex_aes) (ex_ksession (ex_dfiles ex_aes) (ex_dcalls ex_aes)).
Proof. exact ex_dmeets. Qed.
Example C88_case_words : understood toy_world None [lit "par"; lit "2"; lit "chunksize"; lit "1"; lit "k.json"; lit "d.json"] (VerifyArgs false A_none 2 1) (lit "k.json") (lit "d.json").
Proof. exact ex_dunderstood. Qed.
Example C88_runs : demo_program toy_world ex_off (ex_ksession (ex_dfiles ex_aes) (ex_dcalls ex_aes)) ex_draw ex_dwords = D_printed ex_dep2r
  /\ demo_program toy_world ex_off (ex_dfiles ex_aes) ex_draw [lit "p.pem"; lit "c.crt"; lit "none"; lit "0"] = D_number
  /\ demo_program toy_world ex_off (ex_dfiles ex_aes) ex_draw [lit "p.pem"; lit "c.crt"; lit "none"; lit "1"] = D_raised
  /\ demo_program toy_world ex_off (ex_dfiles ex_aes) ex_draw [lit "p.pem"; lit "c.crt"; lit "2"] = D_usage
  /\ verify_program toy_world B_unique (fun _ => 0%nat) None ex_dread (Err PyException) [lit "chunksize"; lit "0"; lit "k.json"; lit "d.json"] = VEnd None true 0.
Proof. exact ex_druns. Qed.
