(** cert_extract.py and key_store.py together. *)
From Coq Require Import Lia.
From Verif Require Import PyBase World Codec SpecReceipt Json Pem KeyStore State DepParser Verify DepExport SpecKeys SpecCluster SpecChunks SpecDoc AcceptFacts KeyStoreCli SpecKeyStoreCli StateArgv SpecStateArgv KeyArgv SpecKeyArgv
  ExtractArgv SpecExtractArgv ExtractArgvFacts ExampleWorld ExampleReceipts ExampleDep ExampleExport ExampleKeys ExampleKeyStoreCli ExampleStateArgv ExampleKeyArgv ExampleExtractArgv.
Open Scope N_scope.

(** ** C89 A key store made of the certificates extracted from a DEP trusts these and no others *)

(** After cert_extract.py was called with a directory, and key_store.py to create a key store and to add the files of the
    certificates of the DEP, in any order, the key store has these certificates and nothing else, and the certificates of
    the groups with receipts are trusted. *)
Theorem C89_trusted : forall w n enter doc gs dgs out dir fs fs' store l x y, pem_ok w -> dep_doc w doc gs -> plain_names doc -> Forall2 encoded gs dgs -> filled dgs <> [] ->
  certs_first doc \/ n = 0%nat \/ (size dgs < n)%nat -> dep_serials_apart w gs -> enter out = Ok dir ->
  exists dir', extract_program w n enter doc [out] = X_end false (Some (out, dir'))
    /\ (shows fs out dir' -> (forall c, In c l <-> dep_cert gs c) -> (forall c, dep_cert gs c -> path out (crt_name w c) <> store) ->
        store_session w (([store; lit "create"], x) :: add_calls w store out l y) fs fs' ->
        exists j ks, f_json fs' store = Ok j /\ opens w j ks None
          /\ (forall c, dep_cert gs c -> found_at ks (numSerialToKeyId (w_serial w c)) = (Some (w_cert_pubkey w c), Some c))
          /\ (forall i, (forall c, dep_cert gs c -> numSerialToKeyId (w_serial w c) <> i) -> found_at ks i = (None, None))
          /\ (forall g c, In g gs -> gr_texts g <> [] -> gr_cert g = Some c -> verifyCert w c (gr_chain g) ks = Ok tt)).
Proof. exact extract_added. Qed.
Print Assumptions C89_trusted.

(** A DEP with certificates in all its groups that is accepted with any key store is accepted with one that has its own
    certificates, with the same state afterwards. So what such a key store leaves out is the trust in the certificates only. *)
Theorem C89_accepted : forall w dep gs ks ks1 key c idx c', hash_ok w -> dep_is w dep gs -> Forall (fun g => gr_cert g <> None) (occupied gs) ->
  (forall c, dep_cert gs c -> found_at ks (numSerialToKeyId (w_serial w c)) = (Some (w_cert_pubkey w c), Some c)) ->
  verifyDEP w dep ks1 key c idx = (c', None) -> verifyDEP w dep ks key c idx = (c', None).
Proof. exact certs_suffice. Qed.
Print Assumptions C89_accepted.

Example C89_accepted_case : Forall (fun g => gr_cert g <> None) (occupied ex_late_gs)
  /\ (forall c, dep_cert ex_late_gs c -> found_at ex_xstore (numSerialToKeyId (w_serial toy_world c)) = (Some (w_cert_pubkey toy_world c), Some c))
  /\ verifyDEP toy_world (load ex_late) ex_ca_ks (Some ex_key) (new_cluster B_unique) None = ex_xverdict /\ snd ex_xverdict = None
  /\ verifyDEP toy_world (load ex_late) ex_xstore (Some ex_key) (new_cluster B_unique) None = ex_xverdict
  /\ snd (verifyDEP toy_world (load ex_late) [] (Some ex_key) (new_cluster B_unique) None) = Some (UntrustedCertificate (lit "5a")).
Proof. exact (conj (proj1 ex_xall) (conj (proj2 ex_xall) ex_xaccepted)). Qed.

(** Whatever the input is: the status is 1 if the directory cannot be entered or the DEP cannot be read, and files that
    change contain certificates of the input. *)
Theorem C89_any : forall w n enter doc args raised d, pem_ok w -> extract_program w n enter doc args = X_end raised d ->
  exists out, args = [out]
    /\ ((d = None /\ raised = true /\ exists e, enter out = Err e)
        \/ exists dir dir', d = Some (out, dir') /\ enter out = Ok dir /\ (raised = true <-> snd (parse_inc w P_certless doc n) <> None)
          /\ forall name, content_of dir' name = content_of dir name
               \/ exists s c t, text_in doc s /\ parseDEPCert w s = Ok c /\ name = crt_name w c /\ content_of dir' name = Some t /\ loadCert w t = Ok c).
Proof. exact extract_any. Qed.
Print Assumptions C89_any.

(** cert_extract.py shows its usage if and only if it is not given one word. *)
Theorem C89_usage : forall w n enter doc args, extract_program w n enter doc args = X_usage <-> List.length args <> 1%nat.
Proof. exact extract_usage. Qed.
Print Assumptions C89_usage.

Example C89_case : pem_ok toy_world /\ dep_doc toy_world ex_late ex_late_gs /\ plain_names ex_late /\ Forall2 encoded ex_late_gs ex_late_dgs /\ filled ex_late_dgs <> [] /\ (size ex_late_dgs < 3)%nat
  /\ dep_serials_apart toy_world ex_late_gs /\ shows ex_xfiles (lit "certs") ex_xdir /\ (forall c, In c [ex_ca; ex_leaf] <-> dep_cert ex_late_gs c)
  /\ (forall c, dep_cert ex_late_gs c -> path (lit "certs") (crt_name toy_world c) <> lit "k.json")
  /\ store_session toy_world ex_xcalls ex_xfiles (ex_ksession ex_xfiles ex_xcalls).
Proof.
  split; [exact toy_pem_ok|]. destruct ex_late_is as (A & B & C). split; [exact A|]. split; [exact B|]. split; [exact C|]. split; [discriminate|]. split; [vm_compute; lia|].
  split; [exact ex_xapart|]. split; [exact ex_xshows|]. split; [exact ex_xcerts|]. split; [exact ex_xpaths|apply ex_ksession_ok].
Qed.
Example C89_runs : extract_program toy_world 3 ex_enter ex_late [lit "certs"] = X_end false (Some (lit "certs", ex_xdir))
  /\ extract_program toy_world 3 ex_enter ex_late [lit "file"] = X_end true None /\ extract_program toy_world 3 ex_enter ex_late [] = X_usage
  /\ store_program toy_world (ex_ksession ex_xfiles ex_xcalls) [] [lit "k.json"; lit "list"] = P_done None (lit "5b" ++ [c_nl] ++ lit "5a" ++ [c_nl]).
Proof. destruct ex_xrun as (A & B & C). exact (conj A (conj B (conj C ex_xlist))). Qed.
