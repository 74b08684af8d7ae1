(** The command lines of key_store.py and cert_extract.py. *)
From Coq Require Import Lia.
From Verif Require Import PyBase World Codec Json Pem KeyStore DepParser DepExport KeyStoreCli SpecKeys SpecCluster SpecChunks SpecDoc SpecKeyStoreCli
  AcceptFacts KeyStoreCliFacts IniFacts CertExtractFacts ExampleWorld ExampleReceipts ExampleDep ExampleInc ExampleExport ExampleKeys ExampleKeyStoreCli.
Open Scope N_scope.

(** ** C55 Editing a key store file *)

(** A command that changes a file succeeds exactly if its arguments are valid; the file
    then contains what was asked for, and everything else that was there before. *)
Theorem C55_commands w cmd file ks key : pem_ok w -> opens w file ks key -> signless ks -> changing cmd ->
  (forall r, key_store_py w cmd file = Ok r -> snd r = [] /\ exists ks' key', opens w (file_after file r) ks' key' /\ signless ks'
     /\ (forall i, found_after w cmd ks i (found_at ks' i)) /\ key_after w cmd key key')
  /\ ((exists r, key_store_py w cmd file = Ok r) <-> valid_command w cmd).
Proof. exact (store_commands w cmd file ks key). Qed.
Print Assumptions C55_commands.

(** What is printed; the file is not written. *)
Theorem C55_output w file ks key : opens w file ks key ->
  (exists ids, key_store_py w K_list file = Ok (None, List.concat (map (fun i => i ++ [c_nl]) ids))
     /\ NoDup ids /\ forall i, In i ids <-> getKey ks i <> None)
  /\ (forall k, key = Some k -> key_store_py w K_showKey file = Ok (None, b64encode k ++ [c_nl]))
  /\ (key = None -> key_store_py w K_showKey file = Ok (None, lit "No symmetric key present." ++ [c_nl])).
Proof. exact (store_output w file ks key). Qed.
Print Assumptions C55_output.

Theorem C55_create w file : pem_ok w -> exists file', key_store_py w K_create file = Ok (Some file', []) /\ opens w file' [] None.
Proof. exact (store_create w file). Qed.
Print Assumptions C55_create.

Example C55_example : pem_ok toy_world /\ opens toy_world ex_kfile ex_kstore (Some ex_key) /\ signless ex_kstore
  /\ key_store_py toy_world (K_addCert (ex_pem ex_cert22)) ex_kfile = Ok (Some ex_kadded, [])
  /\ key_store_py toy_world K_list ex_kadded = Ok (None, lit "10" ++ [c_nl] ++ ex_kid ++ [c_nl] ++ lit "16" ++ [c_nl])
  /\ valid_command toy_world (K_setKey (lit " BQU= " ++ [c_nl])).
Proof. split; [exact toy_pem_ok|]. split; [exact ex_kopens|]. split; [exact ex_ksignless|]. exact ex_kadd. Qed.

(** A certificate under the ID "--5" is found under "-5"; after an unrelated command it
    is not found there any more. *)
Theorem C55_sign_refuted : exists w file ks key r ks' key' i, pem_ok w /\ opens w file ks key /\ key_store_py w K_delKey file = Ok r
  /\ opens w (file_after file r) ks' key' /\ found_at ks i <> (None, None) /\ found_at ks' i = (None, None).
Proof. exact ex_kmoves. Qed.
Print Assumptions C55_sign_refuted.

(** ** C56 Key stores as INI files *)

Theorem C56_legacy w file ks key file0 : pem_ok w -> opens w file ks key -> signless ks ->
  (forall i k, found_at ks i = (Some k, None) -> ini_id w i) ->
  exists text file' ks', key_store_py w K_toIni file = Ok (None, text)
    /\ key_store_py w (K_fromIni text) file0 = Ok (Some file', []) /\ opens w file' ks' None
    /\ forall i, found_at ks' i = found_at ks i.
Proof. exact (legacy_ini w file ks key file0). Qed.
Print Assumptions C56_legacy.

Example C56_example : pem_ok toy_world /\ opens toy_world ex_kfile ex_kstore (Some ex_key) /\ signless ex_kstore
  /\ (forall i k, found_at ex_kstore i = (Some k, None) -> ini_id toy_world i) /\ found_at ex_kstore ex_kid = (Some [8], None)
  /\ match key_store_py toy_world K_toIni ex_kfile with Ok (None, text) => key_store_py toy_world (K_fromIni text) JNull | _ => Err PyException end
     = Ok (Some (written_store toy_world ex_kstore None), []).
Proof.
  split; [exact toy_pem_ok|]. split; [exact ex_kopens|]. split; [exact ex_ksignless|]. split; [exact ex_kini_ids|].
  split; [vm_compute; reflexivity|exact ex_kini].
Qed.

(** With other IDs keys get other IDs, or get lost, without any error. *)
Theorem C56_ids_refuted : exists w file text file' ks ks' i j, pem_ok w /\ opens w file ks None /\ key_store_py w K_toIni file = Ok (None, text)
  /\ key_store_py w (K_fromIni text) file = Ok (Some file', []) /\ opens w file' ks' None
  /\ found_at ks i <> (None, None) /\ found_at ks' i = (None, None) /\ found_at ks j = (None, None) /\ found_at ks' j <> (None, None).
Proof.
  exists toy_world, (ex_kbad (lit "s;1")). eexists. exists (ex_kbad (lit "S:1")), [(lit "s;1", KeyTuple [8] None)], [(lit "S:1", KeyTuple [8] None)], (lit "s;1"), (lit "S:1").
  split; [exact toy_pem_ok|]. split; [split; vm_compute; reflexivity|]. split; [vm_compute; reflexivity|]. split; [vm_compute; reflexivity|].
  split; [split; vm_compute; reflexivity|]. split; [discriminate|]. split; [reflexivity|]. split; [reflexivity|discriminate].
Qed.
Print Assumptions C56_ids_refuted.
Theorem C56_comment_refuted : exists w file text file' ks i, pem_ok w /\ opens w file ks None /\ key_store_py w K_toIni file = Ok (None, text)
  /\ key_store_py w (K_fromIni text) file = Ok (Some file', []) /\ opens w file' [] None /\ found_at ks i <> (None, None).
Proof.
  exists toy_world, (ex_kbad (lit "#x")). eexists. exists (written_store toy_world [] None), [(lit "#x", KeyTuple [8] None)], (lit "#x").
  split; [exact toy_pem_ok|]. split; [split; vm_compute; reflexivity|]. split; [vm_compute; reflexivity|]. split; [vm_compute; reflexivity|].
  split; [split; vm_compute; reflexivity|discriminate].
Qed.
Print Assumptions C56_comment_refuted.
Theorem C56_colon_refuted : exists w file text ks i, pem_ok w /\ opens w file ks None /\ key_store_py w K_toIni file = Ok (None, text) /\ found_at ks i <> (None, None)
  /\ forall file' ks', key_store_py w (K_fromIni text) file = Ok (Some file', []) -> opens w file' ks' None -> found_at ks' i = (None, None).
Proof. exact colon_lost. Qed.
Print Assumptions C56_colon_refuted.

(** ** C57 Extracted certificates *)

(** Every certificate of a group with receipts has a file that contains it, or another
    certificate of the DEP with the same serial number; no other files change. *)
Theorem C57_complete w n doc gs dgs dir : pem_ok w -> dep_doc w doc gs -> plain_names doc -> Forall2 encoded gs dgs -> filled dgs <> [] ->
  certs_first doc \/ n = 0%nat \/ (size dgs < n)%nat ->
  exists dir', cert_extract w n doc dir = (dir', None)
    /\ (forall c, dep_cert gs c -> exists c' t, dep_cert gs c' /\ crt_name w c' = crt_name w c
          /\ content_of dir' (crt_name w c) = Some t /\ loadCert w t = Ok c')
    /\ (forall c, dep_cert gs c -> (forall c', dep_cert gs c' -> Z.abs (w_serial w c') = Z.abs (w_serial w c) -> c' = c) ->
          exists t, content_of dir' (crt_name w c) = Some t /\ loadCert w t = Ok c)
    /\ (forall name, (forall c, dep_cert gs c -> crt_name w c <> name) -> content_of dir' name = content_of dir name).
Proof. exact (extract_complete w n doc gs dgs dir). Qed.
Print Assumptions C57_complete.

(** Whatever the input is, and even if it is rejected in the end: files that change contain
    certificates of the input. *)
Theorem C57_sound w n doc dir name : pem_ok w ->
  content_of (fst (cert_extract w n doc dir)) name = content_of dir name
  \/ exists s c t, text_in doc s /\ parseDEPCert w s = Ok c /\ name = crt_name w c
     /\ content_of (fst (cert_extract w n doc dir)) name = Some t /\ loadCert w t = Ok c.
Proof. exact (extract_sound w n doc dir name). Qed.
Print Assumptions C57_sound.

Example C57_example : pem_ok toy_world /\ dep_doc toy_world ex_late ex_late_gs /\ plain_names ex_late /\ Forall2 encoded ex_late_gs ex_late_dgs
  /\ filled ex_late_dgs <> [] /\ (size ex_late_dgs < 3)%nat
  /\ cert_extract toy_world 3 ex_late [] = ([(lit "5b.crt", ex_crt ex_ca); (lit "5a.crt", ex_crt ex_leaf)], None).
Proof.
  split; [exact toy_pem_ok|]. destruct ex_late_is as (A & B & C). split; [exact A|]. split; [exact B|]. split; [exact C|]. split; [discriminate|].
  split; [vm_compute; lia|exact (proj1 ex_late_runs)].
Qed.

(** Certificates after receipts are lost without any error if a chunk ends between them. *)
Theorem C57_order_refuted : exists w doc gs c n, pem_ok w /\ dep_doc w doc gs /\ plain_names doc /\ (1 <= n)%nat
  /\ dep_cert gs c /\ cert_extract w n doc [] = ([], None).
Proof.
  exists toy_world, ex_late, ex_late_gs, ex_ca, 2%nat. split; [exact toy_pem_ok|]. destruct ex_late_is as (A & B & _). split; [exact A|]. split; [exact B|].
  split; [lia|]. split; [|exact (proj1 (proj2 ex_late_runs))]. eexists. split; [now left|]. split; [discriminate|]. left. now left.
Qed.
Print Assumptions C57_order_refuted.

(** One of two certificates with the same serial number is lost. *)
Theorem C57_serial_refuted : exists w doc gs c c' dir, pem_ok w /\ dep_doc w doc gs /\ dep_cert gs c /\ dep_cert gs c' /\ c <> c'
  /\ cert_extract w 0 doc [] = ([dir], None).
Proof.
  exists toy_world, ex_same, [Group [ex_t1] (Some ex_leaf) [ex_cert]], ex_cert, ex_leaf, (lit "5a.crt", ex_crt ex_leaf). split; [exact toy_pem_ok|].
  split; [exact ex_same_is|]. split; [eexists; split; [now left|]; split; [discriminate|left; now left]|].
  split; [eexists; split; [now left|]; split; [discriminate|now right]|]. split; [discriminate|vm_compute; reflexivity].
Qed.
Print Assumptions C57_serial_refuted.

(** The certificates of groups without receipts are not extracted. *)
Theorem C57_hollow_refuted : exists w doc gs g c dir, pem_ok w /\ dep_doc w doc gs /\ In g gs /\ gr_cert g = Some c
  /\ cert_extract w 0 doc [] = (dir, None) /\ content_of dir (crt_name w c) = None.
Proof.
  exists toy_world, ex_hollow, [Group [ex_t1] (Some ex_cert) []; Group [] (Some ex_ca) [ex_ca]], (Group [] (Some ex_ca) [ex_ca]), ex_ca, [(lit "5a.crt", ex_crt ex_cert)].
  split; [exact toy_pem_ok|]. split; [exact ex_hollow_is|]. split; [right; now left|]. split; [reflexivity|]. split; vm_compute; reflexivity.
Qed.
Print Assumptions C57_hollow_refuted.
