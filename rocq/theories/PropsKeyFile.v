(** Key store files. *)
From Verif Require Import PyBase World Codec Json Pem KeyStore SpecKeys SpecKeyFile KeyFileFacts DepExport KeyStoreCli
  ExampleWorld ExampleReceipts ExampleDep ExampleKeys ExampleKeyStoreCli.
Open Scope N_scope.

(** ** C58 Key store files mean what they say *)

(** A file is read exactly if all its entries are well formed, and then what is found
    under an ID is what the last entry about it says. *)
Theorem C58_file w j :
  (forall ks, readStoreFromJson w j = Ok ks -> exists m, file_entries j m /\ well_formed w m
     /\ forall i, exists o, says w m i o /\ getKey ks i = option_map fst o /\ getCert ks i = match o with Some e => snd e | None => None end)
  /\ ((exists ks, readStoreFromJson w j = Ok ks) <-> exists m, file_entries j m /\ well_formed w m).
Proof. exact (read_file w j). Qed.
Print Assumptions C58_file.

Theorem C58_determined w m i o o' : says w m i o -> says w m i o' -> o = o'.
Proof. exact (says_fun w m i o o'). Qed.
Print Assumptions C58_determined.

(** Other files are rejected with the library's exception, unless there is an entry with
    an empty name. *)
Theorem C58_rejected w j x : readStoreFromJson w j = Err x ->
  x = KeyStoreError \/ x = PyIndexError /\ exists m v, file_entries j m /\ In ([], v) m.
Proof. exact (read_file_err w j x). Qed.
Print Assumptions C58_rejected.

Definition ex_entry (i ty t : str) : json :=
  JDict [(lit "id", JStr i); (lit "signatureDeviceType", JStr ty); (lit "signatureCertificateOrPublicKey", JStr t)].
Definition ex_entries : list (str * json) :=
  [(lit "5A", ex_entry (lit "5A") (lit "CERTIFICATE") ex_cert_text); (ex_kid, ex_entry ex_kid (lit "PUBLIC_KEY") (b64encode [8]))].
Definition ex_key_file (m : list (str * json)) : json := JDict [(lit "certificateOrPublicKeyMap", JDict m)].
Example C58_example : file_entries (ex_key_file ex_entries) ex_entries /\ well_formed toy_world ex_entries
  /\ readStoreFromJson toy_world (ex_key_file ex_entries) = Ok [(lit "5a", KeyTuple [7] (Some ex_cert)); (ex_kid, KeyTuple [8] None)]
  /\ readStoreFromJson toy_world (ex_key_file [(lit "5A", ex_entry (lit "5B") (lit "CERTIFICATE") ex_cert_text)]) = Err KeyStoreError
  /\ readStoreFromJson toy_world (ex_key_file [(lit "5A", ex_entry (lit "5A") (lit "PUBLIC_KEY") ex_cert_text)]) <> Err KeyStoreError
  /\ readStoreFromJson toy_world (ex_key_file [(lit "key", ex_entry (lit "key") (lit "CERTIFICATE") ex_cert_text)]) = Err KeyStoreError.
Proof.
  assert (readStoreFromJson toy_world (ex_key_file ex_entries) = Ok [(lit "5a", KeyTuple [7] (Some ex_cert)); (ex_kid, KeyTuple [8] None)]) as R by (vm_compute; reflexivity).
  assert (file_entries (ex_key_file ex_entries) ex_entries) as F by (eexists; split; reflexivity).
  split; [exact F|]. split.
  - destruct (proj1 (read_file toy_world (ex_key_file ex_entries)) _ R) as (m & (d & E & G) & Wf & _). injection E as <-.
    cbn in G. injection G as <-. exact Wf.
  - split; [exact R|]. split; [vm_compute; reflexivity|]. split; [vm_compute; discriminate|vm_compute; reflexivity].
Qed.

(** An empty name of a certificate is not reported properly. *)
Theorem C58_empty_refuted : exists w j, readStoreFromJson w j = Err PyIndexError.
Proof. exists toy_world, (ex_key_file [([], ex_entry [] (lit "CERTIFICATE") ex_cert_text)]). vm_compute. reflexivity. Qed.
Print Assumptions C58_empty_refuted.

(** A certificate is not kept under its own serial number, but under its entry's name. *)
Theorem C58_serial_refuted : exists w j ks c i, readStoreFromJson w j = Ok ks /\ getCert ks i = Some c /\ i <> numSerialToKeyId (w_serial w c).
Proof.
  exists toy_world, (ex_key_file [(lit "7", ex_entry (lit "7") (lit "CERTIFICATE") ex_cert_text)]), [(lit "7", KeyTuple [7] (Some ex_cert))], ex_cert, (lit "7").
  split; [vm_compute; reflexivity|]. split; [reflexivity|]. vm_compute. discriminate.
Qed.
Print Assumptions C58_serial_refuted.

(** Of entries with names for the same number only the last counts. *)
Theorem C58_names_refuted : exists w j m ks, readStoreFromJson w j = Ok ks /\ file_entries j m /\ NoDup (map fst m)
  /\ List.length m = 2%nat /\ List.length ks = 1%nat.
Proof.
  exists toy_world, (ex_key_file [(lit "5A", ex_entry (lit "5A") (lit "CERTIFICATE") ex_cert_text); (lit "05a", ex_entry (lit "05a") (lit "CERTIFICATE") ex_cert_text)]).
  eexists _, [(lit "5a", KeyTuple [7] (Some ex_cert))]. split; [vm_compute; reflexivity|]. split; [eexists; split; reflexivity|].
  split; [|split; reflexivity]. cbn [map fst]. constructor; [intros [H|[]]; discriminate|]. constructor; [intros []|constructor].
Qed.
Print Assumptions C58_names_refuted.
