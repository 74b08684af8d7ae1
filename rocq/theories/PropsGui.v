(** The graphical program rktool.py. *)
From Verif Require Import PyBase World Codec CodecFacts2 Receipt Json Pem KeyStore VerifyReceipt State DepBase DepParser Verify Url StateCli ReceiptCli Gui
  SpecReceipt ReceiptFacts SpecDep SpecCluster SpecChunks SpecDoc SpecState SpecClean SpecKeys SpecKeyFile SpecKeyStoreCli SpecReceiptCli SpecGui GuiFacts GuiFacts2
  ExampleWorld ExampleReceipts ExampleDep ExampleClean ExampleKeys ExampleCli ExampleReceiptCli ExampleGui.
Open Scope N_scope.

(** ** C61 DEPs in the graphical program *)

(** A DEP is displayed if and only if it is well formed, with at least one receipt, and
    all receipts can be read; then certificates and receipt IDs are those of the DEP. *)
Theorem C61_displayed w file dep tree :
  load_dep w file = Done (dep, tree) <->
  exists gs, dep_is w (load file) gs /\ occupied gs <> []
    /\ Forall2 encoded (occupied gs) dep /\ Forall2 (displays w) (occupied gs) tree.
Proof. exact (load_dep_spec w file dep tree). Qed.
Print Assumptions C61_displayed.

(** "Valid DEP" is shown exactly for the DEPs that verify.py accepts, for every number
    of processes. *)
Theorem C61_exact w nprocs file ks text key : hash_ok w -> (1 <= nprocs)%nat -> typed_key text key ->
  (exists dep tree, load_dep w file = Done (dep, tree) /\ verify_button w nprocs dep ks text = Done tt)
  <-> exists c', verifyDEP w (load file) ks key (new_cluster B_unique) None = (c', None).
Proof. exact (gui_exact w nprocs file ks text key). Qed.
Print Assumptions C61_exact.

(** Texts that are no keys: there is a message. *)
Theorem C61_no_key w nprocs dep ks text : (forall key, ~ typed_key text key) -> exists e, verify_button w nprocs dep ks text = Displayed e.
Proof. exact (button_no_key w nprocs dep ks text). Qed.
Print Assumptions C61_no_key.
Example C61_no_key_example : forall key, ~ typed_key (lit "?") key.
Proof. exact ex_typed_not. Qed.

Example C61_exact_example : hash_ok toy_world
  /\ load_dep toy_world ex_dep = Done ex_loaded /\ typed_key ex_key_text (Some ex_key)
  /\ snd ex_loaded = [GroupNode (Some (lit "5a")) [] [lit "1"; lit "2"]; GroupNode (Some (lit "5a")) [] [lit "3"; lit "4"];
                      GroupNode (Some (lit "5a")) [] [lit "5"; lit "6"; lit "7"; lit "8"]]
  /\ verify_button toy_world 2 (fst ex_loaded) ex_ks ex_key_text = Done tt
  /\ verify_button toy_world 2 (fst ex_loaded) [] ex_key_text = Displayed (UntrustedCertificate (lit "5a")).
Proof. exact (conj toy_hash_ok ex_gui). Qed.

(** ** C62 Receipts in the graphical program *)

(** A receipt is displayed and found valid exactly if verify_receipt.py finds it valid. *)
Theorem C62_exact w py fetch ks f s : f <> F_csv ->
  (exists rp, view_receipt w py fetch f s = Some (Done rp) /\ verify_receipt_task w ks rp = Done tt)
  <-> verify_text w py fetch (fromKeyStore ks) f s = Ok tt.
Proof. exact (view_verify w py fetch ks f s). Qed.
Print Assumptions C62_exact.

Example C62_exact_example : exists rp, view_receipt toy_world Py3 ex_online F_url ex_url = Some (Done rp)
  /\ verify_receipt_task toy_world ex_ks rp = Done tt /\ verify_text toy_world Py3 ex_online (VerifyReceipt.fromKeyStore ex_ks) F_url ex_url = Ok tt
  /\ exists e, view_receipt toy_world Py3 (fun _ => Ok ex_code) F_url (lit "http://x/") = Some (Displayed e).
Proof. exact ex_viewed. Qed.

(** ** C63 The key store of the graphical program *)

(** What the actions do to what is found under an ID *)
Theorem C63_found w ks a ks' : NoDup (map fst ks) -> store_act w ks a = (ks', Done tt) ->
  match a with
  | A_import file => readStoreFromJson w (load file) = Ok ks'
  | A_cert pem => exists c, loadCert w pem = Ok c /\ forall i, found_at ks' i = if str_eqb (serial_text w c) i then (Some (w_cert_pubkey w c), Some c) else found_at ks i
  | A_key j pem => exists k, loadPubKey w pem = Ok k /\ forall i, found_at ks' i = if str_eqb j i then (Some k, None) else found_at ks i
  | A_button c => forall i, found_at ks' i = if str_eqb (serial_text w c) i then (Some (w_cert_pubkey w c), Some c) else found_at ks i
  | A_delete j => forall i, found_at ks' i = if str_eqb j i then (None, None) else found_at ks i
  end.
Proof. exact (act_found w ks a ks'). Qed.
Print Assumptions C63_found.

(** Exported, after any actions, and imported again it is the same, without an AES key. *)
Theorem C63_exported w l ks : pem_ok w -> Forall (loaded_button w) l -> signless (store_acts w [] l) ->
  import_store w ks (export_store w (store_acts w [] l)) = (store_acts w [] l, Done tt)
  /\ loadKeyFromJson (load (export_store w (store_acts w [] l))) = Ok None.
Proof. exact (export_import w l ks). Qed.
Print Assumptions C63_exported.

Example C63_exported_example : pem_ok toy_world
  /\ Forall (loaded_button toy_world) ex_acts /\ store_acts toy_world [] ex_acts = ex_acted_store /\ signless ex_acted_store
  /\ map fst ex_acted_store = [lit "U:ATU12345678-K1"; lit "16"].
Proof. exact (conj toy_pem_ok ex_acted). Qed.

(** Importing gives the key store of the file. For every other file there is no message:
    the exception is not handled (C64_import_refuted). *)
Theorem C63_import w ks file :
  (forall ks', import_store w ks file = (ks', Done tt) <-> readStoreFromJson w (load file) = Ok ks')
  /\ ((forall ks', readStoreFromJson w (load file) <> Ok ks') ->
      import_store w ks file = (ks, Lost KeyStoreError)
      \/ import_store w ks file = (ks, Lost PyIndexError) /\ exists m v, file_entries (load file) m /\ In ([], v) m).
Proof. exact (import_exact w ks file). Qed.
Print Assumptions C63_import.

Example C63_import_example : import_store toy_world [] ex_store = (ex_ks, Done tt) /\ import_store toy_world ex_ks JNull = (ex_ks, Lost KeyStoreError).
Proof. exact ex_import. Qed.

(** ** C64 Actions of the graphical program end *)

(** Every attempt to load a DEP ends with the DEP or a message, if receipts are texts. *)
Theorem C64_load w file : receipts_are_texts (load file) -> ends (load_dep w file).
Proof. exact (load_ends w file). Qed.
Print Assumptions C64_load.

Theorem C64_load_refuted : exists w file, load_dep w file = Lost PyAttributeError.
Proof. exact load_lost. Qed.
Print Assumptions C64_load_refuted.

(** Every verification of a displayed DEP ends with success or a message, if there is no
    key or it has 32 bytes and the amounts are not too long. *)
Theorem C64_dep w nprocs file dep tree ks text : (1 <= nprocs)%nat -> load_dep w file = Done (dep, tree) ->
  (forall key, typed_key text (Some key) -> List.length key = 32%nat /\ short_groups w dep) ->
  ends (verify_button w nprocs dep ks text).
Proof. exact (gui_ends w nprocs file dep tree ks text). Qed.
Print Assumptions C64_dep.

Example C64_dep_example : load_dep toy_world ex_dep = Done (fst ex_loaded, snd ex_loaded) /\ receipts_are_texts (load ex_dep)
  /\ forall key, typed_key ex_key_text (Some key) -> List.length key = 32%nat /\ short_groups toy_world (fst ex_loaded).
Proof. exact (conj (proj1 ex_gui) (conj ex_gui_texts ex_gui_key)). Qed.

(** With a key of another length it never ends, though verify.py reports it. *)
Theorem C64_key_refuted : exists w dep ks text1 key1 text2 key2 file tree,
  load_dep w file = Done (dep, tree) /\ receipts_are_texts (load file) /\ short_groups w dep
  /\ typed_key text1 (Some key1) /\ verify_button w 2 dep ks text1 = Lost InvalidKey
  /\ snd (verifyDEP w (load file) ks (Some key1) (new_cluster B_unique) None) = Some InvalidKey
  /\ typed_key text2 (Some key2) /\ verify_button w 2 dep ks text2 = Lost InvalidKey
  /\ snd (verifyDEP w (load file) ks (Some key2) (new_cluster B_unique) None) = Some InvalidKey.
Proof. exact stuck. Qed.
Print Assumptions C64_key_refuted.

(** For JWS and QR codes that can be encoded every action ends. *)
Theorem C64_receipt w py fetch f s : plain_format f -> f <> F_csv -> encodable s ->
  exists v, view_receipt w py fetch f s = Some v /\ ends v
    /\ forall rp ks, v = Done rp -> ends (verify_receipt_task w ks rp).
Proof. exact (view_ends w py fetch f s). Qed.
Print Assumptions C64_receipt.

Example C64_receipt_example : plain_format F_jws /\ encodable ex_t2
  /\ (exists rp, view_receipt toy_world Py3 ex_offline F_jws ex_t2 = Some (Done rp) /\ verify_receipt_task toy_world ex_ks rp = Done tt
  /\ exists e, verify_receipt_task toy_world [] rp = Displayed e).
Proof. exact (conj I ex_viewed_jws). Qed.

Theorem C64_receipt_refuted : exists w s t, view_receipt w Py3 ex_offline F_jws s = Some (Lost PyUnicodeEncodeError)
  /\ view_receipt w Py2 ex_offline F_ocr t <> view_receipt w Py3 ex_offline F_ocr t.
Proof. exact view_receipt_lost. Qed.
Print Assumptions C64_receipt_refuted.

(** Receipts of a displayed DEP cannot be viewed in Python 3, although the DEP is valid. *)
Theorem C64_dep_receipt_refuted : exists w file dep tree ks text, load_dep w file = Done (dep, tree) /\ dep <> []
  /\ verify_button w 2 dep ks text = Done tt
  /\ (forall g b, In g dep -> In b (g_recs g) -> view_dep_receipt w Py3 b = Lost PyTypeError)
  /\ exists g b rp, In g dep /\ In b (g_recs g) /\ view_dep_receipt w Py2 b = Done rp.
Proof. exact view_lost. Qed.
Print Assumptions C64_dep_receipt_refuted.

(** Adding and deleting ends with success or with a message and nothing changed. *)
Theorem C64_store w ks a : (forall file, a <> A_import file) -> ends (snd (store_act w ks a))
  /\ forall e, snd (store_act w ks a) = Displayed e -> fst (store_act w ks a) = ks.
Proof. exact (act_ends w ks a). Qed.
Print Assumptions C64_store.

Theorem C64_import_refuted : exists w ks file, snd (import_store w ks file) = Lost KeyStoreError.
Proof. exact (ex_intro _ toy_world (ex_intro _ ex_ks (ex_intro _ JNull (f_equal snd (proj2 ex_import))))). Qed.
Print Assumptions C64_import_refuted.
