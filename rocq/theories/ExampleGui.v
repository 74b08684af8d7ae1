(** The graphical program in the toy world. *)
From Verif Require Import PyBase World Codec CodecFacts2 Receipt Json KeyStore State DepBase DepParser Verify Url StateCli ReceiptCli Gui SpecReceipt ReceiptFacts SpecDep SpecCluster
  SpecDoc SpecClean SpecKeys SpecKeyStoreCli SpecGui GuiFacts Pem ListFacts VerifyFacts ExampleWorld ExampleReceipts ExampleDep ExampleClean ExampleInc ExampleCli ExampleKeys ExampleReceiptCli.
Open Scope N_scope.

(** The key as entered *)
Definition ex_key_text : str := Eval vm_compute in b64encode ex_key.
Definition ex_loaded : list dgroup * list group_node := Eval vm_compute in
  match load_dep toy_world ex_dep with Done p => p | _ => ([], []) end.
Lemma ex_gui : load_dep toy_world ex_dep = Done ex_loaded /\ typed_key ex_key_text (Some ex_key)
  /\ snd ex_loaded = [GroupNode (Some (lit "5a")) [] [lit "1"; lit "2"]; GroupNode (Some (lit "5a")) [] [lit "3"; lit "4"];
                      GroupNode (Some (lit "5a")) [] [lit "5"; lit "6"; lit "7"; lit "8"]]
  /\ verify_button toy_world 2 (fst ex_loaded) ex_ks ex_key_text = Done tt
  /\ verify_button toy_world 2 (fst ex_loaded) [] ex_key_text = Displayed (UntrustedCertificate (lit "5a")).
Proof. split; [vm_compute; reflexivity|]. split; [apply entered_typed; vm_compute; reflexivity|]. repeat split; vm_compute; reflexivity. Qed.
Lemma ex_typed_not key : ~ typed_key (lit "?") key.
Proof. intros H. apply entered_typed in H. vm_compute in H. discriminate H. Qed.

Lemma ex_short_groups : short_groups toy_world (fst ex_loaded).
Proof.
  assert (forallb (fun g => forallb (fun b => match utf8_decode b with Ok t => shortb t | Err _ => false end) (g_recs g)) (fst ex_loaded) = true) as H
    by (vm_compute; reflexivity).
  intros g b t r Hg Hb U R. rewrite forallb_forall in H. specialize (H g Hg). rewrite forallb_forall in H. specialize (H b Hb).
  rewrite (CodecFacts.utf8_decode_encode _ _ U) in H.
  assert (fromJWSString toy_world t = Ok (r, lit "R1")) as E by now apply parse_reads. unfold shortb in H. rewrite E in H. cbv zeta in H.
  cbv zeta. apply Forall_forall. intros a Ha. rewrite forallb_forall in H. apply Nat.leb_le. now apply H.
Qed.
Lemma ex_gui_key key : typed_key ex_key_text (Some key) -> List.length key = 32%nat /\ short_groups toy_world (fst ex_loaded).
Proof.
  intros H. apply entered_typed in H. rewrite (proj2 (entered_typed _ _) (proj1 (proj2 ex_gui))) in H. apply Ok_inj in H. apply Some_inj in H. subst key. split; [reflexivity|exact ex_short_groups].
Qed.

Lemma ex_gui_texts : receipts_are_texts (load ex_dep).
Proof.
  assert (load ex_dep = ex_dep) as -> by (vm_compute; reflexivity).
  intros d js g jr Ed Eg Ig Er. injection Ed as <-. cbn in Eg. injection Eg as <-.
  destruct Ig as [Ig|[Ig|[Ig|[]]]]; injection Ig as <-; cbn in Er; apply Some_inj in Er; subst jr;
    [exists [ex_t1; ex_t2]|exists [ex_t3; ex_t4]|exists [ex_t5; ex_t6; ex_t7; ex_t8]]; reflexivity.
Qed.

(** Keys that are too short: verify.py reports them. Here a worker raises an exception
    that is not handled, and the button stays "Verifying...". *)
Definition ex_no_key : str := lit "=".
Definition ex_short_key : str := lit "AAAA".
Lemma stuck : exists w dep ks text1 key1 text2 key2 file tree,
  load_dep w file = Done (dep, tree) /\ receipts_are_texts (load file) /\ short_groups w dep
  /\ typed_key text1 (Some key1) /\ verify_button w 2 dep ks text1 = Lost InvalidKey
  /\ snd (verifyDEP w (load file) ks (Some key1) (new_cluster B_unique) None) = Some InvalidKey
  /\ typed_key text2 (Some key2) /\ verify_button w 2 dep ks text2 = Lost InvalidKey
  /\ snd (verifyDEP w (load file) ks (Some key2) (new_cluster B_unique) None) = Some InvalidKey.
Proof.
  exists toy_world, (fst ex_loaded), ex_ks, ex_no_key, [], ex_short_key, [0; 0; 0], ex_dep, (snd ex_loaded).
  split; [exact (proj1 ex_gui)|]. split; [exact ex_gui_texts|]. split; [exact ex_short_groups|].
  split; [apply entered_typed; vm_compute; reflexivity|]. split; [vm_compute; reflexivity|]. split; [vm_compute; reflexivity|].
  split; [apply entered_typed; vm_compute; reflexivity|]. split; vm_compute; reflexivity.
Qed.

(** Receipts that are no texts: there is no message. *)
Lemma load_lost : exists w file, load_dep w file = Lost PyAttributeError.
Proof. exists toy_world, ex_doc_numbers. vm_compute. reflexivity. Qed.

(** Receipts of a verified DEP cannot be viewed with Python 3. *)
Lemma view_lost : exists w file dep tree ks text, load_dep w file = Done (dep, tree) /\ dep <> []
  /\ verify_button w 2 dep ks text = Done tt
  /\ (forall g b, In g dep -> In b (g_recs g) -> view_dep_receipt w Py3 b = Lost PyTypeError)
  /\ exists g b rp, In g dep /\ In b (g_recs g) /\ view_dep_receipt w Py2 b = Done rp.
Proof.
  exists toy_world, ex_dep, (fst ex_loaded), (snd ex_loaded), ex_ks, ex_key_text.
  split; [exact (proj1 ex_gui)|]. split; [discriminate|]. split; [vm_compute; reflexivity|]. split; [reflexivity|].
  exists (nth 0 (fst ex_loaded) (DGroup [] None [])), (nth 0 (g_recs (nth 0 (fst ex_loaded) (DGroup [] None []))) []). eexists.
  split; [now left|]. split; [now left|]. vm_compute. reflexivity.
Qed.

(** A receipt by its URL: with its hash, without *)
Lemma ex_viewed : exists rp, view_receipt toy_world Py3 ex_online F_url ex_url = Some (Done rp)
  /\ verify_receipt_task toy_world ex_ks rp = Done tt /\ verify_text toy_world Py3 ex_online (VerifyReceipt.fromKeyStore ex_ks) F_url ex_url = Ok tt
  /\ exists e, view_receipt toy_world Py3 (fun _ => Ok ex_code) F_url (lit "http://x/") = Some (Displayed e).
Proof. eexists. split; [vm_compute; reflexivity|]. split; [vm_compute; reflexivity|]. split; [vm_compute; reflexivity|]. eexists. vm_compute. reflexivity. Qed.
Lemma ex_viewed_jws : encodable ex_t2 /\ (exists rp, view_receipt toy_world Py3 ex_offline F_jws ex_t2 = Some (Done rp) /\ verify_receipt_task toy_world ex_ks rp = Done tt
  /\ exists e, verify_receipt_task toy_world [] rp = Displayed e).
Proof.
  split; [apply ascii_text_encodes; vm_compute; reflexivity|]. eexists. split; [vm_compute; reflexivity|]. split; [vm_compute; reflexivity|]. eexists. vm_compute. reflexivity.
Qed.
(** Not every receipt with other characters: OCR text in Python 3, lone surrogates *)
Lemma view_receipt_lost : exists w s t, view_receipt w Py3 ex_offline F_jws s = Some (Lost PyUnicodeEncodeError)
  /\ view_receipt w Py2 ex_offline F_ocr t <> view_receipt w Py3 ex_offline F_ocr t.
Proof. exists toy_world, [55296; c_dot; c_dot], (nth 0 ex_ocrs []). split; [vm_compute; reflexivity|]. vm_compute. discriminate. Qed.

(** The key store *)
Definition ex_acts : list store_action :=
  [A_key (lit "U:ATU12345678-K1") (pem_text key_label [b64encode [8]] []); A_button ex_cert16; A_import ex_store; A_cert (ex_pem ex_cert22); A_delete (lit "5a"); A_import JNull].
Definition ex_acted_store : keystore := Eval vm_compute in store_acts toy_world [] ex_acts.
Lemma ex_acted : Forall (loaded_button toy_world) ex_acts /\ store_acts toy_world [] ex_acts = ex_acted_store /\ signless ex_acted_store
  /\ map fst ex_acted_store = [lit "U:ATU12345678-K1"; lit "16"].
Proof.
  split; [|split; [vm_compute; reflexivity|split; [|reflexivity]]].
  - unfold ex_acts. repeat (apply Forall_cons; [try exact I|]); [|apply Forall_nil]. exists (ex_pem ex_cert16). vm_compute. reflexivity.
  - assert (forall i c, getCert ex_acted_store i = Some c -> i = lit "16") as K.
    { intros i c H. unfold getCert in H. destruct (dict_get ex_acted_store i) as [kt|] eqn:G; [|discriminate H]. unfold ex_acted_store in G. cbn [dict_get] in G.
      match type of G with (if ?b then _ else _) = _ => destruct b end; [apply Some_inj in G; subst kt; discriminate H|].
      match type of G with (if ?b then _ else _) = _ => destruct b eqn:E end; [|discriminate G]. apply str_eqb_eq in E. now subst i. }
    intros i c H. rewrite (K i c H). vm_compute. intros X. discriminate X.
Qed.
Lemma ex_import : import_store toy_world [] ex_store = (ex_ks, Done tt) /\ import_store toy_world ex_ks JNull = (ex_ks, Lost KeyStoreError).
Proof. split; vm_compute; reflexivity. Qed.
