(** Key store files, INI files, and certificates extracted from DEPs. *)
From Coq Require Import Lia.
From Verif Require Import PyBase ListFacts World Codec Json Pem KeyStore DepParser DepExport KeyStoreCli SpecKeys SpecStore SpecCluster SpecChunks SpecDoc SpecKeyStoreCli
  AcceptFacts KeyFacts KeyStoreCliFacts IniFacts ExampleWorld ExampleReceipts ExampleDep ExampleInc ExampleExport ExampleKeys.
Open Scope N_scope.

(** ** A file with a certificate, a public key, and an AES key *)
Definition ex_kid : str := lit "U:ATU12345678-K1".
Definition ex_kfile : json := Eval vm_compute in written_store toy_world (store_run toy_world ex_ops) (Some ex_key).
Definition ex_kstore : keystore := Eval vm_compute in store_run toy_world ex_ops.
Lemma ex_kopens : opens toy_world ex_kfile ex_kstore (Some ex_key).
Proof. split; vm_compute; reflexivity. Qed.
Lemma ex_ksignless : signless ex_kstore.
Proof.
  intros i c H X. unfold getCert in H. destruct (dict_get ex_kstore i) as [kt|] eqn:G; [|discriminate]. unfold ex_kstore in G. cbn [dict_get] in G.
  destruct (str_eqb [49; 48] i) eqn:E1.
  - apply str_eqb_eq in E1. subst i. vm_compute in X. discriminate X.
  - match type of G with (if ?b then _ else _) = _ => destruct b end; [|discriminate]. apply Some_inj in G. subst kt. discriminate H.
Qed.

Definition ex_kadded : json := Eval vm_compute in
  match key_store_py toy_world (K_addCert (ex_pem ex_cert22)) ex_kfile with Ok (Some f, _) => f | _ => JNull end.
Lemma ex_kadd : key_store_py toy_world (K_addCert (ex_pem ex_cert22)) ex_kfile = Ok (Some ex_kadded, [])
  /\ key_store_py toy_world K_list ex_kadded = Ok (None, lit "10" ++ [c_nl] ++ ex_kid ++ [c_nl] ++ lit "16" ++ [c_nl])
  /\ valid_command toy_world (K_setKey (lit " BQU= " ++ [c_nl])).
Proof.
  split; [vm_compute; reflexivity|]. split; [vm_compute; reflexivity|]. exists (lit "BQU="), (lit "BQU="). split.
  - exists (lit " BQU= "), [c_nl]. split; [vm_compute; reflexivity|]. split; [cbn; intuition discriminate|]. split; [right; now exists []|]. vm_compute. reflexivity.
  - split; [vm_compute; reflexivity|]. exists [5; 5]. vm_compute. reflexivity.
Qed.

(** A certificate under an ID with two minus signs *)
Definition ex_kminus : json := JDict [(k_map, JDict [(lit "--5", JDict [(k_id, JStr (lit "--5")); (k_type, JStr v_cert_type); (k_pem, JStr ex_cert_text)])])].
Lemma ex_kmoves : exists w file ks key r ks' key' i, pem_ok w /\ opens w file ks key /\ key_store_py w K_delKey file = Ok r
  /\ opens w (file_after file r) ks' key' /\ found_at ks i <> (None, None) /\ found_at ks' i = (None, None).
Proof.
  exists toy_world, ex_kminus, [(lit "-5", KeyTuple [7] (Some ex_cert))], None.
  exists (Some (written_store toy_world [(lit "-5", KeyTuple [7] (Some ex_cert))] None), []), [(lit "5", KeyTuple [7] (Some ex_cert))], None, (lit "-5").
  split; [exact toy_pem_ok|]. split; [split; vm_compute; reflexivity|]. split; [vm_compute; reflexivity|]. split; [split; vm_compute; reflexivity|].
  split; [discriminate|reflexivity].
Qed.

(** ** INI files *)
Lemma ex_kid_ini : ini_id toy_world ex_kid.
Proof.
  split; [discriminate|]. split; [intros c [H|H]; injection H as <-; reflexivity|]. do 3 (split; [cbn; intuition discriminate|]).
  split; [intros p q H; destruct p as [|x p]; [discriminate|]; injection H as <- H; destruct p as [|y p]; [exists [], 85; split; [reflexivity|cbn; auto]|];
    exfalso; injection H as _ H; assert (~ In c_colon (lit "ATU12345678-K1")) as X by (cbn; intuition discriminate); apply X;
    rewrite (H : lit "ATU12345678-K1" = _); apply in_or_app; right; now left|].
  do 3 (split; [intros (p & q & H); assert (~ In c_semi ex_kid) as X by (cbn; intuition discriminate); apply X; rewrite H; apply in_or_app; right; right; now left|]).
  intros c H. injection H as <-. cbn. intuition discriminate.
Qed.
Lemma ex_kini_ids i k : found_at ex_kstore i = (Some k, None) -> ini_id toy_world i.
Proof.
  intros H. unfold found_at, getKey, getCert, ex_kstore in H. cbn [dict_get] in H. destruct (str_eqb [49; 48] i); [discriminate H|].
  match type of H with context [str_eqb ?a i] => destruct (str_eqb a i) eqn:E end; [|discriminate H]. apply str_eqb_eq in E. subst i. exact ex_kid_ini.
Qed.
Lemma ex_kini : match key_store_py toy_world K_toIni ex_kfile with Ok (None, text) => key_store_py toy_world (K_fromIni text) JNull | _ => Err PyException end
  = Ok (Some (written_store toy_world ex_kstore None), []).
Proof. vm_compute. reflexivity. Qed.

(** IDs that are lost *)
Definition ex_kbad (i : str) : json := written_store toy_world [(i, KeyTuple [8] None)] None.
Definition ex_kback (i : str) : result (option json * str) :=
  match key_store_py toy_world K_toIni (ex_kbad i) with Ok (_, text) => key_store_py toy_world (K_fromIni text) JNull | Err x => Err x end.
Lemma ex_kids : ex_kback (lit "s;1") = Ok (Some (ex_kbad (lit "S:1")), [])
  /\ ex_kback (lit "#x") = Ok (Some (written_store toy_world [] None), []).
Proof. split; vm_compute; reflexivity. Qed.

(** ** Certificates of DEPs *)
Definition ex_crt (c : cert) : str := Eval vm_compute in addPEMCertHeaders (exportCertToPEM toy_world c).

Lemma ex_late_group texts a b ta tb : cert_text toy_world ta a -> cert_text toy_world tb b -> tb <> [] ->
  group_doc toy_world (JDict [(k_recs, JList (map JStr texts)); (k_certs, JList [JStr ta]); (k_cert, JStr tb)]) (Group texts (Some b) [a]).
Proof.
  intros A B N. eexists _, tb, [ta]. split; [reflexivity|]. split; [once_at 0%nat|]. split; [once_at 2%nat|].
  split; [right; split; [exact N|]; now exists b|]. split; [once_at 1%nat|]. constructor; [exact A|constructor].
Qed.
Lemma ex_ca_ok : cert_text toy_world ex_ca_text ex_ca.
Proof. vm_compute. reflexivity. Qed.
Lemma ex_leaf_ok : cert_text toy_world ex_leaf_text ex_leaf.
Proof. vm_compute. reflexivity. Qed.

(** Receipts before certificates *)
Definition ex_late : json := ex_dep_of [JDict [(k_recs, JList (map JStr [ex_t1; ex_t2])); (k_certs, JList [JStr ex_ca_text]); (k_cert, JStr ex_leaf_text)]].
Definition ex_late_gs : list group := [Group [ex_t1; ex_t2] (Some ex_leaf) [ex_ca]].
Definition ex_late_dgs : list dgroup := [DGroup [ex_t1; ex_t2] (Some ex_leaf) [ex_ca]].
Lemma ex_late_is : dep_doc toy_world ex_late ex_late_gs /\ plain_names ex_late /\ Forall2 encoded ex_late_gs ex_late_dgs.
Proof.
  split; [|split].
  - eexists _, _. split; [reflexivity|]. split; [once_at 0%nat|]. constructor; [|constructor]. apply (ex_late_group [ex_t1; ex_t2]); [exact ex_ca_ok|exact ex_leaf_ok|discriminate].
  - apply plainb_ok. vm_compute. reflexivity.
  - constructor; [|constructor]. split; [|split; reflexivity]. cbn [gr_texts g_recs]. repeat (apply Forall2_cons; [vm_compute; reflexivity|]); constructor.
Qed.
Definition ex_late_dir : list (str * str) := [(lit "5b.crt", ex_crt ex_ca); (lit "5a.crt", ex_crt ex_leaf)].
Lemma ex_late_runs : cert_extract toy_world 3 ex_late [] = (ex_late_dir, None) /\ cert_extract toy_world 2 ex_late [] = ([], None)
  /\ cert_extract toy_world 1 ex_late [] = ([], None).
Proof. split; [vm_compute; reflexivity|]. split; vm_compute; reflexivity. Qed.

(** The same serial number twice *)
Definition ex_same : json := ex_dep_of [JDict [(k_recs, JList (map JStr [ex_t1])); (k_certs, JList [JStr ex_cert_text]); (k_cert, JStr ex_leaf_text)]].
Lemma ex_same_is : dep_doc toy_world ex_same [Group [ex_t1] (Some ex_leaf) [ex_cert]].
Proof.
  eexists _, _. split; [reflexivity|]. split; [once_at 0%nat|]. constructor; [|constructor]. apply (ex_late_group [ex_t1]); [exact ex_cert_ok|exact ex_leaf_ok|discriminate].
Qed.

(** A group without receipts *)
Definition ex_hollow : json :=
  ex_dep_of [ex_group ex_cert_text [] [ex_t1]; JDict [(k_recs, JList (map JStr [])); (k_certs, JList [JStr ex_ca_text]); (k_cert, JStr ex_ca_text)]].
Lemma ex_hollow_is : dep_doc toy_world ex_hollow [Group [ex_t1] (Some ex_cert) []; Group [] (Some ex_ca) [ex_ca]].
Proof.
  eexists _, _. split; [reflexivity|]. split; [once_at 0%nat|]. constructor; [apply ex_group_doc|]. constructor; [|constructor].
  apply (ex_late_group []); [exact ex_ca_ok|exact ex_ca_ok|discriminate].
Qed.

(** A colon in an ID is taken for the end of the option's name. *)
Lemma colon_lost : exists w file text ks i, pem_ok w /\ opens w file ks None /\ key_store_py w K_toIni file = Ok (None, text) /\ found_at ks i <> (None, None)
  /\ forall file' ks', key_store_py w (K_fromIni text) file = Ok (Some file', []) -> opens w file' ks' None -> found_at ks' i = (None, None).
Proof.
  exists toy_world, (ex_kbad (lit "a:b")). eexists. exists [(lit "a:b", KeyTuple [8] None)], (lit "a:b").
  split; [exact toy_pem_ok|]. split; [split; vm_compute; reflexivity|]. split; [vm_compute; reflexivity|]. split; [discriminate|].
  intros file' ks' H [O _]. vm_compute in H. apply Ok_inj in H. injection H as <-. vm_compute in O. apply Ok_inj in O. now subst ks'.
Qed.
