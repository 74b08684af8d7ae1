(** Concrete DEPs for the examples, in the toy world. *)
From Verif Require Import PyBase World Regex Codec Algo Receipt SpecReceipt DepBase Json Pem KeyStore VerifyReceipt State
  DepParser Verify ReceiptFacts SpecDep SpecCluster ExampleWorld ExampleReceipts.
Open Scope N_scope.
Open Scope py_scope.

(** The AES key, the private key, the certificate (serial 0x5a, self-signed), and
    a key store that contains it. *)
Definition ex_key : bytes := repeat 5 32.
Definition ex_priv : bytes := [7].
Definition ex_cert : cert := [90; 7; 7].
Definition ex_ks : keystore := [(lit "5a", KeyTuple [7] (Some ex_cert)); (lit "U:ATU12345678-K1", KeyTuple [8] None)].

Definition ex_tc (id : str) (c : Z) : str :=
  match r1_encrypt toy_world (lit "REG-1") id c ex_key 8 with Ok b => b64encode b | Err _ => [] end.
Definition ex_chain_to (prev : str) : str := b64encode (firstn 8 (toy_hash prev)).

(** A receipt of register REG-1 with one amount. *)
Definition ex_rec (id time a tc prev : str) : fields :=
  Fields (lit "AT1") (lit "REG-1") id time a (lit "0,00") (lit "0,00") (lit "0,00") (lit "0,00") tc (lit "5a")
    (ex_chain_to prev).

Definition ex_input (f : fields) : bytes :=
  match utf8_encode (payload_text f) with
  | Ok p => b64url_nopad es256_header ++ [c_dot] ++ b64url_nopad p
  | Err _ => []
  end.
Definition ex_signed (f : fields) : str := ex_input f ++ [c_dot] ++ b64url_nopad (toy_sign ex_priv (ex_input f)).
Definition ex_unsigned (f : fields) : str := ex_input f ++ [c_dot] ++ marker.

(** Start receipt, sale, sale during an outage of the signature device, sale after
    it, restore receipt, cancellation, training, sale *)
Definition ex_t1 := Eval vm_compute in
  ex_signed (ex_rec (lit "1") (lit "2017-01-01T08:00:00") (lit "0,00") (ex_tc (lit "1") 0) (lit "REG-1")).
Definition ex_t2 := Eval vm_compute in
  ex_signed (ex_rec (lit "2") (lit "2017-01-01T08:00:00") (lit "1,00") (ex_tc (lit "2") 100) ex_t1).
Definition ex_t3 := Eval vm_compute in
  ex_unsigned (ex_rec (lit "3") (lit "2017-01-01T08:00:01") (lit "0,50") (ex_tc (lit "3") 150) ex_t2).
Definition ex_t4 := Eval vm_compute in
  ex_signed (ex_rec (lit "4") (lit "2017-01-01T08:01:00") (lit "2,00") (ex_tc (lit "4") 350) ex_t3).
Definition ex_t5 := Eval vm_compute in
  ex_signed (ex_rec (lit "5") (lit "2017-01-01T09:00:00") (lit "0,00") (ex_tc (lit "5") 350) ex_t4).
Definition ex_t6 := Eval vm_compute in
  ex_signed (ex_rec (lit "6") (lit "2017-01-02T09:00:00") (lit "-1,00") (lit "U1RP") ex_t5).
Definition ex_t7 := Eval vm_compute in
  ex_signed (ex_rec (lit "7") (lit "2017-02-02T09:00:00") (lit "5,00") (lit "VFJB") ex_t6).
Definition ex_t8 := Eval vm_compute in
  ex_signed (ex_rec (lit "8") (lit "2018-02-02T09:00:00") (lit "0,10") (ex_tc (lit "8") 260) ex_t7).

Definition ex_group (cert : str) (chain l : list str) : json :=
  JDict [(k_cert, JStr cert); (k_certs, JList (map JStr chain)); (k_recs, JList (map JStr l))].
Definition ex_dep_of (gs : list json) : json := JDict [(k_bg, JList gs)].

Definition ex_cert_text : str := Eval vm_compute in exportCertToPEM toy_world ex_cert.
Definition ex_dep1 : json := ex_dep_of [ex_group ex_cert_text [] [ex_t1; ex_t2]; ex_group ex_cert_text [] [ex_t3; ex_t4]].
Definition ex_dep2 : json := ex_dep_of [ex_group ex_cert_text [] [ex_t5; ex_t6; ex_t7; ex_t8]].
Definition ex_dep : json :=
  ex_dep_of [ex_group ex_cert_text [] [ex_t1; ex_t2]; ex_group ex_cert_text [] [ex_t3; ex_t4];
             ex_group ex_cert_text [] [ex_t5; ex_t6; ex_t7; ex_t8]].

Definition ex_start : cluster := new_cluster B_unique.
Definition ex_run (d : json) (c : cluster) (idx : option Z) : cluster * option exn :=
  verifyDEP toy_world d ex_ks (Some ex_key) c idx.
Definition ex_mid : cluster := Eval vm_compute in fst (ex_run ex_dep1 ex_start None).
Definition ex_end : cluster := Eval vm_compute in fst (ex_run ex_dep ex_start None).

Lemma ex_accepted : verifyDEP toy_world ex_dep ex_ks (Some ex_key) ex_start None = (ex_end, None).
Proof. vm_compute. reflexivity. Qed.
Lemma ex_part1 : verifyDEP toy_world ex_dep1 ex_ks (Some ex_key) ex_start None = (ex_mid, None).
Proof. vm_compute. reflexivity. Qed.
Lemma ex_part2 : verifyDEP toy_world ex_dep2 ex_ks (Some ex_key) ex_mid (Some 0%Z) = (ex_end, None).
Proof. vm_compute. reflexivity. Qed.

(** Both parts are the whole, cut before the fifth receipt; the whole again in one
    group, with the sorted backend. *)
Definition ex_gs1 : list group := [Group [ex_t1; ex_t2] (Some ex_cert) []; Group [ex_t3; ex_t4] (Some ex_cert) []].
Definition ex_gs2 : list group := [Group [ex_t5; ex_t6; ex_t7; ex_t8] (Some ex_cert) []].

Lemma ex_group_is l : group_is toy_world (ex_group ex_cert_text [] l) (Group l (Some ex_cert) []).
Proof.
  eexists _, (JList (map JStr l)), ex_cert_text, []. split; [reflexivity|]. split; [reflexivity|]. split; [now left|].
  split; [reflexivity|]. split; [|split; [reflexivity|constructor]].
  right. split; [discriminate|]. exists ex_cert. split; [vm_compute; reflexivity|reflexivity].
Qed.
Lemma ex_dep1_is : dep_is toy_world ex_dep1 ex_gs1.
Proof. eexists _, _. split; [reflexivity|]. split; [reflexivity|]. repeat constructor; apply ex_group_is. Qed.
Lemma ex_dep2_is : dep_is toy_world ex_dep2 ex_gs2.
Proof. eexists _, _. split; [reflexivity|]. split; [reflexivity|]. repeat constructor; apply ex_group_is. Qed.
Lemma ex_dep_is : dep_is toy_world ex_dep (ex_gs1 ++ ex_gs2).
Proof. eexists _, _. split; [reflexivity|]. split; [reflexivity|]. repeat constructor; apply ex_group_is. Qed.
Lemma ex_cut : cut (ex_gs1 ++ ex_gs2) (ex_gs1 ++ [Group [] (Some ex_cert) []]) ex_gs2.
Proof.
  exists ex_gs1, [], [ex_t5; ex_t6; ex_t7; ex_t8], (Some ex_cert), [], [].
  split; [reflexivity|]. split; [reflexivity|]. split; [reflexivity|]. left. repeat constructor; discriminate.
Qed.

Definition ex_dep1e : json :=
  ex_dep_of [ex_group ex_cert_text [] [ex_t1; ex_t2]; ex_group ex_cert_text [] [ex_t3; ex_t4]; ex_group ex_cert_text [] []].
Lemma ex_dep1e_is : dep_is toy_world ex_dep1e (ex_gs1 ++ [Group [] (Some ex_cert) []]).
Proof. eexists _, _. split; [reflexivity|]. split; [reflexivity|]. repeat constructor; apply ex_group_is. Qed.

(** A cut within a group *)
Definition ex_dep12 : json := ex_dep_of [ex_group ex_cert_text [] [ex_t1; ex_t2; ex_t3; ex_t4; ex_t5; ex_t6; ex_t7; ex_t8]].
Definition ex_dep12a : json := ex_dep_of [ex_group ex_cert_text [] [ex_t1; ex_t2; ex_t3]].
Definition ex_dep12b : json := ex_dep_of [ex_group ex_cert_text [] [ex_t4; ex_t5; ex_t6; ex_t7; ex_t8]].

Definition ex_natural : cluster := new_cluster B_natural.
Definition ex_end_natural : cluster := Eval vm_compute in fst (ex_run ex_dep12 ex_natural None).
Lemma ex_accepted_natural : verifyDEP toy_world ex_dep12 ex_ks (Some ex_key) ex_natural None = (ex_end_natural, None).
Proof. vm_compute. reflexivity. Qed.
Lemma ex_accepted12 : verifyDEP toy_world ex_dep12 ex_ks (Some ex_key) ex_start None = (ex_end, None).
Proof. vm_compute. reflexivity. Qed.

(** Out of order: receipt 8 cannot follow receipt 4, where a restore receipt is due. *)
Definition ex_bad : json := ex_dep_of [ex_group ex_cert_text [] [ex_t1; ex_t2; ex_t3; ex_t4; ex_t8]].
Definition ex_bad1 : json := ex_dep_of [ex_group ex_cert_text [] [ex_t1; ex_t2; ex_t3; ex_t4]].
Definition ex_bad2 : json := ex_dep_of [ex_group ex_cert_text [] [ex_t8]].

(** ** A cluster of two registers in a closed system, without certificates *)
Definition ex_closed (id time a tc prev : str) : fields :=
  Fields (lit "AT0") (lit "REG-1") id time a (lit "0,00") (lit "0,00") (lit "0,00") (lit "0,00") tc
    (lit "U:ATU12345678-K1") (ex_chain_to prev).
Definition ex_signed_closed (f : fields) : str := ex_input f ++ [c_dot] ++ b64url_nopad (toy_sign [8] (ex_input f)).
Definition ex_c1 := Eval vm_compute in
  ex_signed_closed (ex_closed (lit "A1") (lit "2017-01-01T08:00:00") (lit "0,00") (ex_tc (lit "A1") 0) (lit "REG-1")).
Definition ex_c2 := Eval vm_compute in
  ex_signed_closed (ex_closed (lit "A2") (lit "2017-01-01T08:00:01") (lit "3,00") (ex_tc (lit "A2") 300) ex_c1).
Definition ex_d1 := Eval vm_compute in
  ex_signed_closed (ex_closed (lit "B1") (lit "2017-01-01T08:00:00") (lit "0,00") (ex_tc (lit "B1") 0) ex_c1).
Definition ex_d2 := Eval vm_compute in
  ex_signed_closed (ex_closed (lit "B2") (lit "2017-01-01T08:00:30") (lit "9,99") (ex_tc (lit "B2") 999) ex_d1).
Definition ex_depc : json := ex_dep_of [ex_group [] [] [ex_c1; ex_c2]].
Definition ex_depd : json := ex_dep_of [ex_group [] [] [ex_d1; ex_d2]].
Definition ex_cluster1 : cluster := Eval vm_compute in fst (ex_run ex_depc ex_start None).
Definition ex_cluster2 : cluster := Eval vm_compute in fst (ex_run ex_depd ex_cluster1 None).
Lemma ex_accepted_c : verifyDEP toy_world ex_depc ex_ks (Some ex_key) ex_start None = (ex_cluster1, None).
Proof. vm_compute. reflexivity. Qed.
Lemma ex_accepted_d : verifyDEP toy_world ex_depd ex_ks (Some ex_key) ex_cluster1 None = (ex_cluster2, None).
Proof. vm_compute. reflexivity. Qed.

(** ** Verification from the second receipt on *)
Definition ex_t2_receipt : receipt := Eval vm_compute in
  match fromJWSString toy_world ex_t2 with Ok p => fst p | Err _ => ex_receipt end.
Definition ex_middle : cluster := Eval vm_compute in
  match fromArbitraryReceipt toy_world ex_t2_receipt (lit "R1") (Some ex_key) B_unique with Ok c => c | Err _ => ex_start end.
Definition ex_middle_reg : regstate := Eval vm_compute in hd new_register (c_regs ex_middle).
Definition ex_middle_after : regstate * used := Eval vm_compute in
  match verifyGroup toy_world [ex_t2; ex_t3] (fromCert ex_cert) (Some ex_key) None ex_middle_reg (Unique []) with
  | Ok x => x | Err _ => (new_register, Unique [])
  end.
