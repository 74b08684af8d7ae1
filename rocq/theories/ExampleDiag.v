(** DEPs with one fault each. *)
From Coq Require Import Lia.
From Verif Require Import PyBase World Codec Receipt Json Pem KeyStore VerifyReceipt State DepParser Verify SpecReceipt ListFacts ReceiptFacts SpecDep SpecCluster
  SpecState SpecChunks DepFacts AcceptFacts SeqFacts ParTheorems SpecDiag ExampleWorld ExampleReceipts ExampleDep.
Open Scope N_scope.

Definition ex_dep_of_texts1 (l : list str) : json := ex_dep_of [ex_group ex_cert_text [] l].
Definition ex_why (l : list str) : option exn := snd (ex_run (ex_dep_of_texts1 l) ex_start None).

(** The second receipt: with a wrong counter, dated before the first, of another
    register, signed with another key, with another serial, of another system *)
Definition ex_w_counter := Eval vm_compute in
  ex_signed (ex_rec (lit "2") (lit "2017-01-01T08:00:00") (lit "1,00") (ex_tc (lit "2") 101) ex_t1).
Definition ex_w_date := Eval vm_compute in
  ex_signed (ex_rec (lit "2") (lit "2017-01-01T07:59:59") (lit "1,00") (ex_tc (lit "2") 100) ex_t1).
Definition ex_w_register := Eval vm_compute in
  ex_signed (Fields (lit "AT1") (lit "REG-2") (lit "2") (lit "2017-01-01T08:00:00") (lit "1,00") (lit "0,00") (lit "0,00") (lit "0,00")
    (lit "0,00") (ex_tc (lit "2") 100) (lit "5a") (ex_chain_to ex_t1)).
Definition ex_w_signature := Eval vm_compute in
  let f := ex_rec (lit "2") (lit "2017-01-01T08:00:00") (lit "1,00") (ex_tc (lit "2") 100) ex_t1 in
  ex_input f ++ [c_dot] ++ b64url_nopad (toy_sign [9] (ex_input f)).
Definition ex_w_serial := Eval vm_compute in
  ex_signed (Fields (lit "AT1") (lit "REG-1") (lit "2") (lit "2017-01-01T08:00:00") (lit "1,00") (lit "0,00") (lit "0,00") (lit "0,00")
    (lit "0,00") (ex_tc (lit "2") 100) (lit "5b") (ex_chain_to ex_t1)).
Definition ex_w_start := Eval vm_compute in
  ex_signed (ex_rec (lit "1") (lit "2017-01-01T08:00:00") (lit "0,00") (ex_tc (lit "1") 0) (lit "REG-9")).

Example ex_faults :
  map ex_why
    [ [ex_t1; ex_w_counter; ex_t3]; [ex_t1; ex_w_date]; [ex_t1; ex_w_register]; [ex_t1; ex_w_signature]; [ex_t1; ex_w_serial];
      [ex_t1; ex_t2; ex_t2]; [ex_t1; ex_t2; ex_t4]; [ex_t1; ex_t2; ex_t3; ex_t4; ex_t6]; [ex_w_start; ex_t2]; [ex_t2]; [ex_t3]; [ex_t6];
      [ex_t1; lit "no receipt"]; [] ]
  = [ Some (InvalidTurnoverCounter (lit "2")); Some (DecreasingDate (lit "2")); Some (ChangingRegisterId (lit "2"));
      Some (InvalidSignature (lit "2")); Some (CertSerialMismatch (lit "2")); Some (DuplicateReceiptId (lit "2"));
      Some (ChainingError (lit "4")); Some (NoRestoreReceipt (lit "6")); Some (InvalidChainingOnInitial (lit "1"));
      Some (NonzeroTurnoverOnInitial (lit "2")); Some (SignatureSystemFailedOnInitial (lit "3")); Some (NonzeroTurnoverOnInitial (lit "6"));
      Some (MalformedReceipt (lit "no receipt")); Some MalformedDEP ].
Proof. vm_compute. reflexivity. Qed.

(** The hypotheses hold for the first of them. *)
Definition ex_wrong : json := ex_dep_of_texts1 [ex_t1; ex_w_counter; ex_t3].
Definition ex_gs_wrong : list group := [Group [ex_t1; ex_w_counter; ex_t3] (Some ex_cert) []].
Lemma ex_wrong_is : dep_is toy_world ex_wrong ex_gs_wrong.
Proof. eexists _, _. split; [reflexivity|]. split; [reflexivity|]. repeat constructor; apply ex_group_is. Qed.
Lemma ex_wrong_encodable : texts_encodable ex_ks ex_gs_wrong.
Proof. repeat constructor; eexists; vm_compute; reflexivity. Qed.
Lemma ex_wrong_rejected : exists c', verifyDEP toy_world ex_wrong ex_ks (Some ex_key) ex_start None = (c', Some (InvalidTurnoverCounter (lit "2"))).
Proof. exists (Cluster [new_register] (Unique [])). vm_compute. reflexivity. Qed.

(** Its first receipt is valid, the second is not. *)
Lemma ex_first_wrong : exists items,
  dep_texts ex_ks ex_gs_wrong = [(ex_t1, fromCert ex_cert)] ++ (ex_w_counter, fromCert ex_cert) :: [(ex_t3, fromCert ex_cert)]
  /\ Forall2 (text_item toy_world) [(ex_t1, fromCert ex_cert)] items
  /\ valid_sequence toy_world (Some ex_key) None new_register (Unique []) None items
  /\ forall r, reads toy_world ex_w_counter r ->
       ~ valid_sequence toy_world (Some ex_key) None new_register (Unique []) None (items ++ [Item ex_w_counter r (fromCert ex_cert)]).
Proof.
  assert (Forall (fun g : vgroup => proper (snd g)) [([ex_t1], fromCert ex_cert)] /\ Forall (fun g : vgroup => proper (snd g)) [([ex_t1; ex_w_counter], fromCert ex_cert)]) as [P1 P2].
  { split; (constructor; [left; now exists ex_cert|constructor]). }
  destruct (verifyGroupsWithVerifiers toy_world [([ex_t1], fromCert ex_cert)] (Some ex_key) None new_register (Unique [])) as [[reg' u']|e] eqn:E;
    [|exfalso; vm_compute in E; discriminate E].
  apply groups_spec in E as (p & items & Pp & F & V & R & ->); [|discriminate|exact P1].
  assert (p = None) as ->. { destruct p as [[s r]|]; [destruct Pp as [X _]; discriminate X|reflexivity]. }
  exists items. split; [reflexivity|].
  cbn [flat flat_map map fst snd app] in F. inversion F as [|x i y l' Fi Fl]; subst. inversion Fl; subst. clear F Fl.
  destruct Fi as (Ut & Rd & Ev). cbn [fst snd] in *.
  assert (utf8_decode ex_t1 = Ok ex_t1) as D by (vm_compute; reflexivity). rewrite D in Ut. apply Ok_inj in Ut.
  split. { constructor; [|constructor]. split; [symmetry; exact Ut|]. split; [cbn [fst]; rewrite <- Ut in Rd; exact Rd|exact Ev]. }
  split; [exact V|]. intros r2 R2 V2.
  assert (exists x, verifyGroupsWithVerifiers toy_world [([ex_t1; ex_w_counter], fromCert ex_cert)] (Some ex_key) None new_register (Unique []) = Ok x) as [x X].
  { eexists (_, _). apply groups_spec; [discriminate|exact P2|]. exists None, ([i] ++ [Item ex_w_counter r2 (fromCert ex_cert)]). split; [exact Pp|]. split.
    - cbn [flat flat_map map fst snd app]. constructor; [split; [cbn [fst]; rewrite D, Ut; reflexivity|split; [exact Rd|exact Ev]]|].
      constructor; [|constructor]. split; [vm_compute; reflexivity|]. split; [exact R2|reflexivity].
    - split; [exact V2|]. split; [|reflexivity]. apply (register_after_iff toy_world _ None _ (Unique [])); [exact V2|reflexivity]. }
  vm_compute in X. discriminate X.
Qed.

(** Groups whose certificates are not trusted: no entry in the key store, a chain whose
    signature is wrong, another certificate with the same serial; and groups of which
    one has no certificate *)
Definition ex_pem1 (c : cert) : str := exportCertToPEM toy_world c.
Example ex_group_faults :
  map (fun gs => snd (ex_run (ex_dep_of gs) ex_start None))
    [ [ex_group (ex_pem1 [1; 9; 7]) [] [ex_t1]]; [ex_group (ex_pem1 [1; 9; 6]) [ex_cert_text] [ex_t1]];
      [ex_group (ex_pem1 [90; 8; 7]) [] [ex_t1]]; [ex_group ex_cert_text [] [ex_t1]; ex_group [] [] [ex_t2]];
      [ex_group [] [] [ex_t1]; ex_group ex_cert_text [] [ex_t2]] ]
  = [ Some (UntrustedCertificate (lit "1")); Some (CertificateChainBroken (lit "1") (lit "5a"));
      Some (CertSerialCollision (lit "5a") (certFingerprint toy_world [90; 8; 7]) (certFingerprint toy_world ex_cert));
      Some NoCertificateGiven; Some NoCertificateGiven ].
Proof. vm_compute. reflexivity. Qed.

(** A wrong counter, followed by a receipt that is right: verified in parallel, the
    latter may be reported, since the counter it is compared to was taken from the
    former. *)
Definition ex_w_after := Eval vm_compute in
  ex_signed (ex_rec (lit "3") (lit "2017-01-01T08:00:01") (lit "0,50") (ex_tc (lit "3") 150) ex_w_counter).
Definition ex_w_dep : json := ex_dep_of_texts1 [ex_t1; ex_w_counter; ex_w_after].
Definition ex_w_pool (first : bool) : schedule := Schedule (Some 2%nat) 2 (fun _ => if first then 0%nat else 1%nat).
Lemma ex_w_reports :
  snd (verifyDEP toy_world ex_w_dep ex_ks (Some ex_key) ex_start None) = Some (InvalidTurnoverCounter (lit "2"))
  /\ (forall b, snd (verifyParsedDEP toy_world (ex_w_pool b) (parse_dict toy_world 1 ex_w_dep 2) ex_ks (Some ex_key) ex_start None)
        = Some (InvalidTurnoverCounter (lit (if b then "2" else "3")))).
Proof. split; [vm_compute; reflexivity|]. intros [|]; vm_compute; reflexivity. Qed.
Lemma ex_w_refuted : exists w dep n ks key c sch1 sch2 a b, hash_ok w /\ isolated sch1 /\ isolated sch2
  /\ usual_cluster c /\ (forall gs, dep_is w dep gs -> certs_or_one gs)
  /\ snd (verifyDEP w dep ks key c None) = Some (InvalidTurnoverCounter a)
  /\ snd (verifyParsedDEP w sch1 (parse_dict w 1 dep n) ks key c None) = Some (InvalidTurnoverCounter a)
  /\ snd (verifyParsedDEP w sch2 (parse_dict w 1 dep n) ks key c None) = Some (InvalidTurnoverCounter b)
  /\ a <> b.
Proof.
  exists toy_world, ex_w_dep, 2%nat, ex_ks, (Some ex_key), ex_start, (ex_w_pool true), (ex_w_pool false), (lit "2"), (lit "3").
  destruct ex_w_reports as [R1 R2].
  split; [exact toy_hash_ok|]. split; [vm_compute; intuition lia|]. split; [vm_compute; intuition lia|]. split; [apply new_usual|]. split.
  - intros gs G. assert (dep_is toy_world ex_w_dep [Group [ex_t1; ex_w_counter; ex_w_after] (Some ex_cert) []]) as G'
      by (eexists _, _; split; [reflexivity|]; split; [reflexivity|]; repeat constructor; apply ex_group_is).
    rewrite (dep_is_fun _ _ _ _ G G'). left. repeat constructor. discriminate.
  - split; [exact R1|]. split; [exact (R2 true)|]. split; [exact (R2 false)|]. discriminate.
Qed.
