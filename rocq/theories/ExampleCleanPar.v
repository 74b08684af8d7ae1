(** Exceptions of parallel verification in the toy world. *)
From Verif Require Import PyBase World Codec Receipt Json KeyStore State DepBase DepParser Verify Cli SpecDep SpecCluster SpecDoc SpecClean SpecChunks
  ExampleWorld ExampleReceipts ExampleDep ExampleClean ExamplePar ExampleInc.
Open Scope N_scope.

Lemma ex_rejected_par :
  sch_pool ex_pool2 <> Some 0%nat
  /\ snd (verifyParsedDEP toy_world ex_pool2 (parse_dict toy_world 2 ex_dep2 0) ex_ks (Some ex_key) ex_start None) = Some (InvalidChainingOnInitial (lit "5"))
  /\ snd (verifyParsedDEP toy_world ex_pool2 (parse_inc toy_world P_file ex_dep2 1) ex_ks (Some ex_key) ex_start None) = Some (InvalidChainingOnInitial (lit "5")).
Proof. split; [discriminate|]. split; vm_compute; reflexivity. Qed.

Lemma ex_mode : receipts_are_texts (load ex_dep2) /\ texts_encode ex_dep2 /\ state_encodes ex_start /\ c_used ex_start = Unique []
  /\ short_amounts toy_world ex_dep2
  /\ exists c', verify_mode toy_world (fun _ => 0%nat) (VerifyArgs false A_none 2 1) ex_dep2 ex_ks (Some ex_key) ex_start None
       = (c', Some (InvalidChainingOnInitial (lit "5"))).
Proof.
  assert (load ex_dep2 = ex_dep2) as L by (vm_compute; reflexivity).
  split; [rewrite L; apply ex_dep_of_texts|]. split; [apply ex_rejected|]. split; [exact ex_start_encodes|]. split; [reflexivity|]. split; [exact ex_short|].
  eexists. vm_compute. reflexivity.
Qed.

Lemma lacking_mode : exists w doc ks c, receipts_are_texts (load doc) /\ texts_encode doc /\ state_encodes c /\ c_used c = Unique []
  /\ snd (verify_mode w (fun _ => 0%nat) (VerifyArgs false A_none 1 0) doc ks None c None) = Some MissingDEPElement
  /\ snd (verify_mode w (fun _ => 0%nat) (VerifyArgs false A_none 1 1) doc ks None c None) = Some PyIndexError.
Proof.
  exists toy_world, ex_doc_lacking, ex_ks, ex_start. split.
  { intros d js g jr Ed Eg Ig Er. injection Ed as <-. cbn in Eg. injection Eg as <-. destruct Ig as [Ig|[]]. injection Ig as <-.
    exists [ex_t1]. cbn in Er. apply ListFacts.Some_inj in Er. now rewrite <- Er. }
  split.
  { intros s T. inversion T as [| |? ? ? ? I T1]; subst. destruct I as [I|[]]. injection I as <- <-.
    inversion T1 as [|? ? ? I2 T2|]; subst. destruct I2 as [<-|[]].
    inversion T2 as [| |? ? ? ? I3 T3]; subst. destruct I3 as [I3|[I3|[]]]; injection I3 as <- <-.
    - inversion T3 as [|? ? ? I4 T4|]; subst. destruct I4 as [<-|[]]. inversion T4; subst. apply ascii_text_encodes. vm_compute. reflexivity.
    - inversion T3 as [|? ? ? I4 T4|]; subst. destruct I4. }
  split; [exact ex_start_encodes|]. split; [reflexivity|]. split; vm_compute; reflexivity.
Qed.
