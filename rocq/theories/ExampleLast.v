(** Faults of last receipts, sequentially and in parallel. *)
From Coq Require Import Lia Floats.SpecFloat.
From Verif Require Import PyBase World Codec CodecFacts PyFloat PyTime Algo Receipt SpecReceipt ListFacts Json KeyStore State VerifyReceipt DepParser Verify DepExport
  SpecDep SpecCluster SpecState SpecChunks ParTheorems SpecAmount CashReg SpecCashReg CashRegFacts Override SpecOverride OverrideFacts OverrideCaught SpecDiag SeqFacts LastTheorems
  ExampleWorld ExampleDep ExampleDiag ExampleCashReg ExampleRemote ExampleOverride.
Open Scope N_scope.

(** Every receipt is a package of its own; two processes. *)
Definition ex_last_pool : schedule := Schedule (Some 2%nat) 4 (fun l => List.length l).
Lemma ex_last_isolated : isolated ex_last_pool.
Proof. vm_compute. intuition lia. Qed.

Definition ex_last_both (o : override) : option (option exn * option exn) :=
  match ex_over_text o with
  | Some t => let dep := ex_dep_of_texts1 (ex_over_texts ++ [t]) in
      Some (snd (verifyDEP toy_world dep ex_ks (Some ex_key) ex_start None),
            snd (verifyParsedDEP toy_world ex_last_pool (parse_dict toy_world 1 dep 1) ex_ks (Some ex_key) ex_start None))
  | None => None
  end.

Example ex_last_alike : map ex_last_both ex_overrides
  = map (fun e => Some (Some e, Some e)) [DuplicateReceiptId (lit "1"); ChangingRegisterId (lit "2"); ChangingSystemType (lit "2"); DecreasingDate (lit "2");
     ChainingError (lit "2"); InvalidTurnoverCounter (lit "2"); InvalidTurnoverCounter (lit "2"); InvalidSignature (lit "2"); CertSerialMismatch (lit "2")].
Proof. vm_compute. reflexivity. Qed.

(** A receipt with the ID of another and a wrong chaining value *)
Definition ex_two_faults : override :=
  Override None None (Some (lit "1")) None None None None None None None None (Some (b64encode (repeat 0 8))) None None None None None.
Definition ex_two_text : str := Eval vm_compute in match ex_over_text ex_two_faults with Some t => t | None => [] end.
Definition ex_two_dep : json := ex_dep_of_texts1 (ex_over_texts ++ [ex_two_text]).
Lemma ex_two_differ : snd (verifyDEP toy_world ex_two_dep ex_ks (Some ex_key) ex_start None) = Some (DuplicateReceiptId (lit "1"))
  /\ snd (verifyParsedDEP toy_world ex_last_pool (parse_dict toy_world 1 ex_two_dep 1) ex_ks (Some ex_key) ex_start None) = Some (ChainingError (lit "1")).
Proof. split; vm_compute; reflexivity. Qed.

(** A wrong counter in the last receipt; in parallel, whatever the pool and the chunk
    size *)
Definition ex_last_gs (ts : list str) : list group := [Group ts (Some ex_cert) []].
Lemma ex_last_is ts : dep_is toy_world (ex_dep_of_texts1 ts) (ex_last_gs ts).
Proof. eexists _, _. split; [reflexivity|]. split; [reflexivity|]. constructor; [apply ex_group_is|constructor]. Qed.
Lemma ex_last_trusted ts : trust_rule toy_world ex_ks (occupied (ex_last_gs ts)).
Proof.
  left. destruct ts as [|t ts]; [constructor|]. cbn. constructor; [|constructor]. exists ex_cert. split; [reflexivity|].
  exists [], ex_cert, []. split; [reflexivity|]. split; [exists ex_cert; split; reflexivity|].
  split; [|intros y k []]. intros [|? [|? ?]] a b l2 E; discriminate E.
Qed.

Lemma ex_last_hyps : let ts := [ex_t1; ex_w_counter] in
  dep_is toy_world (ex_dep_of_texts1 ts) (ex_last_gs ts) /\ texts_encodable ex_ks (ex_last_gs ts) /\ trust_rule toy_world ex_ks (occupied (ex_last_gs ts))
  /\ usual_cluster ex_start /\ selects ex_start None [] new_register [] /\ past_of toy_world new_register None /\ start_readable toy_world (start_of_last [])
  /\ dep_texts ex_ks (ex_last_gs ts) = [(ex_t1, fromCert ex_cert)] ++ [(ex_w_counter, fromCert ex_cert)]
  /\ exists items, Forall2 (text_item toy_world) [(ex_t1, fromCert ex_cert)] items
  /\ valid_sequence toy_world (Some ex_key) None new_register (Unique []) None items
  /\ forall r, reads toy_world ex_w_counter r ->
       ~ valid_sequence toy_world (Some ex_key) None new_register (Unique []) None (items ++ [Item ex_w_counter r (fromCert ex_cert)]).
Proof.
  cbn zeta. split; [apply ex_last_is|]. split; [repeat constructor; eexists; vm_compute; reflexivity|]. split; [apply ex_last_trusted|].
  split; [apply new_usual|]. split; [constructor; [now left|now left]|]. split; [left; reflexivity|]. split; [exists None; left; reflexivity|].
  split; [reflexivity|]. destruct ex_first_wrong as (items & _ & H). now exists items.
Qed.

(** The ID of another receipt *)
Lemma ex_last_injected sch nparts n : isolated sch ->
  exists c', verifyDEP toy_world (ex_dep_of_texts1 (ex_over_texts ++ [ex_dup_text])) ex_ks (Some ex_key) (new_cluster B_unique) None = (c', Some (DuplicateReceiptId (lit "1")))
    /\ verifyParsedDEP toy_world sch (parse_dict toy_world nparts (ex_dep_of_texts1 (ex_over_texts ++ [ex_dup_text])) n) ex_ks (Some ex_key) (new_cluster B_unique) None
        = (c', Some (DuplicateReceiptId (lit "1"))).
Proof.
  intros Iso. destruct (issue_over toy_world ex_over_g (lit "R1") (only_id (lit "1")) ex_q3) as [g' [r|]] eqn:Eo; [|exfalso; vm_compute in Eo; discriminate Eo].
  assert (toJWSString r (lit "R1") = Ok ex_dup_text) as J. { vm_compute in Eo. injection Eo as _ <-. vm_compute. reflexivity. }
  apply (injected_both toy_world sch ex_ks B_unique (Some ex_key) (lit "REG-1") ex_key 8 ex_g0 [(ex_q1, fromCert ex_cert)] ex_q3 (fromCert ex_cert) (only_id (lit "1"))
    ex_over_g ex_over_recs ex_over_texts g' r ex_dup_text (ex_dup_gs []) _ nparts n _ toy_hash_ok toy_aes_ok Iso).
  - split; [discriminate|]. split; [intros [X|[X|[X|[X|[X|[]]]]]]; discriminate X|]. exists (lit "REG-1"). reflexivity.
  - reflexivity.
  - reflexivity.
  - now right.
  - exact ex_over_orderly.
  - vm_compute. reflexivity.
  - vm_compute. reflexivity.
  - exact Eo.
  - exact J.
  - exact (proj1 ex_injected r).
  - apply ex_last_is.
  - unfold texts_encodable, dep_texts, ex_dup_gs. cbn [flat_map gr_texts gr_cert]. rewrite app_nil_r. apply Forall_map. cbn [fst].
    apply Forall_app. split; [constructor; [eexists; vm_compute; reflexivity|constructor]|]. constructor; [eexists; vm_compute; reflexivity|constructor].
  - apply ex_last_trusted.
  - reflexivity.
Qed.

Lemma ex_two_refuted : exists w sch dep n ks key c e e', hash_ok w /\ isolated sch /\ usual_cluster c
  /\ (forall gs, dep_is w dep gs -> certs_or_one gs)
  /\ snd (verifyDEP w dep ks key c None) = Some e
  /\ snd (verifyParsedDEP w sch (parse_dict w 1 dep n) ks key c None) = Some e' /\ e <> e'.
Proof.
  exists toy_world, ex_last_pool, ex_two_dep, 1%nat, ex_ks, (Some ex_key), ex_start, (DuplicateReceiptId (lit "1")), (ChainingError (lit "1")).
  split; [exact toy_hash_ok|]. split; [exact ex_last_isolated|]. split; [apply new_usual|]. split.
  - intros gs D. rewrite (dep_is_fun toy_world _ _ _ D (ex_last_is _)). left. constructor; [discriminate|constructor].
  - split; [exact (proj1 ex_two_differ)|]. split; [exact (proj2 ex_two_differ)|discriminate].
Qed.
