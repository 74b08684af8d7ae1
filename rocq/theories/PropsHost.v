(** C69: the receipt host. *)
From Coq Require Import Lia.
From Verif Require Import PyBase World Codec Receipt Json KeyStore VerifyReceipt DepParser Verify SpecReceipt ReceiptFacts SpecDep SpecCluster SpecDoc SpecExport SpecConvert Url SpecUrl Host SpecHost HostFacts
  VerifyFacts ExampleWorld ExampleDep ExampleInc ExampleExport ExampleConvert ExampleKeys.
Open Scope N_scope.

(** ** C69 The receipt host serves the receipts of a DEP *)

(** A readable DEP: under each hash the newest receipt with it *)
Theorem C69_dep w n doc gs : plain_names doc -> dep_doc w doc gs -> all_texts gs <> [] -> texts_read w gs ->
  exists store, host_dep w n doc = Ok store /\ answers w (all_texts gs) store.
Proof. exact (dep_hosted w n doc gs). Qed.
Print Assumptions C69_dep.

(** In particular every accepted DEP *)
Theorem C69_accepted w ks key doc gs c idx c' n : hash_ok w -> plain_names doc -> dep_doc w doc gs -> verifyDEP w (load doc) ks key c idx = (c', None) ->
  exists store, host_dep w n doc = Ok store /\ answers w (all_texts gs) store.
Proof. exact (accepted_hosted w ks key doc gs c idx c' n). Qed.
Print Assumptions C69_accepted.

(** It does not start with others. *)
Theorem C69_started w n doc store : plain_names doc -> host_dep w n doc = Ok store -> exists gs, dep_doc w doc gs /\ texts_read w gs.
Proof. exact (host_started w n doc store). Qed.
Print Assumptions C69_started.

(** The same with receipts in lines *)
Theorem C69_lines w lines store : host_receipts w [] lines = Ok store -> answers w (map (strip (char_isspace w)) lines) store.
Proof. exact (lines_hosted w lines store). Qed.
Print Assumptions C69_lines.
Theorem C69_lines_started w lines : (exists store, host_receipts w [] lines = Ok store) <->
  Forall (fun l => exists r, reads w (strip (char_isspace w) l) r) lines.
Proof. exact (lines_started w lines). Qed.
Print Assumptions C69_lines_started.

(** Clients that fetch a receipt by its hash come to the verdict of the receipt itself. *)
Theorem C69_client w texts store t r code h v base c fetch : hash_ok w -> answers w texts store -> hashes_apart w texts -> In t texts ->
  reads w t r -> signature_plain r -> has_code w t code -> code_hash w code h ->
  ~ In c_hash (base ++ [c]) -> ~ url_safe c -> fetch (base ++ c :: h) = getBasicCode (get_url_hash store h) ->
  getAndVerifyReceiptURL w v fetch (base ++ c :: h) = match verifyJWS w v t with Ok _ => Ok tt | Err e => Err e end.
Proof. exact (client_verdict w texts store t r code h v base c fetch). Qed.
Print Assumptions C69_client.

Definition ex_hosted : list (str * str) := Eval vm_compute in match host_dep toy_world 2 ex_dep with Ok l => l | Err _ => [] end.
Example C69_example : plain_names ex_dep /\ dep_doc toy_world ex_dep (ex_gs1 ++ ex_gs2) /\ all_texts (ex_gs1 ++ ex_gs2) = ex_texts /\ texts_read toy_world (ex_gs1 ++ ex_gs2)
  /\ host_dep toy_world 2 ex_dep = Ok ex_hosted /\ List.length ex_hosted = 8%nat
  /\ get_url_hash ex_hosted ex_hash = Response 200 (JDict [(lit "code", JStr ex_code)])
  /\ get_url_hash ex_hosted (lit "AAAAAAAAAAA") = Response 404 (JDict [(lit "error", JStr (lit "Not found"))]).
Proof.
  split; [apply plainb_ok; vm_compute; reflexivity|]. split; [exact ex_dep_doc|]. split; [reflexivity|].
  split; [apply read_texts; eapply Forall_impl; [|exact ex_tabular]; intros t (_ & r & R & _); exists (r, lit "R1"); now apply parse_reads|].
  repeat (split; [vm_compute; reflexivity|]). vm_compute. reflexivity.
Qed.

(** A receipt of it, which a client finds valid, and one that was not signed *)
Example C69_client_example : hash_ok toy_world /\ answers toy_world ex_texts ex_hosted /\ hashes_apart toy_world ex_texts
  /\ In ex_t2 ex_texts /\ reads toy_world ex_t2 ex_t2_receipt /\ signature_plain ex_t2_receipt
  /\ has_code toy_world ex_t2 ex_code /\ code_hash toy_world ex_code ex_hash
  /\ ~ In c_hash (lit "https://example.org" ++ [47]) /\ ~ url_safe 47
  /\ verifyJWS toy_world (fromCert ex_cert) ex_t2 = Ok (ex_t2_receipt, lit "R1")
  /\ exists e, verifyJWS toy_world (fromCert ex_cert) ex_t3 = Err (SignatureSystemFailed e).
Proof.
  split; [exact toy_hash_ok|].
  split; [apply texts_answers; vm_compute; reflexivity|].
  split; [apply apart_nodup; vm_compute; repeat (constructor; [intros X; repeat (destruct X as [X|X]; [discriminate X|]); destruct X|]); constructor|].
  split; [right; now left|].
  assert (fromJWSString toy_world ex_t2 = Ok (ex_t2_receipt, lit "R1")) as J by (vm_compute; reflexivity).
  assert (reads toy_world ex_t2 ex_t2_receipt) as R by (now apply parse_reads in J).
  split; [exact R|]. split; [|split; [|split; [|split; [|split; [|split]]]]].
  - destruct (r_sig ex_t2_receipt) as [[h sg]|] eqn:E; [|discriminate E]. exists sg. vm_compute in E. injection E as <- <-. split; [reflexivity|]. left.
    apply canonb_ok. vm_compute. reflexivity.
  - exists ex_t2_receipt. split; [exact R|]. vm_compute. reflexivity.
  - exists ex_code. split; vm_compute; reflexivity.
  - intros X. vm_compute in X. repeat (destruct X as [X|X]; [discriminate X|]). exact X.
  - unfold url_safe. lia.
  - vm_compute. reflexivity.
  - eexists. vm_compute. reflexivity.
Qed.
