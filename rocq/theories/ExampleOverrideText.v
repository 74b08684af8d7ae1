(** Texts replaced in tests. *)
From Coq Require Import Lia Floats.SpecFloat.
From Verif Require Import PyBase World Codec CodecFacts PyFloat PyTime Algo Receipt SpecReceipt ReceiptFacts ListFacts Json Pem KeyStore State VerifyReceipt DepParser Verify DepExport
  SpecDep SpecCluster SpecKeys SeqFacts SpecReading ReadingFacts CashReg SpecCashReg Override SpecOverride OverrideText SpecOverrideText OverrideTextFacts
  ExampleWorld ExampleDep ExampleDiag ExampleCashReg ExampleRemote ExampleRunTest ExampleOverride.
Open Scope N_scope.

(** A regular receipt, one with a text of two segments, and another regular one *)
Definition ex_bad_text : str := lit "a.b".
Definition ex_bad_run := Eval vm_compute in
  issue_texts toy_world ex_g0 [regular ex_q1; (ex_q3, no_override, Some ex_bad_text); regular ex_q4].
Definition ex_bad_recs := Eval vm_compute in match snd ex_bad_run with Ok l => l | Err _ => [] end.
Definition ex_bad_dep : json := Eval vm_compute in
  match export_mangled toy_world [RGroup ex_bad_recs (Some ex_cert) []] with Ok d => d | Err _ => JNull end.
Definition ex_bad_texts : list str := Eval vm_compute in
  match mapM (fun r : mangled * str => mangled_text (fst r) (snd r)) ex_bad_recs with Ok l => l | Err _ => [] end.
Lemma ex_bad_issued : issue_texts toy_world ex_g0 [regular ex_q1; (ex_q3, no_override, Some ex_bad_text); regular ex_q4] = (fst ex_bad_run, Ok ex_bad_recs).
Proof. vm_compute. reflexivity. Qed.
Lemma ex_bad_exported : export_mangled toy_world [RGroup ex_bad_recs (Some ex_cert) []] = Ok ex_bad_dep.
Proof. vm_compute. reflexivity. Qed.
Lemma ex_bad_fault : text_fault toy_world ex_bad_text (MalformedReceipt ex_bad_text).
Proof. apply jws_diagnosis; [eexists; vm_compute; reflexivity|vm_compute; reflexivity]. Qed.
Lemma ex_cert_loads c : Some ex_cert = Some c \/ In c [] -> exists t, loadCert toy_world t = Ok c.
Proof. intros [[= <-]|[]]. apply ex_loads. now left. Qed.
Lemma ex_bad_encodable gs : dep_is toy_world ex_bad_dep gs -> texts_encodable ex_ks gs.
Proof.
  intros D. destruct (mangled_dep toy_world ex_bad_recs (Some ex_cert) [] ex_bad_dep toy_pem_ok ex_cert_loads ex_bad_exported) as (ts & T & D').
  rewrite (dep_is_fun _ _ _ _ D D'). vm_compute in T. apply Ok_inj in T. subst ts.
  repeat (constructor; [eexists; vm_compute; reflexivity|]). constructor.
Qed.
Lemma ex_one_orderly : orderly toy_world 8 B_unique (map (fun q => (q, fromCert ex_cert)) [ex_q1]).
Proof.
  destruct ex_over_orderly as (A & B & C & D & E & F). cbn [app map fst] in *. split; [|split; [|split; [|split; [|split]]]].
  - apply Forall_inv in A. constructor; [exact A|constructor].
  - intros q r [= <- _]. exact (B _ _ eq_refl).
  - intros [|? [|? ?]] p q l2 X; discriminate X.
  - intros [|? [|? ?]] o p q l2 X; discriminate X.
  - intros [|? [|? ?]] q l2 z X; try discriminate X. cbn [app] in X. injection X as <- <-. intros S T. exact (E [] _ [ex_q3] z eq_refl S T).
  - cbn [ids_new map fst]. constructor; [intros []|constructor].
Qed.
Lemma ex_bad_caught : exists c', verifyDEP toy_world ex_bad_dep ex_ks (Some ex_key) (new_cluster B_unique) None = (c', Some (MalformedReceipt ex_bad_text)).
Proof.
  apply (unreadable_caught toy_world ex_ks B_unique (Some ex_key) (lit "REG-1") ex_key 8 ex_g0 [ex_q1] ex_q3 no_override ex_bad_text [regular ex_q4]
    (fst ex_bad_run) ex_bad_recs ex_cert [] ex_bad_dep _ toy_hash_ok toy_aes_ok toy_pem_ok).
  - split; [discriminate|]. split; [intros [X|[X|[X|[X|[X|[]]]]]]; discriminate X|]. exists (lit "REG-1"). reflexivity.
  - reflexivity.
  - reflexivity.
  - now right.
  - exact ex_one_orderly.
  - exact ex_bad_issued.
  - intros a [->|[]]. apply ex_loads. now left.
  - exact (proj1 ex_trusted2).
  - exact ex_bad_exported.
  - exact ex_bad_encodable.
  - exact ex_bad_fault.
Qed.

(** A signed receipt replaced by the text of the same receipt during an outage *)
Definition ex_out_text : str := Eval vm_compute in nth 1 ex_fe_texts [].
Definition ex_out_qs : list (request * override * option str) := [regular ex_q1; (ex_q3, no_override, Some ex_out_text); regular ex_q4].
Definition ex_out_run := Eval vm_compute in issue_texts toy_world ex_g0 ex_out_qs.
Definition ex_out_recs := Eval vm_compute in match snd ex_out_run with Ok l => l | Err _ => [] end.
Definition ex_out_dep (n : nat) : json :=
  match export_mangled toy_world [RGroup (firstn n ex_out_recs) (Some ex_cert) []] with Ok d => d | Err _ => JNull end.
Definition ex_out_c2 := Eval vm_compute in fst (verifyDEP toy_world (ex_out_dep 2) ex_ks (Some ex_key) (new_cluster B_unique) None).
Definition ex_out_c3 := Eval vm_compute in fst (verifyDEP toy_world (ex_out_dep 3) ex_ks (Some ex_key) (new_cluster B_unique) None).
Lemma replaced_outage : exists w ks k g q1 q2 q3 broken cert t g' l dep2 dep c2 c,
  hash_ok w /\ aes_ok w /\ pem_ok w /\ new_cashreg (cr_id g) None 0 k 8 = Ok g
  /\ orderly w 8 B_unique (map (fun q => (q, fromCert cert)) [q1; with_sys q2 broken; q3])
  /\ issue_texts w g [regular q1; (q2, no_override, Some t); regular q3] = (g', Ok l)
  /\ export_mangled w [RGroup (firstn 2 l) (Some cert) []] = Ok dep2 /\ export_mangled w [RGroup l (Some cert) []] = Ok dep
  /\ verifyDEP w dep2 ks (Some k) (new_cluster B_unique) None = (c2, None)
  /\ verifyDEP w dep ks (Some k) (new_cluster B_unique) None = (c, Some (ChainingError (q_id q3))).
Proof.
  exists toy_world, ex_ks, ex_key, ex_g0, ex_q1, ex_q3, ex_q4, ex_broken, ex_cert, ex_out_text, (fst ex_out_run), ex_out_recs,
    (ex_out_dep 2), (ex_out_dep 3), ex_out_c2, ex_out_c3.
  split; [exact toy_hash_ok|]. split; [exact toy_aes_ok|]. split; [exact toy_pem_ok|]. split; [reflexivity|]. split; [exact ex_feigned_orderly|].
  split; [vm_compute; reflexivity|]. split; [vm_compute; reflexivity|]. split; [vm_compute; reflexivity|].
  split; vm_compute; reflexivity.
Qed.
