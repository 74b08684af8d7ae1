(** A signature service in the toy world. *)
From Coq Require Import Floats.SpecFloat Lia.
From Verif Require Import PyBase World Codec PyFloat PyTime Algo Receipt SpecReceipt SpecKeys Json ListFacts Pem KeyStore VerifyReceipt State DepParser Verify DepExport
  SpecDep SpecCluster SpecExport CashReg SpecCashReg CashRegFacts CashRegSeq Demo SpecDemo DemoFacts Remote SpecRemote RemoteFacts ExampleWorld ExampleDep ExampleCashReg ExampleDemo.
Open Scope N_scope.

Definition ex_remote : remote := Remote (lit "AT1") (lit "5a") (lit "ES256").
Definition ex_post (up : bool) (data : str) : reply :=
  if up then match sys_sign toy_world ex_works data with Ok jws => Answer (JDict [(lit "result", JStr jws)]) | Err _ => NoJson end else Refused.
Lemma ex_serves up : serves toy_world ex_priv up (ex_post up).
Proof.
  destruct up; [|intros data; reflexivity]. intros data jws (p & E & J). cbv zeta in J. exists [(lit "result", JStr jws)]. split; [|reflexivity].
  unfold ex_post, sys_sign, ex_works. change (utf8_encode r1_jwsHeader) with (Ok (lit "{""alg"":""ES256""}") : result bytes). cbn [bind].
  unfold r1_sign, jws_input. change (utf8_encode r1_jwsHeader) with (Ok (lit "{""alg"":""ES256""}") : result bytes). cbn [bind]. rewrite E. cbn [bind]. rewrite J.
  now rewrite <- !app_assoc.
Qed.

(** The day of C39, with the device of A-Trust *)
Definition ex_up (q : request) : bool := match q_sys q with SignatureSystemWorking _ _ _ => true | _ => false end.
Definition ex_online_day : list (request * bool * (str -> reply)) := map (fun q => (q, ex_up q, ex_post (ex_up q))) (ex_day1 ++ ex_day2).
Lemma ex_online_serves : Forall (fun x => serves toy_world ex_priv (snd (fst x)) (snd x)) ex_online_day.
Proof. apply Forall_map, Forall_forall. intros q _. cbn [fst snd]. apply ex_serves. Qed.
Lemma ex_online_local : local_requests ex_remote ex_priv ex_online_day = ex_day1 ++ ex_day2.
Proof. reflexivity. Qed.

Definition ex_cd : list (str * json) := [(lit "ZertifikatsseriennummerHex", JStr (lit "5a")); (lit "alg", JStr (lit "ES256"))].
Definition ex_zd : list (str * json) := [(lit "zdaid", JStr (lit "AT1"))].
Lemma ex_remote_device : device_ok toy_world (local_device ex_remote ex_priv true) /\ device_known toy_world (fromKeyStore ex_ks) (local_device ex_remote ex_priv true).
Proof.
  split; [exact (proj1 (ex_device ex_works (or_introl eq_refl)))|]. split; [discriminate|]. intros z n p E. injection E as _ _ <-. exists [7].
  split; [apply toy_key_pair|]. exists ex_ks. split; [reflexivity|]. right. split; [discriminate|]. left. exists (lit "5a").
  split; [exists 90%Z; split; reflexivity|]. vm_compute. reflexivity.
Qed.
(** The service is lost after two receipts. *)
Definition ex_lost : nat -> str -> reply := fun i => ex_post (i <? 2)%nat.
Definition ex_lost_dep := Eval vm_compute in
  match demo_remote toy_world (Answer (JDict ex_cd)) (Answer (JDict ex_zd)) ex_lost (da_key ex_args) (lit "4") ex_draw with Ok (Some d) => d | _ => JNull end.
Definition ex_lost_ver := Eval vm_compute in verifyDEP toy_world (load ex_lost_dep) ex_ks (Some ex_key) (new_cluster B_unique) None.
Lemma ex_lost_demo : demo_remote toy_world (Answer (JDict ex_cd)) (Answer (JDict ex_zd)) ex_lost (da_key ex_args) (lit "4") ex_draw = Ok (Some ex_lost_dep)
  /\ snd (verifyDEP toy_world (load ex_lost_dep) ex_ks (Some ex_key) (new_cluster B_unique) None) = None.
Proof. split; vm_compute; reflexivity. Qed.

(** It cannot be reached for the second receipt only. *)
Definition ex_back : nat -> str -> reply := fun i => ex_post (negb (i =? 1)%nat).
Definition ex_back_dep := Eval vm_compute in
  match demo_remote toy_world (Answer (JDict ex_cd)) (Answer (JDict ex_zd)) ex_back (da_key ex_args) (lit "4") ex_draw with Ok (Some d) => d | _ => JNull end.
Definition ex_back_ver := Eval vm_compute in verifyDEP toy_world (load ex_back_dep) ex_ks (Some ex_key) (new_cluster B_unique) None.
Lemma remote_back : exists w ks cd zd d post up keyText draws k priv dep cl, hash_ok w /\ aes_ok w /\ pem_ok w
  /\ dict_get cd (lit "ZertifikatsseriennummerHex") = Some (JStr (rm_serial d)) /\ dict_get cd (lit "alg") = Some (JStr (lit "ES256"))
  /\ dict_get zd (lit "zdaid") = Some (JStr (rm_zda d))
  /\ device_ok w (local_device d priv true) /\ device_known w (fromKeyStore ks) (local_device d priv true)
  /\ up 0%nat = true /\ (forall i, serves w priv (up i) (post i)) /\ demo_aes_key keyText k
  /\ (forall i, draw_ok (draws i)) /\ steady draws
  /\ demo_remote w (Answer (JDict cd)) (Answer (JDict zd)) post keyText (lit "4") draws = Ok (Some dep)
  /\ verifyDEP w (load dep) ks (Some k) (new_cluster B_unique) None = (cl, Some (NoRestoreReceipt (lit "00003"))).
Proof.
  exists toy_world, ex_ks, ex_cd, ex_zd, ex_remote, ex_back, (fun i => negb (i =? 1)%nat), (da_key ex_args), ex_draw, ex_key, ex_priv, ex_back_dep, (fst ex_back_ver).
  split; [exact toy_hash_ok|]. split; [exact toy_aes_ok|]. split; [exact toy_pem_ok|]. do 3 (split; [reflexivity|]).
  split; [exact (proj1 ex_remote_device)|]. split; [exact (proj2 ex_remote_device)|]. split; [reflexivity|]. split; [intros i; apply ex_serves|].
  split; [exact ex_demo_key|]. split; [exact ex_draw_ok|]. split; [exact ex_steady|]. split; vm_compute; reflexivity.
Qed.

Definition ex_q3 : request := ex_q (lit "2") 1 false 150 ex_works false false.
Local Ltac cases E l := cbn [app] in E;
  repeat (destruct l as [|? l]; cbn [app] in E;
    [first [discriminate E | injection E; clear E; intros; subst]|first [discriminate E | injection E as <- E]]).
Lemma ex_orderly3 : orderly toy_world 8 B_natural (batch_requests ex_ks [Batch (Some ex_cert) [] [ex_q1; ex_q3]]).
Proof.
  change (batch_requests ex_ks [Batch (Some ex_cert) [] [ex_q1; ex_q3]]) with (map (fun q => (q, fromCert ex_cert)) [ex_q1; ex_q3]).
  unfold orderly. rewrite map_map. cbn [fst]. rewrite map_id.
  split; [|split; [|split; [|split; [|split]]]].
  - apply Forall_map. cbn [fst snd].
    repeat (constructor; [apply ex_request_ok; [now apply ex_identifier|lia|lia|now (left + right)]|]). constructor.
  - intros q r E. injection E as <- _. now apply ex_plain.
  - intros l1 p q l2 E. cases E l1. all: split; [split; discriminate|reflexivity].
  - intros l1 o p q l2 E. cases E l1.
  - intros l1 q l2 z E _ T%turnover_calc. rewrite T. clear T z. cases E l1. all: vm_compute; split; [discriminate|reflexivity].
  - cbn [ids_new]. vm_compute. repeat split; try exact I; (eexists; eexists; split; [reflexivity|split; [reflexivity|reflexivity]]).
Qed.

(** A reply that is no JSON text, and the same request again *)
Definition ex_f1 := Eval vm_compute in remote_issue toy_world ex_g0 ex_remote (ex_post true) ex_q1.
Definition ex_f2 := Eval vm_compute in remote_issue toy_world (fst ex_f1) ex_remote (fun _ => NoJson) ex_q3.
Definition ex_f3 := Eval vm_compute in remote_issue toy_world (fst ex_f2) ex_remote (ex_post true) ex_q3.
Definition ex_frs : list receipt := Eval vm_compute in match snd ex_f1, snd ex_f3 with Ok a, Ok b => [a; b] | _, _ => [] end.
Definition ex_fr1 : receipt := Eval vm_compute in match ex_frs as l return (match l with [] => unit | _ => receipt end) with x :: _ => x | [] => tt end.
Definition ex_fr2 : receipt := Eval vm_compute in match rev ex_frs as l return (match l with [] => unit | _ => receipt end) with x :: _ => x | [] => tt end.
Definition ex_fdep := Eval vm_compute in
  match export toy_world ([RGroup [(ex_fr1, lit "R1"); (ex_fr2, lit "R1")] (Some ex_cert) []], None) [] with Ok d => d | Err _ => JNull end.
Definition ex_fver := Eval vm_compute in verifyDEP toy_world (load ex_fdep) ex_ks (Some ex_key) (new_cluster B_natural) None.
Lemma remote_again : exists w ks b k g d priv post c q1 q2 g1 g2 g3 r1 r2 e dep cl,
  hash_ok w /\ aes_ok w /\ pem_ok w /\ rm_algo d = lit "ES256" /\ serves w priv true post
  /\ orderly w 8 b (batch_requests ks [Batch (Some c) [] (map (on_device (local_device d priv true)) [q1; q2])])
  /\ new_cashreg (cr_id g) None 0 k 8 = Ok g
  /\ remote_issue w g d post q1 = (g1, Ok r1)
  /\ remote_issue w g1 d (fun _ => NoJson) q2 = (g2, Err e)
  /\ remote_issue w g2 d post q2 = (g3, Ok r2)
  /\ export w ([RGroup [(r1, lit "R1"); (r2, lit "R1")] (Some c) []], None) [] = Ok dep
  /\ verifyDEP w (load dep) ks (Some k) (new_cluster b) None = (cl, Some (InvalidTurnoverCounter (q_id q2))).
Proof.
  exists toy_world, ex_ks, B_natural, ex_key, ex_g0, ex_remote, ex_priv, (ex_post true), ex_cert, ex_q1, ex_q3, (fst ex_f1), (fst ex_f2), (fst ex_f3), ex_fr1, ex_fr2, PyValueError, ex_fdep, (fst ex_fver).
  split; [exact toy_hash_ok|]. split; [exact toy_aes_ok|]. split; [exact toy_pem_ok|]. split; [reflexivity|]. split; [exact (ex_serves true)|].
  split; [exact ex_orderly3|]. split; [reflexivity|]. split; [vm_compute; reflexivity|]. split; [vm_compute; reflexivity|].
  split; [vm_compute; reflexivity|]. split; vm_compute; reflexivity.
Qed.

(** A service that signs another payload: the receipt is made all the same. *)
Definition ex_liar (_ : str) : reply := match sys_sign toy_world ex_works (lit "_R1-AT1_x") with Ok jws => Answer (JDict [(lit "result", JStr jws)]) | Err _ => NoJson end.
Definition ex_l1 := Eval vm_compute in remote_issue toy_world ex_g0 ex_remote ex_liar ex_q1.
Definition ex_lr : receipt := Eval vm_compute in match snd ex_l1 as l return (match l with Ok _ => receipt | _ => unit end) with Ok x => x | Err _ => tt end.
Definition ex_ldep := Eval vm_compute in
  match export toy_world ([RGroup [(ex_lr, lit "R1")] (Some ex_cert) []], None) [] with Ok d => d | Err _ => JNull end.
Definition ex_lver := Eval vm_compute in verifyDEP toy_world (load ex_ldep) ex_ks (Some ex_key) (new_cluster B_natural) None.
Lemma remote_unchecked : exists w ks b k g d post c q g1 r dep cl,
  hash_ok w /\ aes_ok w /\ pem_ok w /\ rm_algo d = lit "ES256" /\ new_cashreg (cr_id g) None 0 k 8 = Ok g
  /\ remote_issue w g d post q = (g1, Ok r)
  /\ export w ([RGroup [(r, lit "R1")] (Some c) []], None) [] = Ok dep
  /\ verifyDEP w (load dep) ks (Some k) (new_cluster b) None = (cl, Some (InvalidSignature (q_id q))).
Proof.
  exists toy_world, ex_ks, B_natural, ex_key, ex_g0, ex_remote, ex_liar, ex_cert, ex_q1, (fst ex_l1), ex_lr, ex_ldep, (fst ex_lver).
  split; [exact toy_hash_ok|]. split; [exact toy_aes_ok|]. split; [exact toy_pem_ok|]. split; [reflexivity|]. split; [reflexivity|].
  split; [vm_compute; reflexivity|]. split; vm_compute; reflexivity.
Qed.
Lemma ex_online_rules : let bs := [Batch (Some ex_cert) [] (local_requests ex_remote ex_priv ex_online_day)] in
  batch_certs_loaded toy_world bs /\ batches_trusted toy_world ex_ks bs /\ orderly toy_world 8 B_natural (batch_requests ex_ks bs).
Proof.
  cbv zeta. rewrite ex_online_local. split; [|split].
  - intros b c [<-|[]] H. refine (ex_certs_loaded (Batch (Some ex_cert) [] ex_day1) c _ H). now left.
  - pose proof ex_trusted as [F|(b & E & _)]; [left|discriminate E]. constructor; [exact (Forall_inv F)|constructor].
  - exact ex_orderly.
Qed.
