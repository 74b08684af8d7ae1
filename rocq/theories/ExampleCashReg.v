(** A small shop. *)
From Coq Require Import Lia Floats.SpecFloat.
From Verif Require Import PyBase World Codec CodecFacts PyFloat PyTime Algo Receipt SpecReceipt RoundTrip Json ListFacts Pem KeyStore State VerifyReceipt DepParser Verify DepExport
  SpecKeys SpecDep SpecCluster SpecAmount SpecExport CashReg SpecCashReg CashRegFacts CashRegSeq ExampleWorld ExampleDep.
Open Scope N_scope.
Open Scope py_scope.

Definition ex_works : sigsys := SignatureSystemWorking (lit "AT1") (lit "5a") ex_priv.
Definition ex_broken : sigsys := SignatureSystemBroken (lit "AT1") (lit "5a").
Definition ex_q (id : str) (sec : N) (neg : bool) (c : N) (s : sigsys) (dummy reversal : bool) : request :=
  Request id (Dt 2017 1 31 10 0 sec) (float_of_cents neg c) (S754_zero false) (float_of_cents false (if dummy then 5 else 0)) (S754_zero true) (S754_zero false) s dummy reversal.
(** Start receipt, sale, sale during an outage, training, end of the outage,
    cancellation, sale *)
Definition ex_day1 : list request :=
  [ex_q (lit "1") 0 false 0 ex_works false false; ex_q (lit "2") 1 false 1234 ex_works false false;
   ex_q (lit "3") 2 false 500 ex_broken false false; ex_q (lit "4") 3 false 99 ex_works true true].
Definition ex_day2 : list request :=
  [ex_q (lit "5") 3 true 0 ex_works false false; ex_q (lit "6") 4 true 1234 ex_works false true;
   ex_q (lit "7") 5 false 10 ex_works false false].
Definition ex_batches : list batch := [Batch (Some ex_cert) [] ex_day1; Batch None [] []; Batch (Some ex_cert) [] ex_day2].

Lemma toy_key_pair k : key_pair toy_world k k.
Proof.
  intros m. cbn [w_es256_verify w_es256_sign toy_world]. split; [apply str_eqb_refl|]. unfold toy_sign.
  destruct (toy_hash_ok (k ++ m)) as [L1 B1], (toy_hash_ok (m ++ k)) as [L2 B2]. cbn [w_sha256 toy_world] in *.
  rewrite app_length, L1, L2. split; [reflexivity|]. now apply Forall_app.
Qed.

Lemma ex_device s : s = ex_works \/ s = ex_broken ->
  device_ok toy_world s /\ device_known toy_world (fromCert ex_cert) s.
Proof.
  intros H. assert (sys_zda s = lit "AT1" /\ sys_serial s = lit "5a") as [Ez Es] by (destruct H as [->| ->]; split; reflexivity).
  split.
  - unfold device_ok. rewrite Ez, Es. split; [|split; [|split; [|split]]].
    + exists (lit "AT1"), (@nil N). split; [reflexivity|]. split; [now left|]. right. exists 65, 84, 49, (@nil N).
      split; [reflexivity|]. unfold letter, digit19. repeat split; try lia; constructor.
    + exists (lit "AT1"). reflexivity.
    + right. split; [discriminate|]. exists (lit "5a"). split; [left; exists 90%Z; reflexivity|].
      split; [|now left]. cbn. unfold c_dash. intuition discriminate.
    + cbn. unfold c_us. intuition discriminate.
    + exists (lit "5a"). reflexivity.
  - unfold device_known. rewrite Ez, Es. split.
    + intros c Hc. injection Hc as <-. right. left. exists 90%Z. split; reflexivity.
    + intros z n priv ->. exists [7]. destruct H as [H|H]; [|discriminate]. injection H as -> -> ->. split; [apply toy_key_pair|]. reflexivity.
Qed.

Lemma money_cents (neg : bool) (c : N) (z : Z) : z = (if neg then - Z.of_N c else Z.of_N c)%Z -> (Z.of_N c <= 10 ^ 14)%Z -> money (float_of_cents neg c) z.
Proof.
  intros -> L. split; [unfold moderate; destruct neg; lia|]. exists neg.
  assert (Z.abs_N (if neg then - Z.of_N c else Z.of_N c) = c) as -> by (destruct neg; lia).
  split; [reflexivity|]. split; intros ->; lia.
Qed.
Lemma ex_total id sec neg c s d r : (Z.of_N c <= 10 ^ 14)%Z ->
  request_total (ex_q id sec neg c s d r) ((if neg then - Z.of_N c else Z.of_N c) + (if d then 5 else 0)).
Proof.
  intros L. exists [(if neg then - Z.of_N c else Z.of_N c)%Z; 0%Z; (if d then 5 else 0)%Z; 0%Z; 0%Z]. split.
  - unfold ex_q. cbn [q_a q_b q_c q_d q_e].
    constructor; [now apply money_cents|]. constructor; [apply (money_cents false 0 0 eq_refl); discriminate|].
    constructor; [destruct d; apply money_cents; (reflexivity || discriminate)|].
    constructor; [apply (money_cents true 0 0 eq_refl); discriminate|].
    constructor; [apply (money_cents false 0 0 eq_refl); discriminate|constructor].
  - cbn [total fold_left fold_right]. destruct neg, d; lia.
Qed.
Lemma ex_request_ok id sec neg c s d r : identifier id -> sec < 60 -> (Z.of_N c <= 10 ^ 14)%Z -> s = ex_works \/ s = ex_broken ->
  request_ok toy_world (fromCert ex_cert) (ex_q id sec neg c s d r).
Proof.
  intros I S L D%ex_device. split; [exact I|]. split.
  { unfold ex_q, valid_dt. cbn [q_time dt_year dt_month dt_day dt_hour dt_min dt_sec]. split; [lia|]. split; [lia|].
    split; [exists 31; unfold days_in_month; split; [cbn; intuition lia|lia]|]. lia. }
  split; [cbn; lia|]. split; [eexists; now apply ex_total|]. exact D.
Qed.
Lemma ex_identifier n : n < 128 -> n <> c_us -> identifier [n].
Proof.
  intros L N. split; [discriminate|]. split; [intros [X|[]]; exact (N X)|]. exists [n]. apply utf8_encode_ascii. now constructor.
Qed.

Definition turnover_of (l : list request) : Z :=
  total (map (fun q => if q_dummy q then 0%Z else match request_cents q with Ok z => z | Err _ => 0%Z end) l).
Lemma turnover_calc l z : requests_turnover l z -> z = turnover_of l.
Proof.
  intros (cs & F & ->). unfold turnover_of. f_equal. induction F as [|q c l cs H F IH]; [reflexivity|]. cbn [map]. rewrite <- IH. f_equal.
  destruct H as [[-> ->]|[-> H]]; [reflexivity|]. now rewrite (total_cents _ _ H).
Qed.
Definition ex_days : list request := ex_day1 ++ ex_day2.
Lemma ex_batch_requests : batch_requests ex_ks ex_batches = map (fun q => (q, fromCert ex_cert)) ex_days.
Proof. reflexivity. Qed.

Lemma ex_plain id sec neg : plain_zero_request (ex_q id sec neg 0 ex_works false false).
Proof.
  split; [do 3 eexists; reflexivity|]. split; [|split; reflexivity].
  unfold zero_request, is_zero. repeat (constructor; [eexists; reflexivity|]). constructor.
Qed.
Local Ltac cases E l :=
  unfold ex_days, ex_day1, ex_day2 in E; cbn [app] in E;
  repeat (destruct l as [|? l]; cbn [app] in E;
    [first [discriminate E | injection E; clear E; intros; subst]|first [discriminate E | injection E as <- E]]).
Lemma ex_orderly : orderly toy_world 8 B_natural (batch_requests ex_ks ex_batches).
Proof.
  rewrite ex_batch_requests. unfold orderly. rewrite map_map. cbn [fst]. rewrite map_id.
  split; [|split; [|split; [|split; [|split]]]].
  - apply Forall_map. cbn [fst snd]. unfold ex_days, ex_day1, ex_day2. cbn [app].
    repeat (constructor; [apply ex_request_ok; [now apply ex_identifier|lia|lia|now (left + right)]|]). constructor.
  - intros q r E. injection E as <- _. now apply ex_plain.
  - intros l1 p q l2 E. cases E l1. all: split; [split; discriminate|reflexivity].
  - intros l1 o p q l2 E W1 W2 _. cases E l1.
    all: try (now apply ex_plain). all: try (exfalso; apply W1; do 3 eexists; reflexivity). all: destruct W2 as (? & ? & ? & W2); discriminate.
  - intros l1 q l2 z E _ T%turnover_calc. rewrite T. clear T z. cases E l1.
    all: vm_compute; split; [discriminate|reflexivity].
  - cbn [ids_new]. vm_compute. repeat split; try exact I; (eexists; eexists; split; [reflexivity|split; [reflexivity|reflexivity]]).
Qed.

(** The hypotheses of the theorem about registers can be met. *)
Lemma ex_reg_key : new_cashreg (lit "REG-1") None 0 ex_key 8 = Ok (CashReg (lit "REG-1") None 0 ex_key 8).
Proof. reflexivity. Qed.
Lemma ex_certs_loaded : batch_certs_loaded toy_world ex_batches.
Proof.
  intros b c [<-|[<-|[<-|[]]]] [H|[]]; try discriminate; injection H as <-; exists (addPEMCertHeaders ex_cert_text); vm_compute; reflexivity.
Qed.
Lemma ex_trusted : batches_trusted toy_world ex_ks ex_batches.
Proof.
  left. assert (trusted toy_world ex_ks ex_cert []) as T.
  { exists [], ex_cert, []. split; [reflexivity|]. split; [exists ex_cert; split; reflexivity|].
    split; [|intros y k []]. intros [|? [|? ?]] a b l2 E; discriminate E. }
  cbn. repeat (constructor; [exists ex_cert; now split|]). constructor.
Qed.
Lemma ex_register : exists g' gs dep reg',
  issue_groups toy_world (CashReg (lit "REG-1") None 0 ex_key 8) ex_batches = (g', Ok gs)
  /\ export toy_world (gs, None) [] = Ok dep
  /\ verifyDEP toy_world (load dep) ex_ks (Some ex_key) (new_cluster B_natural) None
     = (Cluster [reg'] (fold_left used_add (map (fun qv => q_id (fst qv)) (batch_requests ex_ks ex_batches)) (used_new B_natural)), None)
  /\ cr_counter g' = 510%Z.
Proof.
  destruct (register_accepted toy_world ex_ks B_natural (Some ex_key) (lit "REG-1") ex_key 8 (CashReg (lit "REG-1") None 0 ex_key 8) ex_batches []
    toy_hash_ok toy_aes_ok toy_pem_ok) as (g' & gs & dep & reg' & A & B & C & D & _).
  - split; [discriminate|]. split; [intros [X|[X|[X|[X|[X|[]]]]]]; discriminate X|]. exists (lit "REG-1"). reflexivity.
  - reflexivity.
  - exact ex_reg_key.
  - now right.
  - exact ex_certs_loaded.
  - exact ex_trusted.
  - constructor.
  - discriminate.
  - exact ex_orderly.
  - exists g', gs, dep, reg'. split; [exact A|]. split; [exact B|]. split; [exact C|]. rewrite (turnover_calc _ _ D). vm_compute. reflexivity.
Qed.

(** ** Amounts that are no whole number of cents *)
Definition ex_g0 : cashreg := CashReg (lit "REG-1") None 0 ex_key 8.
Definition ex_q1 : request := ex_q (lit "1") 0 false 0 ex_works false false.
Definition ex_q2 : request := ex_q (lit "2") 1 false 0 ex_works false false.
Definition ex_half : float := float_of_ratio false 1 200.
Definition with_sumA (q : request) (x : float) : request :=
  Request (q_id q) (q_time q) x (q_b q) (q_c q) (q_d q) (q_e q) (q_sys q) (q_dummy q) (q_reversal q).

Lemma ex_orderly2 : orderly toy_world 8 B_natural (batch_requests ex_ks [Batch (Some ex_cert) [] [ex_q1; ex_q2]]).
Proof.
  change (batch_requests ex_ks [Batch (Some ex_cert) [] [ex_q1; ex_q2]]) with (map (fun q => (q, fromCert ex_cert)) [ex_q1; ex_q2]).
  unfold orderly. rewrite map_map. cbn [fst]. rewrite map_id.
  split; [|split; [|split; [|split; [|split]]]].
  - apply Forall_map. cbn [fst snd].
    repeat (constructor; [apply ex_request_ok; [now apply ex_identifier|lia|lia|now (left + right)]|]). constructor.
  - intros q r E. injection E as <- _. now apply ex_plain.
  - intros l1 p q l2 E. cases E l1. all: split; [split; discriminate|reflexivity].
  - intros l1 o p q l2 E. cases E l1.
  - intros l1 q l2 z E _ T%turnover_calc. rewrite T. clear T z. cases E l1. all: vm_compute; split; [discriminate|reflexivity].
  - cbn [ids_new]. vm_compute. repeat split; try exact I; (eexists; eexists; split; [reflexivity|split; [reflexivity|reflexivity]]).
Qed.

Definition ex_half_run := Eval vm_compute in issue_groups toy_world ex_g0 [Batch (Some ex_cert) [] [ex_q1; with_sumA ex_q2 ex_half]].
Definition ex_half_gs := Eval vm_compute in match snd ex_half_run with Ok gs => gs | Err _ => [] end.
Definition ex_half_dep := Eval vm_compute in match export toy_world (ex_half_gs, None) [] with Ok d => d | Err _ => JNull end.
Definition ex_half_ver := Eval vm_compute in verifyDEP toy_world (load ex_half_dep) ex_ks (Some ex_key) (new_cluster B_natural) None.
Lemma ex_subcent : exists w ks b k g c q1 q2 x g' gs dep cl,
  hash_ok w /\ aes_ok w /\ pem_ok w
  /\ orderly w 8 b (batch_requests ks [Batch (Some c) [] [q1; q2]])
  /\ x = float_of_ratio false 1 200 (* 0.005 *)
  /\ new_cashreg (cr_id g) None 0 k 8 = Ok g
  /\ issue_groups w g [Batch (Some c) [] [q1; with_sumA q2 x]] = (g', Ok gs)
  /\ export w (gs, None) [] = Ok dep
  /\ verifyDEP w (load dep) ks (Some k) (new_cluster b) None = (cl, Some (InvalidTurnoverCounter (q_id q2))).
Proof.
  exists toy_world, ex_ks, B_natural, ex_key, ex_g0, ex_cert, ex_q1, ex_q2, ex_half, (fst ex_half_run), ex_half_gs, ex_half_dep, (fst ex_half_ver).
  split; [exact toy_hash_ok|]. split; [exact toy_aes_ok|]. split; [exact toy_pem_ok|]. split; [exact ex_orderly2|].
  split; [reflexivity|]. split; [reflexivity|]. split; [vm_compute; reflexivity|]. split; vm_compute; reflexivity.
Qed.

(** ** Calls that fail *)
Definition ex_bad : request := ex_q [55296] 1 false 700 ex_works false false.
Definition ex_b1 := Eval vm_compute in issue toy_world ex_g0 (lit "R1") ex_q1.
Definition ex_b2 := Eval vm_compute in issue toy_world (fst ex_b1) (lit "R1") ex_bad.
Definition ex_b3 := Eval vm_compute in issue toy_world (fst ex_b2) (lit "R1") ex_q2.
Definition ex_brec (r : cashreg * result receipt) : list receipt := match snd r with Ok x => [x] | Err _ => [] end.
Definition ex_rs := Eval vm_compute in ex_brec ex_b1 ++ ex_brec ex_b3.
Definition ex_r1 : receipt := Eval vm_compute in match ex_rs as l return (match l with [] => unit | _ => receipt end) with x :: _ => x | [] => tt end.
Definition ex_r2 : receipt := Eval vm_compute in match rev ex_rs as l return (match l with [] => unit | _ => receipt end) with x :: _ => x | [] => tt end.
Definition ex_bdep := Eval vm_compute in
  match export toy_world ([RGroup [(ex_r1, lit "R1"); (ex_r2, lit "R1")] (Some ex_cert) []], None) [] with Ok d => d | Err _ => JNull end.
Definition ex_bver := Eval vm_compute in verifyDEP toy_world (load ex_bdep) ex_ks (Some ex_key) (new_cluster B_natural) None.
Lemma ex_failed_call : exists w ks b k g c q1 q2 bad g1 g2 g3 r1 r2 e dep cl,
  hash_ok w /\ aes_ok w /\ pem_ok w
  /\ orderly w 8 b (batch_requests ks [Batch (Some c) [] [q1; q2]])
  /\ new_cashreg (cr_id g) None 0 k 8 = Ok g
  /\ issue w g (lit "R1") q1 = (g1, Ok r1)
  /\ issue w g1 (lit "R1") bad = (g2, Err e) /\ cr_counter g2 <> cr_counter g1
  /\ issue w g2 (lit "R1") q2 = (g3, Ok r2)
  /\ export w ([RGroup [(r1, lit "R1"); (r2, lit "R1")] (Some c) []], None) [] = Ok dep
  /\ verifyDEP w (load dep) ks (Some k) (new_cluster b) None = (cl, Some (InvalidTurnoverCounter (q_id q2))).
Proof.
  exists toy_world, ex_ks, B_natural, ex_key, ex_g0, ex_cert, ex_q1, ex_q2, ex_bad, (fst ex_b1), (fst ex_b2), (fst ex_b3), ex_r1, ex_r2, PyUnicodeEncodeError, ex_bdep, (fst ex_bver).
  split; [exact toy_hash_ok|]. split; [exact toy_aes_ok|]. split; [exact toy_pem_ok|]. split; [exact ex_orderly2|].
  split; [reflexivity|]. split; [vm_compute; reflexivity|]. split; [vm_compute; reflexivity|]. split; [discriminate|].
  split; [vm_compute; reflexivity|]. split; vm_compute; reflexivity.
Qed.
