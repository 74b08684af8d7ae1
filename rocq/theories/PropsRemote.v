(** C73: the signature device that is reached by network. *)
From Coq Require Import Floats.SpecFloat.
From Verif Require Import PyBase World Codec PyFloat PyTime Algo Receipt SpecReceipt SpecKeys Json Pem KeyStore VerifyReceipt State DepParser Verify DepExport
  SpecDep SpecCluster SpecExport CashReg SpecCashReg CashRegSeq Demo SpecDemo Remote SpecRemote RemoteFacts ExampleWorld ExampleDep ExampleCashReg ExampleDemo ExampleRemote.
Open Scope N_scope.

(** With a service that replies with the signed payload, or cannot be reached, a receipt
    is the one that a working or a broken device of the same certificate makes. *)
Theorem C73_sign : forall w d priv up post g q g' r, rm_algo d = lit "ES256" -> serves w priv up post ->
  issue w g (lit "R1") (on_device (local_device d priv up) q) = (g', Ok r) -> remote_issue w g d post q = (g', Ok r).
Proof. exact remote_same. Qed.
Print Assumptions C73_sign.

Example C73_sign_case : rm_algo ex_remote = lit "ES256" /\ serves toy_world ex_priv true (ex_post true) /\ serves toy_world ex_priv false (ex_post false)
  /\ remote_issue toy_world ex_g0 ex_remote (ex_post true) ex_q1 = issue toy_world ex_g0 (lit "R1") (on_device ex_works ex_q1)
  /\ remote_issue toy_world ex_g0 ex_remote (ex_post false) ex_q1 = issue toy_world ex_g0 (lit "R1") (on_device ex_broken ex_q1).
Proof. split; [reflexivity|]. split; [exact (ex_serves true)|]. split; [exact (ex_serves false)|]. split; vm_compute; reflexivity. Qed.

(** So the DEP of orderly requests is accepted, with whatever outages of the service;
    the requests are orderly if a receipt of zero follows each outage. *)
Theorem C73_accepted : forall w ks b key id k size g d priv c chain extra l,
  hash_ok w -> aes_ok w -> pem_ok w -> identifier id -> List.length k = 32%nat -> new_cashreg id None 0 k size = Ok g ->
  key = None \/ key = Some k -> rm_algo d = lit "ES256" -> Forall (fun x => serves w priv (snd (fst x)) (snd x)) l ->
  let bs := [Batch c chain (local_requests d priv l)] in
  batch_certs_loaded w bs -> batches_trusted w ks bs -> extra_ok extra -> l <> [] -> orderly w size b (batch_requests ks bs) ->
  exists g' rs dep reg', remote_all w g d (remote_requests l) = (g', Ok rs) /\ export w ([RGroup rs c chain], None) extra = Ok dep
    /\ verifyDEP w (load dep) ks key (new_cluster b) None = (Cluster [reg'] (fold_left used_add (map (fun x => q_id (fst (fst x))) l) (used_new b)), None)
    /\ requests_turnover (local_requests d priv l) (cr_counter g') /\ s_last reg' = cr_last g' /\ (key <> None -> s_counter reg' = cr_counter g').
Proof. exact remote_accepted. Qed.
Print Assumptions C73_accepted.

(** A day with an outage *)
Example C73_accepted_case : Forall (fun x => serves toy_world ex_priv (snd (fst x)) (snd x)) ex_online_day
  /\ (let bs := [Batch (Some ex_cert) [] (local_requests ex_remote ex_priv ex_online_day)] in
      batch_certs_loaded toy_world bs /\ batches_trusted toy_world ex_ks bs /\ orderly toy_world 8 B_natural (batch_requests ex_ks bs))
  /\ map (fun x => snd (fst x)) ex_online_day = [true; true; false; true; true; true; true].
Proof. split; [exact ex_online_serves|]. split; [exact ex_online_rules|]. reflexivity. Qed.

(** Whatever the service replies, a receipt that is made carries what was requested,
    and the signature that was replied to its payload. *)
Theorem C73_fields : forall w g d post q g' r, remote_issue w g d post q = (g', Ok r) ->
  r_zda r = rm_zda d /\ r_registerId r = cr_id g /\ r_receiptId r = q_id q /\ r_dateTimeStr r = strftime (q_time q)
  /\ [r_sumAStr r; r_sumBStr r; r_sumCStr r; r_sumDStr r; r_sumEStr r] = map fmt_sum [q_a q; q_b q; q_c q; q_d q; q_e q]
  /\ r_certSerial r = rm_serial d
  /\ exists payload jws h p s, toPayloadString r (lit "R1") = Ok payload /\ remote_sign w d post payload = Ok jws
     /\ jws = h ++ [c_dot] ++ p ++ [c_dot] ++ s /\ option_map snd (r_sig r) = Some s /\ cr_last g' = Some jws.
Proof. exact remote_fields. Qed.
Print Assumptions C73_fields.

Example C73_fields_case : snd (remote_issue toy_world ex_g0 ex_remote ex_liar ex_q1) = Ok ex_lr /\ r_receiptId ex_lr = lit "1".
Proof. split; vm_compute; reflexivity. Qed.

(** The reply is not looked at: with one that signs another payload the receipt is made
    all the same, and its DEP is rejected. *)
Theorem C73_reply_refuted : exists w ks b k g d post c q g1 r dep cl,
  hash_ok w /\ aes_ok w /\ pem_ok w /\ rm_algo d = lit "ES256" /\ new_cashreg (cr_id g) None 0 k 8 = Ok g
  /\ remote_issue w g d post q = (g1, Ok r)
  /\ export w ([RGroup [(r, lit "R1")] (Some c) []], None) [] = Ok dep
  /\ verifyDEP w (load dep) ks (Some k) (new_cluster b) None = (cl, Some (InvalidSignature (q_id q))).
Proof. exact remote_unchecked. Qed.
Print Assumptions C73_reply_refuted.

(** If a reply is no JSON text and the request is made again, then the DEP of the
    receipts is rejected, since the turnover has been counted twice. *)
Theorem C73_again_refuted : exists w ks b k g d priv post c q1 q2 g1 g2 g3 r1 r2 e dep cl,
  hash_ok w /\ aes_ok w /\ pem_ok w /\ rm_algo d = lit "ES256" /\ serves w priv true post
  /\ orderly w 8 b (batch_requests ks [Batch (Some c) [] (map (on_device (local_device d priv true)) [q1; q2])])
  /\ new_cashreg (cr_id g) None 0 k 8 = Ok g
  /\ remote_issue w g d post q1 = (g1, Ok r1)
  /\ remote_issue w g1 d (fun _ => NoJson) q2 = (g2, Err e)
  /\ remote_issue w g2 d post q2 = (g3, Ok r2)
  /\ export w ([RGroup [(r1, lit "R1"); (r2, lit "R1")] (Some c) []], None) [] = Ok dep
  /\ verifyDEP w (load dep) ks (Some k) (new_cluster b) None = (cl, Some (InvalidTurnoverCounter (q_id q2))).
Proof. exact remote_again. Qed.
Print Assumptions C73_again_refuted.

(** demo.py with the service: accepted if the service, once lost, stays so *)
Theorem C73_demo : forall w ks b key cd zd d post keyText numText draws n k priv m, hash_ok w -> aes_ok w -> pem_ok w ->
  dict_get cd (lit "ZertifikatsseriennummerHex") = Some (JStr (rm_serial d)) -> dict_get cd (lit "alg") = Some (JStr (lit "ES256")) ->
  dict_get zd (lit "zdaid") = Some (JStr (rm_zda d)) ->
  device_ok w (local_device d priv true) -> device_known w (fromKeyStore ks) (local_device d priv true) ->
  (1 <= m)%nat -> (forall i, serves w priv (i <? m)%nat (post i)) ->
  demo_aes_key keyText k -> py_int w 10 numText = Some n -> (1 <= n <= 10 ^ 13)%Z ->
  (forall i, draw_ok (draws i)) -> steady draws -> key = None \/ key = Some k ->
  exists dep reg ids, demo_remote w (Answer (JDict cd)) (Answer (JDict zd)) post keyText numText draws = Ok (Some dep)
    /\ verifyDEP w (load dep) ks key (new_cluster b) None = (Cluster [reg] (fold_left used_add ids (used_new b)), None)
    /\ List.length ids = Z.to_nat n /\ forall i id, nth_error ids i = Some id -> numbered_id i id.
Proof. exact demo_remote_accepted. Qed.
Print Assumptions C73_demo.

Example C73_demo_case : device_ok toy_world (local_device ex_remote ex_priv true) /\ device_known toy_world (fromKeyStore ex_ks) (local_device ex_remote ex_priv true)
  /\ (forall i, serves toy_world ex_priv (i <? 2)%nat (ex_lost i)) /\ demo_aes_key (da_key ex_args) ex_key /\ (forall i, draw_ok (ex_draw i)) /\ steady ex_draw
  /\ demo_remote toy_world (Answer (JDict ex_cd)) (Answer (JDict ex_zd)) ex_lost (da_key ex_args) (lit "4") ex_draw = Ok (Some ex_lost_dep)
  /\ snd (verifyDEP toy_world (load ex_lost_dep) ex_ks (Some ex_key) (new_cluster B_unique) None) = None.
Proof.
  split; [exact (proj1 ex_remote_device)|]. split; [exact (proj2 ex_remote_device)|]. split; [intros i; apply ex_serves|].
  exact (conj ex_demo_key (conj ex_draw_ok (conj ex_steady ex_lost_demo))).
Qed.

(** Otherwise it may be rejected: demo.py issues no receipt of zero when the service is
    back. *)
Theorem C73_demo_refuted : exists w ks cd zd d post up keyText draws k priv dep cl, hash_ok w /\ aes_ok w /\ pem_ok w
  /\ dict_get cd (lit "ZertifikatsseriennummerHex") = Some (JStr (rm_serial d)) /\ dict_get cd (lit "alg") = Some (JStr (lit "ES256"))
  /\ dict_get zd (lit "zdaid") = Some (JStr (rm_zda d))
  /\ device_ok w (local_device d priv true) /\ device_known w (fromKeyStore ks) (local_device d priv true)
  /\ up 0%nat = true /\ (forall i, serves w priv (up i) (post i)) /\ demo_aes_key keyText k
  /\ (forall i, draw_ok (draws i)) /\ steady draws
  /\ demo_remote w (Answer (JDict cd)) (Answer (JDict zd)) post keyText (lit "4") draws = Ok (Some dep)
  /\ verifyDEP w (load dep) ks (Some k) (new_cluster B_unique) None = (cl, Some (NoRestoreReceipt (lit "00003"))).
Proof. exact remote_back. Qed.
Print Assumptions C73_demo_refuted.
