(** Receipts signed by a service. *)
From Coq Require Import Floats.SpecFloat Lia.
From Verif Require Import PyBase World Codec PyFloat PyTime Algo Receipt SpecReceipt SpecKeys Json ListFacts Pem KeyStore VerifyReceipt State DepParser Verify DepExport
  SpecDep SpecCluster SpecExport CashReg SpecCashReg ReceiptFacts CashRegFacts CashRegSeq Demo SpecDemo DemoFacts Remote SpecRemote.
Open Scope N_scope.
Open Scope py_scope.

Lemma issue_is w g p q : issue w g p q = issue_with w g p (sys_zda (q_sys q)) (sys_serial (q_sys q)) (sys_sign w (q_sys q)) q.
Proof. reflexivity. Qed.
Lemma issue_device w g p z n sign s q : issue_with w g p z n sign (on_device s q) = issue_with w g p z n sign q.
Proof. reflexivity. Qed.

Lemma issue_ext w g p z n sign sign' q g' r : (forall data jws, sign data = Ok jws -> sign' data = Ok jws) ->
  issue_with w g p z n sign q = (g', Ok r) -> issue_with w g p z n sign' q = (g', Ok r).
Proof.
  intros X. unfold issue_with.
  match goal with |- context [match ?a with Ok _ => _ | Err _ => _ end = (g', Ok r) -> _] => destruct a as [rec|e]; [|discriminate] end.
  match goal with |- context [match ?a with Ok _ => _ | Err _ => _ end = (g', Ok r) -> _] => destruct a as [c|e]; [|discriminate] end.
  cbv zeta. match goal with |- context [bind ?a _] => destruct a as [tc|e]; [|discriminate] end. cbn [bind].
  match goal with |- context [bind (r1_chain ?a ?b ?c) _] => destruct (r1_chain a b c) as [pc|e]; [|discriminate] end. cbn [bind].
  match goal with |- context [bind (toPayloadString ?a ?b) _] => destruct (toPayloadString a b) as [pl|e]; [|discriminate] end. cbn [bind].
  destruct (sign pl) as [jws|e] eqn:S; [|discriminate]. rewrite (X _ _ S). auto.
Qed.

Lemma remote_signs w d priv up post data jws : rm_algo d = lit "ES256" -> serves w priv up post ->
  sys_sign w (local_device d priv up) data = Ok jws -> remote_sign w d post data = Ok jws.
Proof.
  intros A S H. unfold remote_sign. rewrite A, str_eqb_refl. destruct up; cbn [local_device serves] in *.
  - cbn [sys_sign] in H. apply bind_Ok in H as (head & Hh & H). apply bind_Ok in H as (sig & Hs & H). apply bind_Ok in H as (p & Hp & H). apply Ok_inj in H.
    unfold r1_sign, jws_input in Hs. rewrite Hh in Hs. cbn [bind] in Hs. rewrite Hp in Hs. cbn [bind] in Hs. apply Ok_inj in Hs.
    destruct (S data jws) as (dd & -> & G).
    + exists p. split; [exact Hp|]. cbv zeta. replace (lit "{""alg"":""ES256""}") with head by (vm_compute in Hh; apply Ok_inj in Hh; subst; reflexivity).
      rewrite <- H, <- Hs. now rewrite <- !app_assoc.
    + cbn [text_member]. now rewrite G.
  - now rewrite S.
Qed.

(** A request, whether the service can be reached, and its reply *)
Definition local_requests (d : remote) (priv : privkey) (l : list (request * bool * (str -> reply))) : list request :=
  map (fun x => on_device (local_device d priv (snd (fst x))) (fst (fst x))) l.
Definition remote_requests (l : list (request * bool * (str -> reply))) : list (request * (str -> reply)) :=
  map (fun x => (fst (fst x), snd x)) l.

Lemma remote_same w d priv up post g q g' r : rm_algo d = lit "ES256" -> serves w priv up post ->
  issue w g (lit "R1") (on_device (local_device d priv up) q) = (g', Ok r) -> remote_issue w g d post q = (g', Ok r).
Proof.
  intros A S H. rewrite issue_is, issue_device in H. unfold remote_issue.
  assert (sys_zda (local_device d priv up) = rm_zda d /\ sys_serial (local_device d priv up) = rm_serial d) as [E1 E2] by (destruct up; split; reflexivity).
  cbn [on_device q_sys] in H. rewrite E1, E2 in H. eapply issue_ext; [|exact H]. intros data jws. now apply remote_signs.
Qed.

Lemma remote_all_same w d priv : rm_algo d = lit "ES256" -> forall l g g' rs, Forall (fun x => serves w priv (snd (fst x)) (snd x)) l ->
  issue_all w g (local_requests d priv l) = (g', Ok rs) -> remote_all w g d (remote_requests l) = (g', Ok rs).
Proof.
  intros A. induction l as [|[[q up] post] l IH]; intros g g' rs F H; [exact H|]. apply Forall_cons_iff in F as [S F]. cbn [fst snd] in S.
  cbn [local_requests remote_requests map fst snd] in *. fold (local_requests d priv l) in H. fold (remote_requests l). cbn [issue_all] in H. cbn [remote_all].
  destruct (issue w g (lit "R1") (on_device (local_device d priv up) q)) as [g1 [r|e]] eqn:I; [|discriminate]. rewrite (remote_same _ _ _ _ _ _ _ _ _ A S I).
  destruct (issue_all w g1 (local_requests d priv l)) as [g2 [rest|e]] eqn:I2; [|discriminate]. rewrite (IH _ _ _ F I2). exact H.
Qed.

Theorem remote_accepted w ks b key id k size g d priv c chain extra l :
  hash_ok w -> aes_ok w -> pem_ok w -> identifier id -> List.length k = 32%nat -> new_cashreg id None 0 k size = Ok g ->
  key = None \/ key = Some k -> rm_algo d = lit "ES256" -> Forall (fun x => serves w priv (snd (fst x)) (snd x)) l ->
  let bs := [Batch c chain (local_requests d priv l)] in
  batch_certs_loaded w bs -> batches_trusted w ks bs -> extra_ok extra -> l <> [] -> orderly w size b (batch_requests ks bs) ->
  exists g' rs dep reg', remote_all w g d (remote_requests l) = (g', Ok rs) /\ export w ([RGroup rs c chain], None) extra = Ok dep
    /\ verifyDEP w (load dep) ks key (new_cluster b) None = (Cluster [reg'] (fold_left used_add (map (fun x => q_id (fst (fst x))) l) (used_new b)), None)
    /\ requests_turnover (local_requests d priv l) (cr_counter g') /\ s_last reg' = cr_last g' /\ (key <> None -> s_counter reg' = cr_counter g').
Proof.
  intros HO AO PO I K Ng Hk A F bs Lo T X Ne O.
  assert (batch_requests ks bs = map (fun q => (q, verifier_of ks c)) (local_requests d priv l)) as E.
  { unfold bs, batch_requests. cbn [flat_map b_cert b_requests]. apply app_nil_r. }
  destruct (register_accepted w ks b key id k size g bs extra HO AO PO I K Ng Hk Lo T X) as (g' & gs & dep & reg & A1 & A2 & A3 & A4 & A5 & A6); [|exact O|].
  { rewrite E. intros H. apply Ne. unfold local_requests in H. rewrite map_map in H. now apply map_eq_nil in H. }
  unfold bs in A1. cbn [issue_groups b_requests b_cert b_chain] in A1.
  destruct (issue_all w g (local_requests d priv l)) as [g1 [rs|e]] eqn:IA; [|discriminate]. cbn [bind] in A1. injection A1 as <- <-.
  exists g1, rs, dep, reg. split; [now apply (remote_all_same w d priv A l g)|]. split; [exact A2|]. rewrite E in A3, A4. rewrite !map_map in A3, A4. cbn [fst] in A3, A4. unfold local_requests in A3. rewrite map_map in A3.
  split; [exact A3|]. split; [|auto]. rewrite map_id in A4. exact A4.
Qed.

(** ** Whatever the service replies *)

Lemma signed_fields rec h s r : sign_receipt rec h s = Ok r ->
  r_zda r = r_zda rec /\ r_registerId r = r_registerId rec /\ r_receiptId r = r_receiptId rec /\ r_dateTimeStr r = r_dateTimeStr rec
  /\ r_sumAStr r = r_sumAStr rec /\ r_sumBStr r = r_sumBStr rec /\ r_sumCStr r = r_sumCStr rec /\ r_sumDStr r = r_sumDStr rec /\ r_sumEStr r = r_sumEStr rec
  /\ r_encTC r = r_encTC rec /\ r_certSerial r = r_certSerial rec /\ r_previousChain r = r_previousChain rec /\ r_sig r = Some (h, s).
Proof.
  unfold sign_receipt. destruct (negb _); [|discriminate]. intros H. apply bind_Ok in H as (x & _ & H). apply Ok_inj in H. subst r. now repeat split.
Qed.

Theorem remote_fields w g d post q g' r : remote_issue w g d post q = (g', Ok r) ->
  r_zda r = rm_zda d /\ r_registerId r = cr_id g /\ r_receiptId r = q_id q /\ r_dateTimeStr r = strftime (q_time q)
  /\ [r_sumAStr r; r_sumBStr r; r_sumCStr r; r_sumDStr r; r_sumEStr r] = map fmt_sum [q_a q; q_b q; q_c q; q_d q; q_e q]
  /\ r_certSerial r = rm_serial d
  /\ exists payload jws h p s, toPayloadString r (lit "R1") = Ok payload /\ remote_sign w d post payload = Ok jws
     /\ jws = h ++ [c_dot] ++ p ++ [c_dot] ++ s /\ option_map snd (r_sig r) = Some s /\ cr_last g' = Some jws.
Proof.
  unfold remote_issue, issue_with. set (known := known_alg (lit "R1")). destruct known; [|discriminate].
  destruct (mk_receipt _ _ _ _ _ _ _ _ _ _ _ _ _) as [rec|e] eqn:M; [|discriminate].
  match goal with |- context [match ?a with Ok _ => _ | Err _ => _ end = (g', Ok r) -> _] => destruct a as [c|e]; [|discriminate] end.
  cbv zeta. match goal with |- context [bind ?a _] => destruct a as [tc|e]; [|discriminate] end. cbn [bind].
  match goal with |- context [bind (r1_chain ?a ?b ?c) _] => destruct (r1_chain a b c) as [pc|e]; [|discriminate] end. cbn [bind].
  set (rec' := set_previousChain _ _). destruct (toPayloadString rec' (lit "R1")) as [pl|e] eqn:P; [|discriminate]. cbn [bind].
  destruct (remote_sign w d post pl) as [jws|e] eqn:S; [|discriminate]. cbn [bind]. intros H. injection H as <- H.
  assert (r_zda rec = rm_zda d /\ r_registerId rec = cr_id g /\ r_receiptId rec = q_id q /\ r_dateTimeStr rec = strftime (q_time q)
    /\ r_sumAStr rec = fmt_sum (q_a q) /\ r_sumBStr rec = fmt_sum (q_b q) /\ r_sumCStr rec = fmt_sum (q_c q) /\ r_sumDStr rec = fmt_sum (q_d q)
    /\ r_sumEStr rec = fmt_sum (q_e q) /\ r_certSerial rec = rm_serial d) as (E1 & E2 & E3 & E4 & E5 & E6 & E7 & E8 & E9 & E10).
  { clear -M. pose (f := Fields (rm_zda d) (cr_id g) (q_id q) (strftime (q_time q)) (fmt_sum (q_a q)) (fmt_sum (q_b q)) (fmt_sum (q_c q)) (fmt_sum (q_d q)) (fmt_sum (q_e q)) [] (rm_serial d) []).
    change (mk_of w f = Ok rec) in M. apply mk_receipt_spec in M as [_ (R & _)]. unfold f, r_fields in R.
    injection R as -> -> -> -> -> -> -> -> -> _ -> _. now repeat split. }
  unfold sign_parts in H. pose proof (join_split c_dot jws) as J. destruct (split_char c_dot jws) as [|h [|p [|s [|? ?]]]] eqn:Sp; try discriminate H.
  apply bind_Ok in H as (hb & Hb & H). apply bind_Ok in H as (header & Hh & H).
  pose proof (signed_fields _ _ _ _ H) as (F1 & F2 & F3 & F4 & F5 & F6 & F7 & F8 & F9 & F10 & F11 & F12 & F13).
  subst rec'. cbn [set_previousChain set_tc r_zda r_registerId r_receiptId r_dateTimeStr r_sumAStr r_sumBStr r_sumCStr r_sumDStr r_sumEStr r_encTC r_certSerial r_previousChain r_sig] in *.
  rewrite F1, F2, F3, F4, F5, F6, F7, F8, F9, F11, E1, E2, E3, E4, E5, E6, E7, E8, E9, E10. cbn [map]. repeat (split; [reflexivity|]).
  exists pl, jws, h, p, s. split; [|split; [exact S|split; [|split; [now rewrite F13|reflexivity]]]].
  - rewrite <- P. unfold toPayloadString, payload_segments. rewrite F1, F2, F3, F4, F5, F6, F7, F8, F9, F10, F11, F12. reflexivity.
  - rewrite <- J. reflexivity.
Qed.

(** ** The demo program with the service *)

Section demo.
Variables (w : world) (ks : keystore) (b : backend) (d : remote) (priv : privkey) (m : nat) (draws : nat -> draw).
Hypothesis (M : (1 <= m)%nat).
Let s0 := SignatureSystemBroken (rm_zda d) (rm_serial d).
Definition outage_request (i : nat) : request := on_device (local_device d priv (i <? m)%nat) (demo_request s0 draws i).

Lemma outage_parts i : q_sys (outage_request i) = local_device d priv (i <? m)%nat /\ q_time (outage_request i) = d_time (draws i)
  /\ q_id (outage_request i) = pad5 (N.of_nat i).
Proof.
  unfold outage_request. cbn [on_device q_sys q_time q_id]. split; [reflexivity|]. split; apply request_parts.
Qed.
Lemma on_device_turnover s l z : requests_turnover (map (fun i => on_device (s i) (demo_request s0 draws i)) l) z -> requests_turnover (map (demo_request s0 draws) l) z.
Proof.
  intros (cs & F & E). exists cs. split; [|exact E]. clear E. revert cs F. induction l as [|i l IH]; intros cs F; inversion F; subst; constructor; auto.
Qed.

Lemma outage_orderly n : (1 <= n)%nat -> (Z.of_nat n <= 10 ^ 13)%Z -> (forall i, draw_ok (draws i)) -> steady draws ->
  (forall up, device_ok w (local_device d priv up)) -> device_known w (fromKeyStore ks) (local_device d priv true) ->
  orderly w 8 b (batch_requests ks [Batch None [] (map outage_request (List.seq 0 n))]).
Proof using M.
  intros L1 L2 D C O K0.
  assert (forall up, device_known w (fromKeyStore ks) (local_device d priv up)) as K.
  { intros [|]; [exact K0|]. destruct K0 as [K1 _]. split; [exact K1|]. intros z n0 p H. discriminate H. }
  assert (map fst (batch_requests ks [Batch None [] (map outage_request (List.seq 0 n))]) = map outage_request (List.seq 0 n)) as E.
  { unfold batch_requests. cbn [flat_map b_cert b_requests]. rewrite app_nil_r, map_map. cbn [fst]. apply map_id. }
  unfold orderly. cbv zeta. rewrite E. split; [|split; [|split; [|split; [|split]]]].
  - unfold batch_requests. cbn [flat_map b_cert b_requests]. rewrite app_nil_r. apply Forall_map. cbn [fst snd verifier_of].
    apply Forall_map, Forall_forall. intros i _. destruct (outage_parts i) as (Es & Et & Ei).
    unfold request_ok. rewrite Es, Et, Ei. destruct (D i) as (V & Y & _). split; [apply pad5_identifier|]. split; [exact V|]. split; [exact Y|].
    split; [destruct (demo_request_total s0 draws i (D i)) as (z & H & _); exists z; exact H|]. split; auto.
  - intros q r X. destruct n as [|n]; [lia|]. cbn [List.seq map] in X. injection X as <- _. unfold outage_request. replace (0 <? m)%nat with true by lia.
    split; [do 3 eexists; reflexivity|]. split; [|split; reflexivity]. unfold zero_request, is_zero. cbn [demo_request demo_first on_device q_a q_b q_c q_d q_e].
    repeat (constructor; [eexists; reflexivity|]). constructor.
  - intros l1 p q l2 X. pose proof X as X'. apply map_seq_at in X' as (Ep & _ & _).
    change (l1 ++ p :: q :: l2) with (l1 ++ [p] ++ q :: l2) in X. rewrite app_assoc in X. apply map_seq_at in X as (Eq & _ & _). subst p q.
    rewrite app_length. cbn [List.length Nat.add]. unfold request_closed.
    destruct (outage_parts (List.length l1)) as (-> & -> & _). destruct (outage_parts (List.length l1 + 1)) as (-> & -> & _).
    split; [|rewrite Nat.add_1_r; apply C]. now destruct (_ <? m)%nat, (_ <? m)%nat.
  - intros l1 o p q l2 X NW W. exfalso. apply NW. pose proof X as X'. apply map_seq_at in X' as (-> & _ & _).
    change (l1 ++ outage_request (0 + List.length l1) :: p :: q :: l2) with (l1 ++ [outage_request (0 + List.length l1)] ++ p :: q :: l2) in X.
    rewrite app_assoc in X. apply map_seq_at in X as (-> & _ & _). destruct W as (z & n1 & p1 & W). destruct (outage_parts (0 + List.length (l1 ++ [outage_request (0 + List.length l1)]))) as (E1 & _).
    rewrite E1 in W. rewrite app_length in W. cbn [List.length Nat.add] in W. unfold local_device in W. destruct (Nat.ltb_spec (List.length l1 + 1) m) as [L|L]; [|discriminate W].
    unfold works. destruct (outage_parts (0 + List.length l1)) as (-> & _). cbn [Nat.add]. replace (List.length l1 <? m)%nat with true by lia. do 3 eexists. reflexivity.
  - intros l1 q l2 z X _ T. apply map_seq_at in X as (-> & Ll & El).
    remember (List.length l1) as k. rewrite El in T. assert (map outage_request (List.seq 0 k) ++ [outage_request (0 + k)] = map outage_request (List.seq 0 (k + 1))) as Y by (rewrite seq_app, map_app; reflexivity).
    rewrite Y in T. apply on_device_turnover, demo_turnover in T; [|exact D]. rewrite seq_length in T. unfold counter_fits.
    change (8 * Z.of_nat 8 - 1)%Z with 63%Z. change (2 ^ 63)%Z with 9223372036854775808%Z. change (10 ^ 13)%Z with 10000000000000%Z in L2. lia.
  - rewrite map_map. rewrite (map_ext _ (fun i => pad5 (N.of_nat i))); [apply demo_ids|]. intros i. apply outage_parts.
Qed.
End demo.

Theorem demo_remote_accepted w ks b key cd zd d post keyText numText draws n k priv m : hash_ok w -> aes_ok w -> pem_ok w ->
  dict_get cd (lit "ZertifikatsseriennummerHex") = Some (JStr (rm_serial d)) -> dict_get cd (lit "alg") = Some (JStr (lit "ES256")) ->
  dict_get zd (lit "zdaid") = Some (JStr (rm_zda d)) ->
  device_ok w (local_device d priv true) -> device_known w (fromKeyStore ks) (local_device d priv true) ->
  (1 <= m)%nat -> (forall i, serves w priv (i <? m)%nat (post i)) ->
  demo_aes_key keyText k -> py_int w 10 numText = Some n -> (1 <= n <= 10 ^ 13)%Z ->
  (forall i, draw_ok (draws i)) -> steady draws -> key = None \/ key = Some k ->
  exists dep reg ids, demo_remote w (Answer (JDict cd)) (Answer (JDict zd)) post keyText numText draws = Ok (Some dep)
    /\ verifyDEP w (load dep) ks key (new_cluster b) None = (Cluster [reg] (fold_left used_add ids (used_new b)), None)
    /\ List.length ids = Z.to_nat n /\ forall i id, nth_error ids i = Some id -> numbered_id i id.
Proof.
  intros HO AO PO G1 G2 G3 O K M S (kb & EK1 & EK2 & LK) PN [B1 B2] D C HK.
  pose (d' := Remote (rm_zda d) (rm_serial d) (lit "ES256")).
  assert (forall up, local_device d' priv up = local_device d priv up) as LD by (intros [|]; reflexivity).
  unfold demo_remote, open_remote. cbn [replied bind text_member]. rewrite G1. cbn [bind]. rewrite G2. cbn [bind]. rewrite G3. cbn [bind]. fold d'. rewrite PN. cbn [bind].
  replace (n <? 1)%Z with false by lia. rewrite EK1. cbn [bind]. rewrite EK2. cbn [bind].
  assert (1 <= Z.to_nat n)%nat as L1 by lia. change (rm_zda d') with (rm_zda d). change (rm_serial d') with (rm_serial d).
  set (s0 := SignatureSystemBroken (rm_zda d) (rm_serial d)).
  pose (l := map (fun i => (demo_request s0 draws i, (i <? m)%nat, post i)) (List.seq 0 (Z.to_nat n))).
  assert (remote_requests l = combine (demo_requests s0 (Z.to_nat n) draws) (map post (List.seq 0 (Z.to_nat n)))) as E1.
  { rewrite demo_requests_map by exact L1. unfold remote_requests, l. rewrite map_map. cbn [fst snd]. generalize (List.seq 0 (Z.to_nat n)). induction l0 as [|i l0 IH]; [reflexivity|]. cbn [map combine]. now rewrite IH. }
  assert (local_requests d' priv l = map (outage_request d priv m draws) (List.seq 0 (Z.to_nat n))) as E2.
  { unfold local_requests, l. rewrite map_map. apply map_ext. intros i. cbn [fst snd]. now rewrite LD. }
  assert (Forall (fun x => serves w priv (snd (fst x)) (snd x)) l) as F.
  { apply Forall_map, Forall_forall. intros i _. apply S. }
  pose proof (outage_orderly w ks b d priv m draws M (Z.to_nat n) L1 ltac:(lia) D C ltac:(intros [|]; [exact O|exact O]) K) as OR.
  destruct (remote_accepted w ks b key (lit "PIGGYBANK-007") k 8 (CashReg (lit "PIGGYBANK-007") None 0 k 8) d' priv None [] [] l HO AO PO)
    as (g' & rs & dep & reg & A1 & A2 & A3 & _); try assumption; try reflexivity.
  - split; [discriminate|]. split; [vm_compute; intuition discriminate|]. apply encodes_ascii. repeat constructor.
  - intros x c [<-|[]] [X|X]; [discriminate|destruct X].
  - rewrite E2. right. exists (Batch None [] (map (outage_request d priv m draws) (List.seq 0 (Z.to_nat n)))). split; [|reflexivity]. cbn [filter b_requests]. destruct (Z.to_nat n) as [|n']; [lia|]. reflexivity.
  - constructor.
  - unfold l. destruct (Z.to_nat n) as [|n']; [lia|]. discriminate.
  - rewrite E2. exact OR.
  - change (new_cashreg (lit "PIGGYBANK-007") None 0 k 8) with (Ok (CashReg (lit "PIGGYBANK-007") None 0 k 8)). cbn [bind]. change (seq 0 (Z.to_nat n)) with (List.seq 0 (Z.to_nat n)).
    rewrite <- E1. rewrite A1. cbn [snd bind]. unfold single_group. rewrite A2. cbn [bind].
    exists dep, reg, (map (fun i => pad5 (N.of_nat i)) (List.seq 0 (Z.to_nat n))). split; [reflexivity|].
    assert (map (fun x => q_id (fst (fst x))) l = map (fun i => pad5 (N.of_nat i)) (List.seq 0 (Z.to_nat n))) as EI.
    { unfold l. rewrite map_map. apply map_ext. intros i. cbn [fst]. apply request_parts. }
    rewrite EI in A3. split; [exact A3|]. rewrite map_length, seq_length. split; [reflexivity|].
    intros i id X. rewrite nth_error_map in X. destruct (nth_error (List.seq 0 (Z.to_nat n)) i) as [j|] eqn:Ej; [|discriminate].
    cbn [option_map] in X. apply Some_inj in X. subst id.
    assert (j = i); [|subst; apply pad5_numbered]. assert (i < Z.to_nat n)%nat as Li by (rewrite <- (seq_length (Z.to_nat n) 0); apply nth_error_Some; now rewrite Ej).
    rewrite (nth_error_nth' _ 0%nat) in Ej by (now rewrite seq_length). apply Some_inj in Ej. rewrite seq_nth in Ej by exact Li. lia.
Qed.
