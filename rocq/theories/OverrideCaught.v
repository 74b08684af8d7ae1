(** Receipts with overrides that break a rule are found out. *)
From Coq Require Import Lia ZifyClasses ZifyN ZifyNat ZifyBool.
From Coq Require Import Floats.SpecFloat.
From Verif Require Import PyBase World ListFacts Codec CodecFacts PyFloat PyTime Algo AlgoFacts Receipt SpecReceipt FieldFacts ReceiptFacts RoundTrip Json KeyStore State
  DepBase DepParser Verify DepExport VerifyReceipt VerifyFacts SpecDep SpecCluster SpecDoc SpecDiag SeqFacts StepFacts DepFacts AcceptFacts DiagFacts CaughtFacts
  FloatFacts AmountFacts SpecAmount CashReg SpecCashReg CashRegText CashRegFacts CashRegSeq Override SpecOverride OverrideFacts.
Open Scope N_scope.
Open Scope py_scope.

Lemma key_unique w v s r k k' : proper v -> reads w s r -> key_of w v r k -> key_of w v r k' -> k = k'.
Proof.
  intros Pv R K A. destruct (choose_key_spec w v r s Pv R) as [(_ & o & _ & Ko)|(C & _)].
  - apply Ko in K, A. rewrite K in A. now apply Some_inj in A.
  - unfold key_of in K, A. destruct (v_cert v) as [c|] eqn:V; [congruence|]. exfalso. apply C. intros c Ec. congruence.
Qed.

(** If a receipt would have been in order but for one thing, then this is reported. *)
Lemma only_fault w key reg u p i i0 E : proper (i_ver i) -> reads w (i_jws i) (i_rec i) ->
  step_ok w key None reg u p i0 ->
  let id := r_receiptId (i_rec i) in
  (authentic w (i_ver i) (i_rec i)
   \/ (E = CertSerialMismatch id /\ (unsigned (i_rec i) \/ exists k, key_of w (i_ver i) (i_rec i) k /\ signed_by w k (i_rec i)))
   \/ (E = NoPublicKey id /\ cert_fits w (i_ver i) (i_rec i) /\ forall k, ~ key_of w (i_ver i) (i_rec i) k)
   \/ (E = InvalidSignature id /\ cert_fits w (i_ver i) (i_rec i) /\ exists k, key_of w (i_ver i) (i_rec i) k)) ->
  (unsigned (i_rec i) <-> unsigned (i_rec i0)) -> (zero (i_rec i) <-> zero (i_rec i0)) ->
  (training (i_rec i) <-> training (i_rec i0)) -> (cancellation (i_rec i) <-> cancellation (i_rec i0)) ->
  (id = r_receiptId (i_rec i0) \/ (E = DuplicateReceiptId id /\ exists l, u = Unique l)) ->
  (r_registerId (i_rec i) = r_registerId (i_rec i0) \/ (p <> None /\ E = ChangingRegisterId id)) ->
  ((closed (i_rec i) <-> closed (i_rec i0)) \/ E = ChangingSystemType id) ->
  (r_dateTime (i_rec i) = r_dateTime (i_rec i0) \/ E = DecreasingDate id) ->
  (r_previousChain (i_rec i) = r_previousChain (i_rec i0)
   \/ (starts reg p i /\ E = InvalidChainingOnInitial id) \/ (~ starts reg p i /\ E = ChainingError id)) ->
  (forall k, key = Some k -> ~ training (i_rec i) -> exists z, cents (i_rec i) = Ok z
     /\ (E = InvalidTurnoverCounter id \/ (standard (i_rec i) -> decrypts w k (i_rec i) (s_counter reg + z)))) ->
  forall e, fault w key None reg u p i e -> e = E.
Proof.
  intros Pv R (A0 & St & Re & Co & q & Q & CQ & Ch & U) id Au Hu Hz Ht Hc Hid Hreg Hcl Hda Hch Hco e F.
  assert (plain_zero (i_rec i0) -> plain_zero (i_rec i)) as PZ. { unfold plain_zero, standard. rewrite Hu, Hz, Ht, Hc. tauto. }
  destruct F as [H|NU NK|k NU K NS|P N NP|P Un|P NZ|P NS|s P X NE O|q' Q' T|q' e Q' T _|s q' Q' D|s q' Q' D|s q' Q' D
                |q' Q' C NSt|q' Q' C Str Ab|q' Q' C Str Ab|k K NT L|e K NT C _|k z z' K S C D NZ]; fold id.
  - destruct Au as [[X _]|[[X _]|[(_ & X & _)|(_ & X & _)]]]; [contradiction|now symmetry|contradiction|contradiction].
  - destruct Au as [(_ & [X|(k & X & _)])|[[_ [X|(k & X & _)]]|[(X & _)|(_ & _ & k & X)]]]; try contradiction; try (now apply NK in X). now symmetry.
  - destruct Au as [(_ & [X|(k' & X & S)])|[[_ [X|(k' & X & S)]]|[(_ & _ & X)|(X & _)]]]; try contradiction.
    + rewrite (key_unique w _ _ _ _ _ Pv R K X) in NS. contradiction.
    + rewrite (key_unique w _ _ _ _ _ Pv R K X) in NS. contradiction.
    + now apply X in K.
    + now symmetry.
  - exfalso. now apply NP, PZ, Re.
  - exfalso. destruct (St P) as (X & _). apply PZ in X. now destruct X.
  - exfalso. destruct (St P) as (X & _). apply PZ in X. destruct X as (_ & X & _). contradiction.
  - exfalso. destruct (St P) as (X & _). apply PZ in X. destruct X as (_ & _ & X). contradiction.
  - discriminate X.
  - destruct Hid as [Hid|(Hid & _)]; [|now symmetry]. exfalso. apply (taken_unchecked _ _ _ T). fold id. rewrite Hid.
    apply U. now rewrite (effective_fun _ _ _ _ _ Q Q').
  - exfalso. destruct Hid as [Hid|(_ & l & ->)]; [|destruct T as (? & ? & T & _); discriminate T].
    apply (unordered_unchecked _ _ _ T). fold id. rewrite Hid. apply U. now rewrite (effective_fun _ _ _ _ _ Q Q').
  - destruct Hreg as [Hreg|(_ & X)]; [|now symmetry]. destruct (CQ s q') as (X & _); [cbn [fst]; now apply (effective_fun w None p)|].
    cbn [snd] in X. congruence.
  - destruct Hcl as [Hcl|X]; [|now symmetry]. destruct (CQ s q') as (_ & X & _); [cbn [fst]; now apply (effective_fun w None p)|].
    cbn [snd] in X. exfalso. apply D. now rewrite Hcl.
  - destruct Hda as [Hda|X]; [|now symmetry]. destruct (CQ s q') as (_ & _ & X); [cbn [fst]; now apply (effective_fun w None p)|].
    cbn [snd] in X. rewrite Hda in D. contradiction.
  - destruct Hch as [Hch|[(X & _)|(_ & X)]]; [|contradiction|now symmetry]. exfalso. apply C. unfold chain_holds, chained in *.
    rewrite (effective_fun _ _ _ _ _ Q' Q). cbn [fst snd] in *. rewrite Hch. destruct (truthy (State.s_chain reg)); [exact Ch|]. cbn [fst snd] in *.
    destruct q as [[a b]|]; [exact Ch|]. destruct Hreg as [->|(X & _)]; [exact Ch|]. destruct p; [discriminate Q|congruence].
  - destruct Hch as [Hch|[(_ & X)|(X & _)]]; [|now symmetry|contradiction]. exfalso. apply C. unfold chain_holds, chained in *.
    rewrite (effective_fun _ _ _ _ _ Q' Q). cbn [fst snd] in *. rewrite Hch. destruct (truthy (State.s_chain reg)); [exact Ch|]. cbn [fst snd] in *.
    destruct q as [[a b]|]; [exact Ch|]. destruct Hreg as [->|(X & _)]; [exact Ch|]. destruct p; [discriminate Q|congruence].
  - exfalso. apply Ab. now left.
  - exfalso. rewrite Ht in NT. destruct (Co k K NT) as [X _]. contradiction.
  - exfalso. destruct key as [k|]; [|congruence]. destruct (Hco k eq_refl NT) as (z & X & _). now apply (C z).
  - destruct (Hco k K (proj1 S)) as (z0 & X & [Y|Y]); [now symmetry|]. exfalso. rewrite C in X. apply Ok_inj in X. subst z0.
    specialize (Y S). unfold decrypts in *. rewrite D in Y. apply Ok_inj in Y. contradiction.
Qed.

Lemma run_snoc w q v z jws r : request_total q z -> forall l g items g', run w g l items g' -> issued w g' v q z jws r ->
  run w g (l ++ [(q, v)]) (items ++ [Item jws r v]) (next_reg g' q z jws).
Proof.
  intros T. induction l as [|[q0 v0] l IH]; intros g [|i items] g' R I; try contradiction.
  - cbn in R. subst g'. cbn [app run i_ver i_jws i_rec]. split; [reflexivity|]. exists z. auto.
  - destruct R as (V & z0 & T0 & I0 & R). cbn [app run]. split; [exact V|]. exists z0. auto.
Qed.

Lemma orderly_prefix_ok w size b l x : orderly w size b (l ++ [x]) -> Forall (fun qv => request_ok w (snd qv) (fst qv)) l /\ request_ok w (snd x) (fst x).
Proof. intros (Q & _). apply Forall_app in Q as [Q1 Q2]. split; [exact Q1|exact (Forall_inv Q2)]. Qed.

Lemma made_authentic w v g q z pcb jws r : made w g q z pcb jws r -> device_known w v (q_sys q) -> authentic w v r.
Proof.
  intros M Dk. split.
  - intros c Ec. destruct Dk as [Dk _]. unfold closed. rewrite (md_zda _ _ _ _ _ _ _ M), (md_serial _ _ _ _ _ _ _ M). exact (Dk c Ec).
  - destruct (q_sys q) as [zz n|zz n priv] eqn:Es.
    + left. apply (md_unsigned _ _ _ _ _ _ _ M). unfold works. intros (? & ? & ? & E). congruence.
    + right. destruct Dk as [_ Dk]. destruct (Dk zz n priv eq_refl) as (k & P & Hk). exists k. split; [|exact (md_signed _ _ _ _ _ _ _ M _ _ _ _ Es P)].
      unfold key_of, closed. rewrite (md_zda _ _ _ _ _ _ _ M), (md_serial _ _ _ _ _ _ _ M), Es. destruct (v_cert v); [exact Hk|].
      destruct Hk as (ks & Ek & H). exists ks. split; [exact Ek|]. exact H.
Qed.

Lemma texts_same w k r rr : r_fields r = r_fields rr -> r_sig r = r_sig rr ->
  (forall v x, key_of w v r x <-> key_of w v rr x) /\ (signed_by w k r <-> signed_by w k rr).
Proof.
  intros F S. assert (r_zda r = r_zda rr /\ r_certSerial r = r_certSerial rr) as [Z C] by (unfold r_fields in F; injection F; auto).
  split; [intros v x; unfold key_of, closed; now rewrite Z, C|]. unfold signed_by, r_signature. now rewrite F, S.
Qed.

Section Place.
Variables (w : world) (b : backend) (key : option bytes) (g : cashreg) (l : list (request * verifier)) (q : request) (v : verifier)
  (items : list item) (t0 : Z) (jws0 : str) (r0 : receipt).
Let reg := after key new_register None items.
Let u := used_after (used_new b) items.
Let p := last_of None items.
Hypothesis Hh : hash_ok w.
Hypothesis Ha : aes_ok w.
Hypothesis G : register_ok g.
Hypothesis Ky : key_given key g.
Hypothesis Q : request_ok w v q.
Hypothesis T : request_total q t0.
Hypothesis Fit : standard_request q -> counter_fits (cr_size g) (counter_after g q t0).
Hypothesis Pv : proper v.
Hypothesis Fi : Forall2 (fits_request w g) l items.
Hypothesis La : cr_last g = option_map fst p.
Hypothesis I0 : issued w g v q t0 jws0 r0.
Variable g2 : cashreg.
Hypothesis E0 : issue w g (lit "R1") q = (g2, Ok r0).
Hypothesis S0 : step_ok w key None reg u p (Item jws0 r0 v).
Hypothesis RS : items <> [] -> s_start reg = option_map i_jws (hd_error items).

Lemma place_none : p = None <-> l = [].
Proof.
  unfold p. rewrite last_of_some. split.
  - intros H. destruct items as [|i r]; [inversion Fi; reflexivity|]. exfalso. destruct (rev (i :: r)) eqn:E; [|discriminate].
    apply (f_equal (@rev item)) in E. rewrite rev_involutive in E. discriminate.
  - intros ->. inversion Fi. reflexivity.
Qed.

Lemma place_some s r : p = Some (s, r) -> exists l' pq pv, l = l' ++ [(pq, pv)]
  /\ r_registerId r = cr_id g /\ r_dateTime r = q_time pq /\ r_zda r = sys_zda (q_sys pq).
Proof.
  unfold p. rewrite last_of_some. destruct (rev items) as [|i m] eqn:E; [discriminate|]. intros [= <- <-].
  assert (items = rev m ++ [i]) as Ei by (rewrite <- (rev_involutive items), E; reflexivity).
  rewrite Ei in Fi. apply Forall2_app_inv_r in Fi as (l1 & l2 & _ & F2 & ->). inversion F2 as [|[pq pv] ? ? ? (g0 & z & Eg & _ & _ & I) F3]; subst.
  inversion F3; subst. exists l1, pq, pv. split; [reflexivity|]. cbn [fst snd] in I. rewrite <- Eg.
  split; [exact (is_register _ _ _ _ _ _ _ I)|]. split; [exact (is_time _ _ _ _ _ _ _ I)|exact (is_zda _ _ _ _ _ _ _ I)].
Qed.

Lemma place_counter k : key = Some k -> standard_request q -> counter_after g q t0 = (s_counter reg + t0)%Z.
Proof.
  intros K Sd. destruct S0 as (_ & _ & _ & Co & _). assert (standard r0) as Sr by now apply (issued_standard _ _ _ _ _ _ _ I0).
  destruct (Co k K (proj1 Sr)) as (_ & z & C & D). cbn [i_rec] in *. rewrite (is_cents _ _ _ _ _ _ _ I0) in C. apply Ok_inj in C. subst z.
  specialize (D Sr). pose proof (is_counter _ _ _ _ _ _ _ I0 Sd) as D'. unfold decrypts in *. rewrite <- (Ky k K), D in D'. now apply Ok_inj in D'.
Qed.

Lemma place_ids x : b = B_unique -> In x (map q_id (map fst l)) -> id_taken w u x /\ exists m, u = Unique m.
Proof.
  intros -> Hx. unfold u, used_after. assert (ids items = map q_id (map fst l)) as ->.
  { clear -Fi. induction Fi as [|[a c] i m m' (g0 & z & _ & _ & _ & I) E IH]; [reflexivity|]. unfold ids in *. cbn [map fst].
    rewrite (IH E), (is_id _ _ _ _ _ _ _ I). reflexivity. }
  clear -Hx. cbn [used_new].
  assert (forall m m', (In x m \/ In x m') -> exists m2, fold_left used_add m (Unique m') = Unique m2 /\ In x m2) as H.
  { induction m as [|y m IH]; intros m' [H|H]; cbn [fold_left].
    - destruct H.
    - eauto.
    - cbn [used_add]. destruct (mem y m') eqn:M; apply IH; destruct H as [->|H]; [right; now apply mem_In|now left|right; apply in_or_app; right; now left|now left].
    - cbn [used_add]. destruct (mem y m'); apply IH; right; [exact H|apply in_or_app; now left]. }
  destruct (H _ [] (or_introl Hx)) as (m2 & E & H2). rewrite E. split; [exact H2|]. eauto.
Qed.

Lemma place_starts t rr : l <> [] -> reads w t rr -> ~ In (r_receiptId rr) (map q_id (map fst l)) -> ~ starts reg p (Item t rr v).
Proof.
  intros NE R NI [H|H]; [now apply place_none in H|]. destruct items as [|i m]; [inversion Fi; subst; congruence|].
  rewrite RS in H by discriminate. cbn [hd_error option_map i_jws] in H. apply Some_inj in H. inversion Fi as [|[a c] ? ? ? (g0 & z & _ & _ & _ & I) E]; subst.
  apply NI. cbn [map fst]. left. rewrite (reads_fun _ _ _ _ R (is_reads _ _ _ _ _ _ _ I)). symmetry. exact (is_id _ _ _ _ _ _ _ I).
Qed.

Definition outcome (t : str) (e : exn) : Prop :=
  exists rr, reads w t rr /\ fault w key None reg u p (Item t rr v) e /\ forall e', fault w key None reg u p (Item t rr v) e' -> e' = e.

Lemma made_outcome g1 q' z pcb t rr E : made w g1 q' z pcb t rr -> cr_key g1 = cr_key g ->
  q_dummy q' = q_dummy q -> q_reversal q' = q_reversal q -> (works q' <-> works q) -> (zero_request q' <-> zero_request q) ->
  (authentic w v rr
   \/ (E = CertSerialMismatch (q_id q') /\ (unsigned rr \/ exists k, key_of w v rr k /\ signed_by w k rr))
   \/ (E = NoPublicKey (q_id q') /\ cert_fits w v rr /\ forall k, ~ key_of w v rr k)) ->
  (q_id q' = q_id q \/ (E = DuplicateReceiptId (q_id q') /\ exists m, u = Unique m)) ->
  (cr_id g1 = cr_id g \/ (p <> None /\ E = ChangingRegisterId (q_id q'))) ->
  ((request_closed q' <-> request_closed q) \/ E = ChangingSystemType (q_id q')) ->
  (q_time q' = q_time q \/ E = DecreasingDate (q_id q')) ->
  (chain_value w (chained_to g) (b64encode pcb) \/ (l = [] /\ E = InvalidChainingOnInitial (q_id q'))
   \/ (l <> [] /\ ~ In (q_id q') (map q_id (map fst l)) /\ E = ChainingError (q_id q'))) ->
  (E = InvalidTurnoverCounter (q_id q') \/ z = t0 /\ cr_counter g1 = counter_after g q t0) ->
  fault w key None reg u p (Item t rr v) E -> outcome t E.
Proof.
  intros M Kg Fd Fr Fw Fz Au Hid Hreg Hcl Hda Hch Hco F. exists rr. split; [exact (md_reads _ _ _ _ _ _ _ M)|]. split; [exact F|].
  pose proof (md_id _ _ _ _ _ _ _ M) as Mi.
  apply (only_fault w key reg u p (Item t rr v) (Item jws0 r0 v) E Pv (md_reads _ _ _ _ _ _ _ M) S0); cbn [i_rec i_ver i_jws]; rewrite ?Mi.
  - destruct Au as [Au|[Au|Au]]; auto.
  - rewrite (md_unsigned _ _ _ _ _ _ _ M), (is_unsigned _ _ _ _ _ _ _ I0). tauto.
  - rewrite (md_zero _ _ _ _ _ _ _ M), (is_zero_iff _ _ _ _ _ _ _ I0). exact Fz.
  - rewrite (md_training _ _ _ _ _ _ _ M), (is_training _ _ _ _ _ _ _ I0), Fd. tauto.
  - rewrite (md_cancellation _ _ _ _ _ _ _ M), (is_cancellation _ _ _ _ _ _ _ I0), Fd, Fr. tauto.
  - rewrite (is_id _ _ _ _ _ _ _ I0). exact Hid.
  - rewrite (md_register _ _ _ _ _ _ _ M), (is_register _ _ _ _ _ _ _ I0). exact Hreg.
  - unfold closed. rewrite (md_zda _ _ _ _ _ _ _ M), (is_zda _ _ _ _ _ _ _ I0). exact Hcl.
  - rewrite (md_time _ _ _ _ _ _ _ M), (is_time _ _ _ _ _ _ _ I0). exact Hda.
  - destruct Hch as [(cb & Ec & Hch)|[(Hl & Hch)|(Hl & Hi & Hch)]].
    + left. rewrite (md_chain _ _ _ _ _ _ _ M). destruct (is_chain _ _ _ _ _ _ _ I0) as (cb' & Ec' & ->). rewrite Ec in Ec'. apply Ok_inj in Ec'. now subst cb'.
    + right. left. split; [|exact Hch]. left. now apply place_none.
    + right. right. split; [|exact Hch]. apply place_starts; [exact Hl|exact (md_reads _ _ _ _ _ _ _ M)|now rewrite Mi].
  - intros k K NT. exists z. split; [exact (md_cents _ _ _ _ _ _ _ M)|]. destruct Hco as [->|(-> & Hc)]; [now left|]. right. intros Sd.
    assert (standard_request q') as Sq. { unfold standard, standard_request in *. rewrite (md_training _ _ _ _ _ _ _ M), (md_cancellation _ _ _ _ _ _ _ M) in Sd. destruct (q_dummy q'), (q_reversal q'); intuition congruence. }
    assert (standard_request q) as Sq0. { unfold standard_request in *. now rewrite <- Fd, <- Fr. }
    rewrite <- (place_counter k K Sq0), <- Hc, (Ky k K), <- Kg. exact (md_counter _ _ _ _ _ _ _ M Sq).
Qed.

Lemma regular_chain : exists pc, is_bytes pc /\ chain_value w (chained_to g) (b64encode pc).
Proof.
  destruct (is_chain _ _ _ _ _ _ _ I0) as (cb & E & _). exists (firstn 8 (w_sha256 w cb)). split; [|now exists cb].
  apply firstn_bytes. exact (proj2 (Hh cb)).
Qed.

Lemma over_case o q' c z pcb g' r t : issue_over w g (lit "R1") o q = (g', Ok r) -> toJWSString r (lit "R1") = Ok t ->
  sound w q' -> amounts_to o q q' -> request_total q' z -> c = given (ov_counter o) (counter_after g q t0) ->
  register_ok (register_of o g c) -> (standard_request q -> counter_fits (cr_size (register_of o g c)) c) ->
  match ov_chain o with Some x => x = b64encode pcb /\ is_bytes pcb /\ List.length pcb = 8%nat
  | None => chain_value w (chained_to (register_of o g c)) (b64encode pcb) /\ is_bytes pcb end ->
  exists rr, r_fields r = r_fields rr /\ r_sig r = r_sig rr /\ made w (register_of o g c) q' z pcb t rr.
Proof.
  intros E J So Am Tz Ec G' F' C'. destruct (over_ok w v g q o q' c t0 z pcb Hh Ha Q T So Am Tz Ec G G' F' C') as (jws & r1 & rr & E1 & F1 & S1 & J1 & M).
  rewrite E in E1. injection E1 as _ <-. rewrite J in J1. apply Ok_inj in J1. subst jws. exists rr. auto.
Qed.

Lemma zero_with_sys s : zero_request (with_sys q s) <-> zero_request q.
Proof. reflexivity. Qed.
Lemma works_renamed a n : works (with_sys q (renamed a n (q_sys q))) <-> works q.
Proof. unfold works, with_sys, renamed. cbn [q_sys]. destruct (q_sys q); split; intros (? & ? & ? & E); try discriminate E; eauto. Qed.

Local Ltac amount := unfold amounts_to; cbn; repeat (split; [first [reflexivity|symmetry; apply renamed_same]|]); reflexivity.

Lemma injected_outcome o g' r tx e : issue_over w g (lit "R1") o q = (g', Ok r) -> toJWSString r (lit "R1") = Ok tx ->
  injected w b key g (map fst l) q v r o e -> outcome tx e.
Proof.
  intros Eo J X. destruct regular_chain as (pc & Bpc & Cpc). pose proof Q as (Qi & Qd & Qy & Qt & Qo & Qk). pose proof (request_sound w v q Q) as So.
  assert (l <> [] -> exists s pr, p = Some (s, pr)) as Some_p.
  { intros Nl. assert (forall o, p = o -> exists s pr, o = Some (s, pr)) as H; [|exact (H _ eq_refl)].
    intros [[s pr]|] Ep; [eauto|]. exfalso. apply Nl. now apply place_none. }
  assert (key <> None -> exists k, key = Some k) as Key_k.
  { intros Nk. assert (forall o, key = o -> o <> None -> exists k, o = Some k) as H; [|exact (H _ eq_refl Nk)].
    intros [k|] _ No; [eauto|congruence]. }
  destruct X as [x Eb Ix Inx|x Nl Ix Nx|a n Nl Ok' Kn Nc|d pq l' El Vd Yd Nb|c Nl Lc Bc Nch Ni|c El Lc Bc Nch|c t Nk Sd Tt Fc Nc|x t t' Nk Sd Nz Nzx Tt Tt' Nt
    |s sb k Wk Es Bs Nm Ko Ns|n Wk Vc Ok' Nk|n c Vc Nz Ok' Nn].
  - (* ID *)
    destruct (over_case (only_id x) (with_id q x) (counter_after g q t0) t0 pc g' r tx Eo J) as (rr & _ & _ & M);
      [exact (conj Ix (conj Qd (conj Qy (conj Qt Qo))))|amount|exact T|reflexivity|exact G|exact Fit|split; [exact Cpc|exact Bpc]|].
    destruct (place_ids x Eb Inx) as [Tk Un]. destruct Some_p as (s & pr & Ep). { intros Z. rewrite Z in Inx. exact Inx. }
    pose proof (md_id _ _ _ _ _ _ _ M) as Mi. change (r_receiptId rr = x) in Mi.
    apply (made_outcome _ _ _ _ _ _ _ M); try reflexivity; try (left; reflexivity).
    + left. exact (made_authentic _ v _ _ _ _ _ _ M Qk).
    + right. split; [reflexivity|exact Un].
    + left. exact Cpc.
    + right. split; reflexivity.
    + rewrite <- Mi. apply (f_id _ _ _ _ _ _ (Item tx rr v) (s, pr)); [rewrite Ep; reflexivity|]. cbn [i_rec]. now rewrite Mi.
  - (* register *)
    assert (chained_to (register_of (only_register x) g (counter_after g q t0)) = chained_to g) as Ect.
    { destruct Some_p as (s & pr & Ep). { intros Z. apply Nl. now rewrite Z. } unfold chained_to, register_of. cbn [cr_last]. now rewrite La, Ep. }
    destruct (over_case (only_register x) q (counter_after g q t0) t0 pc g' r tx Eo J) as (rr & _ & _ & M);
      [exact So|amount|exact T|reflexivity|exact (conj Ix (proj2 G))|exact Fit|cbn [only_register ov_chain]; rewrite Ect; split; [exact Cpc|exact Bpc]|].
    destruct Some_p as (s & pr & Ep). { intros Z. apply Nl. now rewrite Z. }
    pose proof (md_id _ _ _ _ _ _ _ M) as Mi. pose proof (md_register _ _ _ _ _ _ _ M) as Mr. change (r_registerId rr = x) in Mr.
    apply (made_outcome _ _ _ _ _ _ _ M); try reflexivity; try (left; reflexivity).
    + left. exact (made_authentic _ v _ _ _ _ _ _ M Qk).
    + right. split; [congruence|reflexivity].
    + left. exact Cpc.
    + right. split; reflexivity.
    + rewrite <- Mi. apply (SpecDiag.f_register _ _ _ _ _ _ (Item tx rr v) s pr); [rewrite Ep; reflexivity|]. cbn [i_rec].
      destruct (place_some s pr Ep) as (? & ? & ? & _ & Er & _). congruence.
  - (* system *)
    pose proof (renamed_names a n (q_sys q)) as [Nz Nn].
    destruct (over_case (only_device a n) (with_sys q (renamed a n (q_sys q))) (counter_after g q t0) t0 pc g' r tx Eo J) as (rr & _ & _ & M);
      [exact (conj Qi (conj Qd (conj Qy (conj Qt Ok'))))|amount|exact T|reflexivity|exact G|exact Fit|split; [exact Cpc|exact Bpc]|].
    destruct Some_p as (s & pr & Ep). { intros Z. apply Nl. now rewrite Z. }
    pose proof (md_id _ _ _ _ _ _ _ M) as Mi. pose proof (md_zda _ _ _ _ _ _ _ M) as Mz. cbn [with_sys q_sys] in Mz. rewrite Nz in Mz.
    apply (made_outcome _ _ _ _ _ _ _ M); try reflexivity; try (left; reflexivity).
    + apply works_renamed.
    + left. exact (made_authentic _ v _ _ _ _ _ _ M Kn).
    + right. reflexivity.
    + left. exact Cpc.
    + right. split; reflexivity.
    + change (q_id (with_sys q (renamed a n (q_sys q)))) with (q_id q) in Mi. rewrite <- Mi.
      apply (f_system _ _ _ _ _ _ (Item tx rr v) s pr); [rewrite Ep; reflexivity|]. cbn [i_rec].
      destruct S0 as (_ & _ & _ & _ & q1 & Q1 & Cs & _). rewrite Ep in Q1. cbn in Q1. subst q1. destruct (Cs s pr eq_refl) as (_ & Cl & _). cbn [snd i_rec] in Cl.
      rewrite <- Cl. unfold closed. rewrite Mz, (is_zda _ _ _ _ _ _ _ I0). exact Nc.
  - (* time *)
    destruct (over_case (only_time (strftime d)) (with_time q d) (counter_after g q t0) t0 pc g' r tx Eo J) as (rr & _ & _ & M);
      [exact (conj Qi (conj Vd (conj Yd (conj Qt Qo))))|amount|exact T|reflexivity|exact G|exact Fit|split; [exact Cpc|exact Bpc]|].
    destruct Some_p as (s & pr & Ep). { intros Z. rewrite Z in El. destruct l'; discriminate El. }
    pose proof (md_id _ _ _ _ _ _ _ M) as Mi. pose proof (md_time _ _ _ _ _ _ _ M) as Mt. cbn [with_time q_time] in Mt.
    apply (made_outcome _ _ _ _ _ _ _ M); try reflexivity; try (left; reflexivity).
    + left. exact (made_authentic _ v _ _ _ _ _ _ M Qk).
    + right. reflexivity.
    + left. exact Cpc.
    + right. split; reflexivity.
    + change (q_id (with_time q d)) with (q_id q) in Mi. rewrite <- Mi. apply (f_date _ _ _ _ _ _ (Item tx rr v) s pr); [rewrite Ep; reflexivity|]. cbn [i_rec].
      destruct (place_some s pr Ep) as (l1 & pq' & pv & E1 & _ & Et & _). rewrite E1, map_app in El. cbn [map fst] in El.
      apply app_inj_tail in El as [_ <-]. rewrite Mt, Et. exact Nb.
  - (* chain *)
    destruct (over_case (only_chain (b64encode c)) q (counter_after g q t0) t0 c g' r tx Eo J) as (rr & _ & _ & M);
      [exact So|amount|exact T|reflexivity|exact G|exact Fit|cbn [only_chain ov_chain]; auto|].
    destruct Some_p as (s & pr & Ep). { intros Z. apply Nl. now rewrite Z. }
    pose proof (md_id _ _ _ _ _ _ _ M) as Mi.
    apply (made_outcome _ _ _ _ _ _ _ M); try reflexivity; try (left; reflexivity).
    + left. exact (made_authentic _ v _ _ _ _ _ _ M Qk).
    + right. right. split; [intros Z; apply Nl; now rewrite Z|]. split; [exact Ni|reflexivity].
    + right. split; reflexivity.
    + rewrite <- Mi. apply (SpecDiag.f_chain _ _ _ _ _ _ (Item tx rr v) (Some (s, pr))); [rewrite Ep; reflexivity| |].
      * intros H. apply Nch. destruct S0 as (_ & _ & _ & _ & q1 & Q1 & _ & Ch & _). rewrite Ep in Q1. cbn in Q1. subst q1.
        rewrite <- (md_chain _ _ _ _ _ _ _ M). unfold chain_holds in H. cbn [i_rec] in *. destruct (truthy (State.s_chain reg)).
        -- rewrite H, <- Ch. exact (is_chain _ _ _ _ _ _ _ I0).
        -- unfold chained in H. cbn [fst snd i_rec] in H. unfold to_chain. rewrite La, Ep. exact H.
      * apply place_starts; [intros Z; apply Nl; now rewrite Z|exact (md_reads _ _ _ _ _ _ _ M)|now rewrite Mi].
  - (* chain of the start receipt *)
    assert (l = []) as El'. { destruct l; [reflexivity|discriminate El]. }
    destruct (over_case (only_chain (b64encode c)) q (counter_after g q t0) t0 c g' r tx Eo J) as (rr & _ & _ & M);
      [exact So|amount|exact T|reflexivity|exact G|exact Fit|cbn [only_chain ov_chain]; auto|].
    pose proof (proj2 place_none El') as Ep.
    pose proof (md_id _ _ _ _ _ _ _ M) as Mi.
    apply (made_outcome _ _ _ _ _ _ _ M); try reflexivity; try (left; reflexivity).
    + left. exact (made_authentic _ v _ _ _ _ _ _ M Qk).
    + right. left. split; [exact El'|reflexivity].
    + right. split; reflexivity.
    + rewrite <- Mi. apply (SpecDiag.f_chain_start _ _ _ _ _ _ (Item tx rr v) None); [rewrite Ep; now left| |now left|now left].
      intros H. apply Nch. destruct S0 as (_ & _ & _ & _ & q1 & Q1 & _ & Ch & _).
      rewrite <- (md_chain _ _ _ _ _ _ _ M). unfold chain_holds in H. cbn [i_rec] in *. destruct (truthy (State.s_chain reg)).
      * rewrite H, <- Ch. exact (is_chain _ _ _ _ _ _ _ I0).
      * unfold chained in H. cbn [fst snd i_rec] in H. rewrite (md_register _ _ _ _ _ _ _ M) in H. unfold to_chain. rewrite La, Ep. exact H.
  - (* counter *)
    assert (t = t0) as -> by exact (total_unique q _ _ Tt T).
    destruct (over_case (only_counter c) q c t0 pc g' r tx Eo J) as (rr & _ & _ & M);
      [exact So|amount|exact T|reflexivity|exact G|intros _; exact Fc|split; [exact Cpc|exact Bpc]|].
    pose proof (md_id _ _ _ _ _ _ _ M) as Mi.
    apply (made_outcome _ _ _ _ _ _ _ M); try reflexivity; try (left; reflexivity).
    + left. exact (made_authentic _ v _ _ _ _ _ _ M Qk).
    + left. exact Cpc.
    + destruct Key_k as [k Ek]; [exact Nk|]. rewrite <- Mi.
      apply (f_counter _ _ _ _ _ _ (Item tx rr v) k t0 c); cbn [i_rec].
      * exact Ek.
      * unfold standard. rewrite (md_training _ _ _ _ _ _ _ M), (md_cancellation _ _ _ _ _ _ _ M). destruct Sd as [-> ->]. split; [discriminate|intros [_ ?]; discriminate].
      * exact (md_cents _ _ _ _ _ _ _ M).
      * rewrite (Ky k Ek). exact (md_counter _ _ _ _ _ _ _ M Sd).
      * rewrite <- (place_counter k Ek Sd). unfold counter_after. now rewrite (proj1 Sd).
  - (* sum *)
    assert (t = t0) as -> by exact (total_unique q _ _ Tt T).
    destruct (over_case (only_sum (fmt_sum x)) (with_sum q x) (counter_after g q t0) t' pc g' r tx Eo J) as (rr & _ & _ & M);
      [exact (conj Qi (conj Qd (conj Qy (conj (ex_intro _ t' Tt') Qo))))|amount|exact Tt'|reflexivity|exact G|exact Fit|split; [exact Cpc|exact Bpc]|].
    pose proof (md_id _ _ _ _ _ _ _ M) as Mi.
    apply (made_outcome _ _ _ _ _ _ _ M); try reflexivity; try (left; reflexivity).
    + split; [|contradiction]. intros H. exfalso. apply Nzx. exact (Forall_inv H).
    + left. exact (made_authentic _ v _ _ _ _ _ _ M Qk).
    + left. exact Cpc.
    + destruct Key_k as [k Ek]; [exact Nk|]. change (q_id (with_sum q x)) with (q_id q) in Mi. rewrite <- Mi.
      apply (f_counter _ _ _ _ _ _ (Item tx rr v) k t' (counter_after g q t0)); cbn [i_rec].
      * exact Ek.
      * unfold standard. rewrite (md_training _ _ _ _ _ _ _ M), (md_cancellation _ _ _ _ _ _ _ M). destruct Sd as [E1 E2]. cbn [with_sum q_dummy q_reversal]. rewrite E1, E2. split; [discriminate|intros [_ ?]; discriminate].
      * exact (md_cents _ _ _ _ _ _ _ M).
      * rewrite (Ky k Ek). exact (md_counter _ _ _ _ _ _ _ M Sd).
      * rewrite (place_counter k Ek Sd). lia.
  - (* signature *)
    rewrite over_signature, E0 in Eo. cbn [fst snd bind] in Eo. injection Eo as _ Er. symmetry in Er.
    destruct (resigned_reads w jws0 r0 s sb (is_reads _ _ _ _ _ _ _ I0) Es Bs) as (t' & J' & Rd). rewrite <- Er in J', Rd.
    rewrite J in J'. apply Ok_inj in J'. subst t'. pose proof (is_reads _ _ _ _ _ _ _ I0) as Rd0.
    assert (exists sg0, r_sig r0 = Some (es256_header, sg0)) as [sg0 Sg0]. { destruct Rd0 as (f & sg & _ & (_ & S & _)). eauto. }
    assert (~ unsigned r) as Un. { unfold unsigned, r_signature. rewrite Er. unfold mangle_signature. cbn [r_sig]. rewrite Sg0. cbn. intros [= H]. now apply Nm. }
    assert (~ unsigned r0) as Un0. { rewrite (is_unsigned _ _ _ _ _ _ _ I0). tauto. }
    assert (r_receiptId r = q_id q) as Mi by (rewrite Er; exact (is_id _ _ _ _ _ _ _ I0)).
    exists r. split; [exact Rd|]. split.
    + rewrite <- Mi. exact (f_signature _ _ _ _ _ _ (Item tx r v) k Un Ko Ns).
    + apply (only_fault w key reg u p (Item tx r v) (Item jws0 r0 v) _ Pv Rd S0); cbn [i_rec i_ver i_jws]; try (left; rewrite Er; reflexivity); try (rewrite Er; reflexivity).
      * right. right. right. rewrite Mi. split; [reflexivity|]. split; [|eauto]. rewrite Er. exact (proj1 (is_authentic _ _ _ _ _ _ _ I0)).
      * tauto.
      * intros k' K NT. exists t0. rewrite Er. split; [exact (is_cents _ _ _ _ _ _ _ I0)|]. right. intros Sd.
        assert (standard_request q) as Sq by exact (proj1 (issued_standard _ _ _ _ _ _ _ I0) Sd).
        rewrite <- (place_counter k' K Sq), (Ky k' K). exact (is_counter _ _ _ _ _ _ _ I0 Sq).
  - (* no key *)
    pose proof (renamed_names (sys_zda (q_sys q)) n (q_sys q)) as [Nz Nn].
    destruct (over_case (only_serial n) (with_sys q (renamed (sys_zda (q_sys q)) n (q_sys q))) (counter_after g q t0) t0 pc g' r tx Eo J) as (rr & Fr & Sr & M);
      [exact (conj Qi (conj Qd (conj Qy (conj Qt Ok'))))|amount|exact T|reflexivity|exact G|exact Fit|split; [exact Cpc|exact Bpc]|].
    pose proof (md_id _ _ _ _ _ _ _ M) as Mi. change (q_id (with_sys q (renamed (sys_zda (q_sys q)) n (q_sys q)))) with (q_id q) in Mi.
    assert (forall k, ~ key_of w v rr k) as Nk'. { intros k. destruct (texts_same w k r rr Fr Sr) as [Ko _]. rewrite <- Ko. apply Nk. }
    assert (cert_fits w v rr) as Cf. { intros c Ec. congruence. }
    apply (made_outcome _ _ _ _ _ _ _ M); try reflexivity; try (left; reflexivity).
    + apply works_renamed.
    + right. right. auto.
    + left. unfold request_closed. cbn [with_sys q_sys]. rewrite Nz. reflexivity.
    + left. exact Cpc.
    + right. split; reflexivity.
    + rewrite <- Mi. apply (f_no_key _ _ _ _ _ _ (Item tx rr v)); [|exact Nk']. cbn [i_rec]. rewrite (md_unsigned _ _ _ _ _ _ _ M), works_renamed. tauto.
  - (* serial *)
    pose proof (renamed_names (sys_zda (q_sys q)) n (q_sys q)) as [Nz' Nn'].
    destruct (over_case (only_serial n) (with_sys q (renamed (sys_zda (q_sys q)) n (q_sys q))) (counter_after g q t0) t0 pc g' r tx Eo J) as (rr & Fr & Sr & M);
      [exact (conj Qi (conj Qd (conj Qy (conj Qt Ok'))))|amount|exact T|reflexivity|exact G|exact Fit|split; [exact Cpc|exact Bpc]|].
    pose proof (md_id _ _ _ _ _ _ _ M) as Mi. change (q_id (with_sys q (renamed (sys_zda (q_sys q)) n (q_sys q)))) with (q_id q) in Mi.
    apply (made_outcome _ _ _ _ _ _ _ M); try reflexivity; try (left; reflexivity).
    + apply works_renamed.
    + right. left. split; [reflexivity|]. destruct (q_sys q) as [zz nn|zz nn priv] eqn:Eq.
      * left. apply (md_unsigned _ _ _ _ _ _ _ M). intros (? & ? & ? & E). discriminate E.
      * right. destruct Qk as [_ Qk]. destruct (Qk zz nn priv eq_refl) as (k & P & Hk). rewrite Vc in Hk. exists k. split.
        -- unfold key_of. now rewrite Vc.
        -- exact (md_signed _ _ _ _ _ _ _ M _ _ _ _ eq_refl P).
    + left. unfold request_closed. cbn [with_sys q_sys]. rewrite Nz'. reflexivity.
    + left. exact Cpc.
    + right. split; reflexivity.
    + rewrite <- Mi. apply (SpecDiag.f_serial _ _ _ _ _ _ (Item tx rr v)). cbn [i_rec i_ver]. intros H. destruct (H c Vc) as [H'|H'].
      * apply Nz. unfold closed in H'. rewrite (md_zda _ _ _ _ _ _ _ M) in H'. cbn [with_sys q_sys] in H'. now rewrite Nz' in H'.
      * apply Nn. rewrite (md_serial _ _ _ _ _ _ _ M) in H'. cbn [with_sys q_sys] in H'. now rewrite Nn' in H'.
Qed.

End Place.

Lemma run_ok w l : forall g items g', register_ok g -> run w g l items g' -> register_ok g' /\ cr_id g' = cr_id g /\ cr_key g' = cr_key g /\ cr_size g' = cr_size g.
Proof.
  induction l as [|[q v] l IH]; intros g [|i items] g' G R; try contradiction.
  - cbn in R. now subst g'.
  - destruct R as (V & z & T & I & R). exact (IH _ _ _ (next_ok w g q v z _ _ G I) R).
Qed.

Lemma regs_start key items : forall reg, items <> [] -> s_start (regs key reg None items) = option_map i_jws (hd_error items).
Proof.
  destruct items as [|i items]; intros reg NE; [congruence|]. cbn [regs hd_error option_map].
  assert (forall l reg s r, s_start (regs key reg (Some (s, r)) l) = s_start reg) as H.
  { induction l as [|j l IH]; intros reg' s r; [reflexivity|]. cbn [regs]. unfold as_past. rewrite IH. reflexivity. }
  unfold as_past. rewrite H. reflexivity.
Qed.

Lemma run_texts w g l items g' texts : run w g l items g' ->
  mapM (fun r : rtuple => toJWSString (fst r) (snd r)) (map (fun i => (i_rec i, lit "R1")) items) = Ok texts ->
  Forall2 (text_item w) (combine texts (map snd l)) items.
Proof.
  revert g items texts. induction l as [|[q v] l IH]; intros g [|i items] texts R E; try contradiction.
  - cbn [map mapM] in E. apply Ok_inj in E. subst texts. constructor.
  - destruct R as (V & z & T & I & R). cbn [map mapM] in E. cbn [fst snd] in E. rewrite (is_jws _ _ _ _ _ _ _ I) in E. cbn [bind] in E.
    apply bind_Ok in E as (ts & E & E'). apply Ok_inj in E'. subst texts. cbn [map combine snd]. constructor; [|exact (IH _ _ _ R E)].
    split; [reflexivity|]. split; [exact (is_reads _ _ _ _ _ _ _ I)|exact V].
Qed.

Lemma injected_place w b key id k size g0 l q v o g recs texts g' r t e : hash_ok w -> aes_ok w ->
  identifier id -> List.length k = 32%nat -> new_cashreg id None 0 k size = Ok g0 -> key = None \/ key = Some k ->
  orderly w size b (l ++ [(q, v)]) ->
  issue_all w g0 (map fst l) = (g, Ok recs) -> mapM (fun r : rtuple => toJWSString (fst r) (snd r)) recs = Ok texts ->
  issue_over w g (lit "R1") o q = (g', Ok r) -> toJWSString r (lit "R1") = Ok t -> injected w b key g (map fst l) q v r o e -> proper v ->
  exists items rr, Forall2 (text_item w) (combine texts (map snd l)) items /\ valid_sequence w key None new_register (used_new b) None items
    /\ reads w t rr
    /\ fault w key None (after key new_register None items) (used_after (used_new b) items) (last_of None items) (Item t rr v) e
    /\ forall e', fault w key None (after key new_register None items) (used_after (used_new b) items) (last_of None items) (Item t rr v) e' -> e' = e.
Proof.
  intros Hh Ha Id Lk New Ky Or Ei Et Eo J X Pv.
  unfold new_cashreg in New. destruct (negb _) eqn:Sz in New; [|discriminate]. apply Ok_inj in New.
  assert (register_ok g0) as G0. { subst g0. split; [exact Id|]. split; [exact Lk|]. split; [cbn; lia|]. intros s [=]. }
  assert (cr_last g0 = None /\ cr_counter g0 = 0%Z /\ cr_key g0 = k /\ cr_size g0 = size) as (L0 & C0 & K0 & Z0) by (subst g0; auto).
  clear New. destruct (orderly_prefix_ok _ _ _ _ _ Or) as [Ql Qq]. cbn [fst snd] in Qq. pose proof Or as (_ & _ & _ & _ & Co & _). rewrite map_app in Co. cbn [map fst] in Co.
  destruct (issue_all_run w l Hh Ha g0 G0 Ql) as (items & g1 & Ei' & R).
  { intros l1 q0 l2 z E Sd Tz. rewrite C0, Z0. apply (Co l1 q0 (l2 ++ [q]) z); [|exact Sd|exact Tz]. rewrite E, <- app_assoc. reflexivity. }
  rewrite Ei in Ei'. injection Ei' as <- ->. destruct (run_ok w l g0 items g G0 R) as (G & Gi & Gk & Gz).
  pose proof (run_counter _ _ _ _ _ R) as (_ & (zl & _ & Tl & Ec) & _). rewrite C0 in Ec.
  assert (exists z, request_total q z) as [t0 T] by apply Qq.
  assert (standard_request q -> counter_fits (cr_size g) (counter_after g q t0)) as Fit.
  { intros Sd. rewrite Gz, Z0. apply (Co (map fst l) q [] _); [reflexivity|exact Sd|].
    unfold counter_after. rewrite (proj1 Sd), Ec. destruct Tl as (cs & F & ->). exists (cs ++ [t0]). split.
    - apply Forall2_app; [exact F|]. constructor; [|constructor]. right. split; [exact (proj1 Sd)|exact T].
    - unfold total. rewrite fold_right_app. cbn [fold_right]. clear. induction cs as [|x cs IH]; cbn [fold_right] in *; lia. }
  destruct (issue_ok w v g q t0 Hh Ha G Qq T Fit) as (jws0 & r0 & E0 & I0).
  pose proof (run_snoc w q v t0 jws0 r0 T l g0 items g R I0) as Rs.
  assert (key_given key g0) as Kg0. { intros k' E'. destruct Ky as [Ky|Ky]; rewrite Ky in E'; [discriminate|]. injection E' as <-. now symmetry. }
  assert (key_given key g) as Kg. { intros k' E'. rewrite Gk. exact (Kg0 k' E'). }
  rewrite <- Z0 in Or. pose proof (run_valid w b key g0 _ _ _ G0 L0 C0 Kg0 Or Rs) as V.
  apply valid_app in V as [V1 V2]. apply valid_cons in V2 as [S0 _].
  assert (Forall2 (fits_request w g) l items) as Fi.
  { pose proof (run_each _ _ _ _ _ R) as E. clear -E Gi. induction E as [|a i m m' (gg & z & Eg & E1) E IH]; constructor; [|exact IH].
    exists gg, z. split; [congruence|exact E1]. }
  destruct (run_last _ _ _ _ _ None R (eq_sym L0)) as [La _].
  destruct (injected_outcome w b key g l q v items t0 jws0 r0 Hh Ha G Kg Qq T Fit Pv Fi La I0 _ E0 S0) with (o := o) (g' := g') (r := r) (tx := t) (e := e) as (rr & Rr & Ft & Fu);
    [|exact Eo|exact J|exact X|].
  { intros NE. unfold after. destruct items as [|i m]; [congruence|]. change (s_start (regs key new_register None (i :: m)) = option_map i_jws (hd_error (i :: m))). now apply regs_start. }
  exists items, rr. split; [exact (run_texts w g0 l items g texts R Et)|]. split; [exact V1|]. split; [exact Rr|]. split; [exact Ft|exact Fu].
Qed.

Theorem injected_caught w ks b key id k size g0 l q v o g recs texts g' r t gs dep rest e : hash_ok w -> aes_ok w ->
  identifier id -> List.length k = 32%nat -> new_cashreg id None 0 k size = Ok g0 -> key = None \/ key = Some k ->
  orderly w size b (l ++ [(q, v)]) ->
  issue_all w g0 (map fst l) = (g, Ok recs) -> mapM (fun r : rtuple => toJWSString (fst r) (snd r)) recs = Ok texts ->
  issue_over w g (lit "R1") o q = (g', Ok r) -> toJWSString r (lit "R1") = Ok t -> injected w b key g (map fst l) q v r o e ->
  dep_is w dep gs -> texts_encodable ks gs -> trust_rule w ks (occupied gs) ->
  dep_texts ks gs = combine texts (map snd l) ++ (t, v) :: rest ->
  exists c', verifyDEP w dep ks key (new_cluster b) None = (c', Some e).
Proof.
  intros Hh Ha Id Lk New Ky Or Ei Et Eo J X DI TE TR ET.
  assert (proper v) as Pv. { apply (dep_texts_proper ks gs t). rewrite ET. apply in_or_app. right. now left. }
  destruct (injected_place w b key id k size g0 l q v o g recs texts g' r t e Hh Ha Id Lk New Ky Or Ei Et Eo J X Pv) as (items & rr & FI & V1 & Rr & Ft & Fu).
  destruct (verifyDEP_located w dep gs ks key (new_cluster b) None [] new_register [] None (combine texts (map snd l)) items t v rest Hh DI TE)
    as (c' & e' & E & Rj).
  - apply sel_new; [now left|now left].
  - now left.
  - exists None. now left.
  - exact TR.
  - exact ET.
  - exact FI.
  - exact V1.
  - intros r1 R1 H. rewrite (reads_fun _ _ _ _ R1 Rr) in H. apply valid_app in H as [_ H]. apply valid_cons in H as [H _]. revert H.
    exact (fault_wrong w key None _ _ _ (Item t rr v) e Pv Rr Ft).
  - exists c'. rewrite E. do 2 f_equal. destruct Rj as [Ur|(r1 & R1 & Fr)]; [destruct (fault_unread _ _ _ _ Ur Rr)|].
    rewrite (reads_fun _ _ _ _ R1 Rr) in Fr. exact (Fu _ Fr).
Qed.
