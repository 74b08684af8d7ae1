(** Receipts with overrides. *)
From Coq Require Import Lia ZifyClasses ZifyN ZifyNat ZifyBool.
From Coq Require Import Floats.SpecFloat.
From Verif Require Import PyBase World ListFacts Codec CodecFacts PyFloat PyTime Algo AlgoFacts Receipt SpecReceipt FieldFacts ReceiptFacts RoundTrip Json KeyStore State
  DepBase DepParser Verify DepExport VerifyReceipt VerifyFacts SpecDep SpecCluster SpecDoc SpecDiag SeqFacts StepFacts DepFacts AcceptFacts DiagFacts CaughtFacts
  FloatFacts AmountFacts SpecAmount CashReg SpecCashReg CashRegText CashRegFacts CashRegSeq Override SpecOverride.
Open Scope N_scope.
Open Scope py_scope.

(** ** No overrides *)
Lemma mangle_none r : mangle no_override r = r.
Proof. destruct r; reflexivity. Qed.
Lemma mangle_signature_none r : mangle_signature no_override r = r.
Proof. destruct r as [? ? ? ? ? ? ? ? ? ? ? ? ? ? ? ? ? ? [[? ?]|]]; reflexivity. Qed.
Lemma with_size_same g : with_size g (cr_size g) = g.
Proof. destruct g; reflexivity. Qed.
Lemma complete_none w g p q r : complete_over w g p no_override q r = complete w g p q r.
Proof. reflexivity. Qed.

Theorem issue_none w g p q : issue_over w g p no_override q = issue w g p q.
Proof.
  unfold issue_over, issue.
  destruct (if known_alg p then _ else _) as [rec|e]; [|reflexivity].
  rewrite mangle_none. cbn [given no_override ov_size ov_counter]. rewrite with_size_same. cbv zeta.
  destruct (if q_dummy q then _ else _) as [c|e]; [|reflexivity]. rewrite complete_none.
  destruct (complete w (with_counter g c) p q rec) as [[rec' jws]|e]; [|reflexivity].
  destruct (sign_parts rec' jws) as [x|e]; cbn [bind]; [|reflexivity]. now rewrite mangle_signature_none.
Qed.

Theorem issue_all_none w qs : forall g, issue_all_over w g (map (fun q => (q, no_override)) qs) = issue_all w g qs.
Proof.
  induction qs as [|q qs IH]; intros g; [reflexivity|]. cbn [map issue_all_over issue_all]. rewrite issue_none.
  destruct (issue w g (lit "R1") q) as [g' [rec|e]]; [|reflexivity]. rewrite IH. reflexivity.
Qed.

(** ** The fields *)
Lemma sys_sign_shape w s data jws : sys_sign w s data = Ok jws -> exists pb sb,
  utf8_encode data = Ok pb /\ jws = b64url_nopad es256_header ++ [c_dot] ++ b64url_nopad pb ++ [c_dot] ++ b64url_nopad sb.
Proof.
  unfold sys_sign. rewrite header_eq, header_bytes. cbn [bind]. destruct (utf8_encode data) as [pb|e] eqn:E; cbn [bind]; [|destruct s; cbn; unfold r1_sign, jws_input; rewrite ?header_eq, ?header_bytes; cbn [bind]; rewrite ?E; discriminate].
  destruct s as [z n|z n priv].
  - intros H. apply Ok_inj in H. subst jws. exists pb, fail_marker. auto.
  - unfold r1_sign, jws_input. rewrite header_eq, header_bytes. cbn [bind]. rewrite E. cbn [bind]. intros H. apply Ok_inj in H. subst jws. eauto.
Qed.

Lemma sign_parts_shape r pb sb r' :
  sign_parts r (b64url_nopad es256_header ++ [c_dot] ++ b64url_nopad pb ++ [c_dot] ++ b64url_nopad sb) = Ok r' ->
  r' = rec_of (r_fields r) (r_dateTime r) (r_sumA r) (r_sumB r) (r_sumC r) (r_sumD r) (r_sumE r) (Some (es256_header, b64url_nopad sb)).
Proof.
  unfold sign_parts. cbn [app]. rewrite split_char_app by apply b64url_nopad_nodot.
  rewrite split_char_app by apply b64url_nopad_nodot. rewrite split_char_nosep by apply b64url_nopad_nodot.
  destruct (seg_nopad es256_header header_is_bytes) as [_ H]. apply b64url_decode_str_iff in H. rewrite H. cbn [bind].
  rewrite (utf8_decode_encode es256_header es256_header header_bytes). cbn [bind]. unfold sign_receipt.
  rewrite b64url_nopad_noeq. cbn [negb]. intros (x & _ & E)%bind_Ok. apply Ok_inj in E. now subst r'.
Qed.

Lemma given_value {A} (o : option A) x : value_of o x (given o x).
Proof. destruct o; split; cbn [given]; intros; congruence. Qed.
Lemma given_value' {A} (o : option A) x y : y = x -> value_of o x (given o y).
Proof. intros ->. apply given_value. Qed.

Theorem over_fields w g p o q g' r : issue_over w g p o q = (g', Ok r) ->
  carries o g q r /\ cr_id g' = cr_id g /\ cr_key g' = cr_key g /\ value_of (ov_size o) (cr_size g) (cr_size g')
  /\ (forall c, ov_counter o = Some c -> cr_counter g' = c)
  /\ exists jws p', cr_last g' = Some jws /\ value_of (ov_prefix o) p p'
     /\ (ov_header o = None -> ov_signature o = None -> toJWSString r p' = Ok jws).
Proof.
  unfold issue_over. destruct (known_alg p); cbn [bind]; [|discriminate].
  match goal with |- context [mk_receipt w ?a ?b ?c ?d ?e ?f ?x ?y ?z ?k ?l ?m] =>
    pose proof (mk_receipt_spec w (Fields a b c d e f x y z k l m)) as Sp end.
  unfold mk_of in Sp. cbn [f_zda SpecReceipt.f_register f_receipt f_time f_a f_b f_c f_d f_e f_tc SpecReceipt.f_serial SpecReceipt.f_chain] in Sp.
  destruct (mk_receipt _ _ _ _ _ _ _ _ _ _ _ _ _) as [rec|e]; [|discriminate].
  destruct (proj1 (Sp rec) eq_refl) as [_ (Fr & Sr & _)]. clear Sp. unfold r_fields in Fr. injection Fr as F1 F2 F3 F4 F5 F6 F7 F8 F9 F10 F11 F12.
  cbv zeta. destruct (if q_dummy q then _ else _) as [c|e]; [|discriminate].
  destruct (complete_over _ _ _ _ _ _) as [[rec' jws]|e] eqn:Ec; [|discriminate].
  intros E. injection E as <- E. apply bind_Ok in E as (r1 & Es & E). apply Ok_inj in E. subst r.
  unfold complete_over in Ec. apply bind_Ok in Ec as (tc & _ & Ec). apply bind_Ok in Ec as (pc & _ & Ec).
  apply bind_Ok in Ec as (pay & Ep & Ec). apply bind_Ok in Ec as (jws' & Ej & Ec). apply Ok_inj in Ec. injection Ec as <- <-.
  destruct (sys_sign_shape _ _ _ _ Ej) as (pb & sb & Epb & ->). apply sign_parts_shape in Es. subst r1.
  set (rc := match ov_chain o with Some _ => _ | None => _ end) in *.
  assert (r_zda rc = given (ov_zda o) (r_zda rec) /\ r_registerId rc = given (ov_register o) (r_registerId rec)
    /\ r_receiptId rc = given (ov_id o) (r_receiptId rec) /\ r_dateTimeStr rc = given (ov_time o) (r_dateTimeStr rec)
    /\ r_sumAStr rc = given (ov_a o) (r_sumAStr rec) /\ r_sumBStr rc = given (ov_b o) (r_sumBStr rec) /\ r_sumCStr rc = given (ov_c o) (r_sumCStr rec)
    /\ r_sumDStr rc = given (ov_d o) (r_sumDStr rec) /\ r_sumEStr rc = given (ov_e o) (r_sumEStr rec)
    /\ r_certSerial rc = given (ov_serial o) (r_certSerial rec)
    /\ (forall x, ov_tc o = Some x -> r_encTC rc = x) /\ (forall x, ov_chain o = Some x -> r_previousChain rc = x)) as Hf.
  { unfold rc. clear. destruct (ov_tc o) eqn:Et, (ov_chain o) eqn:Ec; unfold set_tc, set_previousChain, mangle;
      cbn [r_registerId r_zda r_receiptId r_dateTime r_dateTimeStr r_sumA r_sumAStr r_sumB r_sumBStr r_sumC r_sumCStr r_sumD r_sumDStr r_sumE r_sumEStr r_encTC r_certSerial r_previousChain r_sig];
      rewrite ?Et, ?Ec; repeat (split; [reflexivity|]); split; intros x Hx; try discriminate Hx; apply Some_inj in Hx; subst x; reflexivity. }
  clearbody rc. destruct Hf as (H1 & H2 & H3 & H4 & H5 & H6 & H7 & H8 & H9 & H10 & H11 & H12).
  split; [|split; [reflexivity|split; [reflexivity|split; [apply given_value|split]]]].
  - unfold carries, mangle_signature, rec_of, r_fields.
    cbn [f_zda SpecReceipt.f_register f_receipt f_time f_a f_b f_c f_d f_e f_tc SpecReceipt.f_serial SpecReceipt.f_chain r_registerId r_zda r_receiptId r_dateTime r_dateTimeStr r_sumA r_sumAStr r_sumB r_sumBStr r_sumC r_sumCStr r_sumD r_sumDStr r_sumE r_sumEStr r_encTC r_certSerial r_previousChain r_sig option_map fst snd].
    rewrite H1, H2, H3, H4, H5, H6, H7, H8, H9, H10.
    repeat (split; [apply given_value'; assumption|]). split; [exact H11|]. split; [exact H12|].
    eexists _, _. split; [reflexivity|]. split; [apply given_value|]. intros x ->. reflexivity.
  - intros x Hx. unfold with_last, with_counter. cbn [cr_counter]. rewrite Hx. reflexivity.
  - eexists _, (given (ov_prefix o) p). split; [reflexivity|]. split; [apply given_value|]. intros Nh Ns.
    unfold toJWSString, mangle_signature, rec_of. cbn [r_sig option_map fst snd]. rewrite Nh, Ns. cbn [given].
    match goal with |- context [toPayloadString ?r ?x] => assert (toPayloadString r x = toPayloadString rc x) as -> by (destruct rc; reflexivity) end.
    rewrite Ep. cbn [bind]. rewrite Epb. cbn [bind]. rewrite header_bytes. reflexivity.
Qed.

(** ** Overrides that amount to another request *)

Definition sound (w : world) (q : request) : Prop :=
  identifier (q_id q) /\ valid_dt (q_time q) /\ 1000 <= dt_year (q_time q) /\ (exists z, request_total q z) /\ device_ok w (q_sys q).

Lemma sound_ok w q : sound w q ->
  request_ok w (Verifier None None) (with_sys q (SignatureSystemBroken (sys_zda (q_sys q)) (sys_serial (q_sys q)))).
Proof.
  intros (A & B & C & D & E). unfold request_ok, with_sys. cbn [q_id q_time q_sys]. split; [exact A|]. split; [exact B|]. split; [exact C|].
  split; [exact D|]. split; [exact E|]. split; [discriminate|]. intros z n priv [=].
Qed.
Lemma request_sound w v q : request_ok w v q -> sound w q.
Proof. intros (A & B & C & D & E & _). unfold sound. auto. Qed.

Definition amounts_to (o : override) (q q' : request) : Prop :=
  q_id q' = given (ov_id o) (q_id q) /\ strftime (q_time q') = given (ov_time o) (strftime (q_time q))
  /\ fmt_sum (q_a q') = given (ov_a o) (fmt_sum (q_a q)) /\ fmt_sum (q_b q') = given (ov_b o) (fmt_sum (q_b q))
  /\ fmt_sum (q_c q') = given (ov_c o) (fmt_sum (q_c q)) /\ fmt_sum (q_d q') = given (ov_d o) (fmt_sum (q_d q))
  /\ fmt_sum (q_e q') = given (ov_e o) (fmt_sum (q_e q))
  /\ q_sys q' = renamed (given (ov_zda o) (sys_zda (q_sys q))) (given (ov_serial o) (sys_serial (q_sys q))) (q_sys q)
  /\ q_dummy q' = q_dummy q /\ q_reversal q' = q_reversal q
  /\ ov_tc o = None /\ ov_prefix o = None /\ ov_header o = None /\ ov_signature o = None.

Definition register_of (o : override) (g : cashreg) (c : Z) : cashreg :=
  CashReg (given (ov_register o) (cr_id g)) (cr_last g) c (cr_key g) (given (ov_size o) (cr_size g)).

(** What is known about the receipt; [g] and [q] are what the overrides amount to. *)
Record made (w : world) (g : cashreg) (q : request) (z : Z) (pcb : bytes) (jws : str) (r : receipt) : Prop := Made {
  md_reads : reads w jws r;
  md_register : r_registerId r = cr_id g;
  md_id : r_receiptId r = q_id q;
  md_time : r_dateTime r = q_time q;
  md_zda : r_zda r = sys_zda (q_sys q);
  md_serial : r_certSerial r = sys_serial (q_sys q);
  md_training : training r <-> q_dummy q = true;
  md_cancellation : cancellation r <-> q_dummy q = false /\ q_reversal q = true;
  md_zero : zero r <-> zero_request q;
  md_unsigned : unsigned r <-> ~ works q;
  md_signed : forall a n priv k, q_sys q = SignatureSystemWorking a n priv -> key_pair w priv k -> signed_by w k r;
  md_cents : cents r = Ok z;
  md_chain : r_previousChain r = b64encode pcb;
  md_counter : standard_request q -> decrypts w (cr_key g) r (cr_counter g)
}.

Lemma renamed_names z n s : sys_zda (renamed z n s) = z /\ sys_serial (renamed z n s) = n.
Proof. destruct s; split; reflexivity. Qed.
Lemma renamed_same s : renamed (sys_zda s) (sys_serial s) s = s.
Proof. destruct s; reflexivity. Qed.

Lemma complete_over_ok w o g c q q' d fa fb fc fd fe tb pcb cb data pb jws : amounts_to o q q' ->
  let g' := register_of o g c in
  (if q_dummy q then Ok (lit "TRA")
            else if q_reversal q then Ok (lit "STO")
            else do _x <- raiseForKey (cr_key g);
                 r1_encrypt w (cr_id g') (q_id q') c (cr_key g) (cr_size g')) = Ok tb ->
  register_ok g' -> utf8_encode (chained_to g') = Ok cb ->
  match ov_chain o with Some x => x = b64encode pcb | None => pcb = firstn 8 (w_sha256 w cb) end ->
  data = payload_text (request_fields g' q' (b64encode tb) (b64encode pcb)) ->
  utf8_encode data = Ok pb -> sys_sign w (q_sys q) data = Ok jws ->
  complete_over w (with_counter (with_size g (given (ov_size o) (cr_size g))) c) (lit "R1") o q (mangle o (rec_of (request_fields g q [] []) d fa fb fc fd fe None))
  = Ok (rec_of (request_fields g' q' (b64encode tb) (b64encode pcb)) d fa fb fc fd fe None, jws).
Proof.
  intros (A1 & A2 & A3 & A4 & A5 & A6 & A7 & A8 & A9 & A10 & A11 & A12 & _) g' Etc G Ecb Ch -> Epb Esg.
  pose proof (renamed_names (given (ov_zda o) (sys_zda (q_sys q))) (given (ov_serial o) (sys_serial (q_sys q))) (q_sys q)) as [Nz Ns]. rewrite <- A8 in Nz, Ns.
  unfold complete_over, with_counter, with_size, rec_of, mangle, request_fields, g', register_of in *.
  cbn [f_zda SpecReceipt.f_register f_receipt f_time f_a f_b f_c f_d f_e f_tc SpecReceipt.f_serial SpecReceipt.f_chain cr_key cr_id cr_size cr_counter cr_last r_registerId r_zda r_receiptId r_dateTime r_dateTimeStr r_sumA r_sumAStr r_sumB r_sumBStr r_sumC r_sumCStr r_sumD r_sumDStr r_sumE r_sumEStr r_encTC r_certSerial r_previousChain r_sig] in *.
  rewrite A1, A2, A3, A4, A5, A6, A7, Nz, Ns in *. rewrite Etc. cbn [bind]. rewrite A11, A12. cbn [given].
  unfold set_tc. cbn [r_registerId r_zda r_receiptId r_dateTime r_dateTimeStr r_sumA r_sumAStr r_sumB r_sumBStr r_sumC r_sumCStr r_sumD r_sumDStr r_sumE r_sumEStr r_encTC r_certSerial r_previousChain r_sig].
  assert (r1_chain w (given (ov_register o) (cr_id g)) (cr_last g) = Ok (firstn 8 (w_sha256 w cb))) as ->.
  { unfold r1_chain, r1_hash. unfold chained_to in Ecb. destruct G as (_ & _ & _ & L). cbn [cr_last cr_id] in *. destruct (cr_last g) as [s|]; cbn [truthy].
    - destruct s as [|x s]; [destruct (L [] eq_refl); congruence|]. rewrite Ecb. reflexivity.
    - rewrite Ecb. reflexivity. }
  cbn [bind].
  match goal with |- context [match ov_chain o with Some _ => ?r0 | None => ?r1 end] =>
    assert (match ov_chain o with Some _ => r0 | None => r1 end =
      rec_of (Fields (given (ov_zda o) (sys_zda (q_sys q))) (given (ov_register o) (cr_id g)) (given (ov_id o) (q_id q))
        (given (ov_time o) (strftime (q_time q))) (given (ov_a o) (fmt_sum (q_a q))) (given (ov_b o) (fmt_sum (q_b q)))
        (given (ov_c o) (fmt_sum (q_c q))) (given (ov_d o) (fmt_sum (q_d q))) (given (ov_e o) (fmt_sum (q_e q)))
        (b64encode tb) (given (ov_serial o) (sys_serial (q_sys q))) (b64encode pcb)) d fa fb fc fd fe None) as ->
  end.
  { destruct (ov_chain o) as [x|] eqn:E; rewrite Ch; reflexivity. }
  rewrite toPayloadString_spec; [|now exists pb]. cbn [bind].
  match goal with |- context [sys_sign w (q_sys q) ?x] => match type of Esg with sys_sign _ _ ?y = _ => change x with y end end.
  rewrite Esg. reflexivity.
Qed.

Theorem over_ok w v g q o q' c t z pcb : hash_ok w -> aes_ok w -> request_ok w v q -> request_total q t -> sound w q' -> amounts_to o q q' -> request_total q' z ->
  c = given (ov_counter o) (counter_after g q t) ->
  let g' := register_of o g c in
  register_ok g -> register_ok g' -> (standard_request q -> counter_fits (cr_size g') c) ->
  match ov_chain o with Some x => x = b64encode pcb /\ is_bytes pcb /\ List.length pcb = 8%nat | None => chain_value w (chained_to g') (b64encode pcb) /\ is_bytes pcb end ->
  exists jws r rr, issue_over w g (lit "R1") o q = (with_last (with_counter (with_size g (cr_size g')) c) jws, Ok r)
    /\ r_fields r = r_fields rr /\ r_sig r = r_sig rr /\ toJWSString r (lit "R1") = Ok jws /\ made w g' q' z pcb jws rr.
Proof.
  intros Hh Ha Q T So Am Tz Ec g' G0 G F Hch. pose proof (sound_ok w q' So) as Q''.
  set (q'' := with_sys q' _) in Q''. set (v0 := Verifier None None) in Q''.
  destruct Am as (A1 & A2 & A3 & A4 & A5 & A6 & A7 & A8 & A9 & A10 & A11 & A12 & A13 & A14) eqn:Am'. clear Am'.
  pose proof (conj A1 (conj A2 (conj A3 (conj A4 (conj A5 (conj A6 (conj A7 (conj A8 (conj A9 (conj A10 (conj A11 (conj A12 (conj A13 A14))))))))))))) as Am'. change (amounts_to o q q') in Am'. clear Am.
  (* the counter *)
  assert (exists tb, (if q_dummy q then Ok (lit "TRA")
            else if q_reversal q then Ok (lit "STO")
            else do _x <- raiseForKey (cr_key g);
                 r1_encrypt w (cr_id g') (q_id q') c (cr_key g) (cr_size g')) = Ok tb
    /\ is_bytes tb
    /\ (tb = lit "TRA" <-> q_dummy q = true)
    /\ (tb = lit "STO" <-> q_dummy q = false /\ q_reversal q = true)
    /\ (standard_request q -> (5 <= List.length tb <= 16)%nat /\ r1_decrypt w (cr_id g') (q_id q') tb (cr_key g) = Ok c)) as (tb & Etc & Btc & Htr & Hca & Hst).
  { set (q0 := Request (q_id q') (q_time q') (q_a q') (q_b q') (q_c q') (q_d q') (q_e q') (SignatureSystemBroken (sys_zda (q_sys q')) (sys_serial (q_sys q'))) (q_dummy q) (q_reversal q)).
    assert (request_ok w v0 q0) as Q0 by exact Q''.
    set (gz := CashReg (cr_id g') (cr_last g') (if q_dummy q then c else c - z)%Z (cr_key g) (cr_size g')).
    assert (counter_after gz q0 z = c) as Ez. { unfold counter_after, gz, q0. cbn [q_dummy cr_counter]. destruct (q_dummy q); lia. }
    destruct (field_tc w v0 gz q0 z Ha G Q0 Tz) as (tb & H). { intros Sd. rewrite Ez. exact (F Sd). }
    rewrite Ez in H. exists tb. exact H. }
  assert (exists cb, utf8_encode (chained_to g') = Ok cb) as [cb Ecb] by exact (chain_nonempty g' G). destruct (Hh cb) as [Hl Hb].
  assert (is_bytes pcb /\ List.length pcb = 8%nat /\ match ov_chain o with Some x => x = b64encode pcb | None => pcb = firstn 8 (w_sha256 w cb) end) as (Bpc & Lpc & Epc).
  { destruct (ov_chain o) as [x|]; [tauto|]. destruct Hch as ((b & E & H) & B). rewrite Ecb in E. apply Ok_inj in E. subst b.
    assert (is_bytes (firstn 8 (w_sha256 w cb))) as B' by now apply firstn_bytes.
    apply (f_equal b64decode) in H. rewrite !b64decode_encode in H by assumption. apply Ok_inj in H.
    split; [exact B|]. split; [|exact H]. rewrite H, firstn_length. lia. }
  assert (tc_text (b64encode tb)) as Ttc.
  { exists tb. split; [now apply b64decode_encode|]. unfold standard_request in Hst.
    destruct (q_dummy q) eqn:D; [right; right; left; tauto|]. destruct (q_reversal q) eqn:Rv; [right; right; right; tauto|].
    right. left. now apply Hst. }
  set (f := request_fields g' q' (b64encode tb) (b64encode pcb)).
  assert (encodes (payload_text f)) as [pb Epb].
  { apply (request_encodes w v0 g' q'' (b64encode tb) (b64encode pcb) G Q''); apply encodes_ascii, b64encode_ascii. }
  assert (device_known w v (q_sys q)) as Dk by apply Q.
  destruct (field_sig w v q _ _ Dk Epb) as (sb & Esg & Bsb & Hbr & Hwk).
  set (jws := b64url_nopad es256_header ++ [c_dot] ++ b64url_nopad pb ++ [c_dot] ++ b64url_nopad sb) in *.
  destruct (request_reads w v g q [] [] Q) as (fa & fb & fc & fd & fe & R0).
  assert (wf_fields w (request_fields g q [] [])) as W0.
  { apply (request_wf w v); [exact G0|exact Q| |].
    - exists []. split; [reflexivity|]. now left.
    - now exists []. }
  pose proof (proj2 (mk_receipt_spec w _ _) (conj W0 (R0 None))) as Mk.
  destruct (request_reads w v0 g' q'' (b64encode tb) (b64encode pcb) Q'') as (ga & gb & gc & gd & ge & R1).
  specialize (R1 (Some (es256_header, b64url_nopad sb))).
  change (request_fields g' q'' (b64encode tb) (b64encode pcb)) with f in R1. change (q_time q'') with (q_time q') in R1.
  set (rr := rec_of f (q_time q') ga gb gc gd ge (Some (es256_header, b64url_nopad sb))) in *.
  assert (wf_fields w f) as W1. { apply (request_wf w v0 g' q'' _ _ G Q'' Ttc). exists pcb. now apply b64decode_encode. }
  assert (wf_printed w f) as Wp.
  { split; [exact W1|]. split; [|split].
    - apply tc_nonempty; [|exact Btc]. destruct Ttc as (tb' & E & L). intros ->. unfold standard_request in Hst.
      destruct (q_dummy q) eqn:D. { discriminate (proj2 Htr eq_refl). } destruct (q_reversal q) eqn:Rv.
      { discriminate (proj2 Hca (conj eq_refl eq_refl)). } destruct (Hst (conj eq_refl eq_refl)) as [Lt _]. cbn in Lt. lia.
    - exists pcb. split; [now apply b64decode_encode|exact Lpc].
    - apply So. }
  assert (reads w jws rr) as Rd.
  { exists f, (b64url_nopad sb). split; [|exact R1]. exists (b64url_nopad es256_header), (b64url_nopad pb), es256_header, pb, sb.
    split; [reflexivity|]. split; [apply seg_nopad, header_is_bytes|]. split; [exact header_bytes|].
    split; [apply seg_nopad; exact (utf8_encode_bytes _ _ Epb)|]. split; [exact Epb|]. split; [now apply seg_nopad|exact Wp]. }
  exists jws, (rec_of f (q_time q) fa fb fc fd fe (Some (es256_header, b64url_nopad sb))), rr.
  split; [|split; [reflexivity|split; [reflexivity|split]]].
  - unfold issue_over. change (known_alg (lit "R1")) with true. cbv iota.
    unfold mk_of in Mk. unfold request_fields at 1 2 3 4 5 6 7 8 9 10 11 12 in Mk.
    cbn [f_zda SpecReceipt.f_register f_receipt f_time f_a f_b f_c f_d f_e f_tc SpecReceipt.f_serial SpecReceipt.f_chain] in Mk. rewrite Mk. cbv zeta.
    change (cr_counter (with_size g (given (ov_size o) (cr_size g)))) with (cr_counter g).
    assert ((if q_dummy q then Ok (cr_counter g) else do x <- request_cents q; Ok (cr_counter g + x)%Z) = Ok (counter_after g q t)) as ->.
    { unfold counter_after. destruct (q_dummy q); [reflexivity|]. rewrite (total_cents q t T). reflexivity. }
    cbv iota. rewrite <- Ec.
    rewrite (complete_over_ok w o g c q q' (q_time q) fa fb fc fd fe tb pcb cb _ pb _ Am' Etc G Ecb Epc eq_refl Epb Esg).
    unfold jws. rewrite sign_parts_ok by exact Bsb. cbn [bind]. unfold mangle_signature. rewrite A13, A14. reflexivity.
  - pose proof (toJWSString_spec w f (b64url_nopad sb) rr pb R1 Epb) as J. exact J.
  - assert (exists zs, printed_amounts w rr zs /\ Forall moderate zs /\ z = total zs /\ (zero_request q' <-> Forall (eq 0%Z) zs)) as (zs & Pr & Mo & -> & Ze).
    { destruct Tz as (zs & (a & b & c0 & d & e & -> & A & B & C & D & E)%five & ->). exists [a; b; c0; d; e].
      split. { unfold printed_amounts, rr, f, rec_of, request_fields, r_fields. cbv zeta.
               cbn [f_zda SpecReceipt.f_register f_receipt f_time f_a f_b f_c f_d f_e f_tc SpecReceipt.f_serial SpecReceipt.f_chain r_registerId r_zda r_receiptId r_dateTime r_dateTimeStr r_sumA r_sumAStr r_sumB r_sumBStr r_sumC r_sumCStr r_sumD r_sumDStr r_sumE r_sumEStr r_encTC r_certSerial r_previousChain r_sig].
               repeat (apply Forall2_cons; [apply money_printed; assumption|]). apply Forall2_nil. }
      split. { repeat (apply Forall_cons; [match goal with H : money _ ?x |- moderate ?x => exact (proj1 H) end|]). apply Forall_nil. }
      split; [reflexivity|]. unfold zero_request. rewrite !Forall_cons_iff.
      rewrite (money_zero _ _ A), (money_zero _ _ B), (money_zero _ _ C), (money_zero _ _ D), (money_zero _ _ E).
      split; intros (-> & -> & -> & -> & -> & _); auto 10. }
    assert (forall a n priv, q_sys q' = SignatureSystemWorking a n priv -> exists a0 n0, q_sys q = SignatureSystemWorking a0 n0 priv) as Wk.
    { intros a n priv E. rewrite A8 in E. unfold renamed in E. destruct (q_sys q); [discriminate|]. injection E as _ _ <-. eauto. }
    assert (works q' <-> works q) as Ww.
    { unfold works. rewrite A8. unfold renamed. destruct (q_sys q); split; intros (? & ? & ? & E); try discriminate E; eauto. }
    assert (unsigned rr <-> ~ works q) as Un.
    { unfold unsigned, r_signature, rr, rec_of. cbn [r_sig option_map snd]. split.
      - intros [= H] (zz & n & priv & E). destruct Dk as [_ Dk]. destruct (Dk zz n priv E) as (k & P & _).
        rewrite <- marker_eq in H. apply CodecFacts2.b64url_nopad_inj in H; [|exact Bsb|vm_compute; repeat constructor].
        rewrite (Hwk _ _ _ E) in H. destruct (P (b64url_nopad es256_header ++ [c_dot] ++ b64url_nopad pb)) as (_ & L & _).
        rewrite H in L. discriminate L.
      - intros Nw. rewrite (Hbr Nw). now rewrite marker_eq. }
    constructor; try reflexivity.
    + exact Rd.
    + rewrite A9. unfold training, rr, rec_of, f, request_fields. cbn [r_encTC f_tc]. rewrite b64decode_encode by exact Btc. rewrite <- Htr. split; [intros [= ->]; reflexivity|intros ->; reflexivity].
    + rewrite A9, A10. unfold cancellation, rr, rec_of, f, request_fields. cbn [r_encTC f_tc]. rewrite b64decode_encode by exact Btc. rewrite <- Hca. split; [intros [= ->]; reflexivity|intros ->; reflexivity].
    + rewrite (reads_zero w jws rr zs Rd Pr). now symmetry.
    + rewrite Ww. exact Un.
    + intros a n priv k E P. destruct (Wk a n priv E) as (a0 & n0 & E0).
      exists pb, (b64url_nopad sb), sb. split; [exact Epb|]. split; [reflexivity|]. split; [now apply seg_nopad|].
      rewrite (Hwk _ _ _ E0). apply P.
    + exact (reads_cents w jws rr zs Rd Pr Mo).
    + intros Sd. unfold standard_request in Sd. rewrite A9, A10 in Sd. destruct (Hst Sd) as [L De]. unfold decrypts, decryptTC.
      assert (b64decode (r_encTC rr) = Ok tb) as D by now apply b64decode_encode.
      unfold isDummy, isReversal. rewrite (isDummyTC_eq _ _ D). cbn [bind].
      assert (str_eqb tb (lit "TRA") = false) as ->. { apply not_true_iff_false. rewrite str_eqb_eq. intros ->. cbn in L. lia. }
      cbn [negb]. rewrite (isReversalTC_eq _ _ D). cbn [bind].
      assert (str_eqb tb (lit "STO") = false) as ->. { apply not_true_iff_false. rewrite str_eqb_eq. intros ->. cbn in L. lia. }
      cbn [negb]. unfold raiseForKey, r1_verifyKey. rewrite (proj1 (proj2 G)). cbn [Nat.eqb bind].
      apply b64decode_str_iff in D. rewrite D. cbn [bind]. exact De.
Qed.

(** ** Another signature *)
Lemma over_signature w g p s q : issue_over w g p (only_signature s) q
  = (fst (issue w g p q), do r <- snd (issue w g p q); Ok (mangle_signature (only_signature s) r)).
Proof.
  unfold issue_over, issue. destruct (if known_alg p then _ else _) as [rec|e]; [|reflexivity].
  change (mangle (only_signature s) rec) with (mangle no_override rec). rewrite mangle_none.
  cbn [given only_signature ov_size ov_counter]. rewrite with_size_same. cbv zeta.
  destruct (if q_dummy q then _ else _) as [c|e]; [|reflexivity].
  change (complete_over w (with_counter g c) p (only_signature s) q rec) with (complete w (with_counter g c) p q rec).
  destruct (complete w (with_counter g c) p q rec) as [[rec' jws]|e]; reflexivity.
Qed.

Lemma resigned_reads w t r s sb : reads w t r -> s = b64url_nopad sb -> is_bytes sb ->
  exists t', toJWSString (mangle_signature (only_signature s) r) (lit "R1") = Ok t' /\ reads w t' (mangle_signature (only_signature s) r).
Proof.
  intros (f & sg & (h & p & hb & pb & gb & -> & Sh & Eh & Sp & Ep & Sg & W) & R) -> B.
  assert (is_receipt w f (Some (es256_header, b64url_nopad sb)) (mangle_signature (only_signature (b64url_nopad sb)) r)) as R'.
  { destruct R as (F & S & R). split; [exact F|]. split; [|exact R]. unfold mangle_signature. cbn [r_sig]. rewrite S. reflexivity. }
  eexists. split; [exact (toJWSString_spec w f _ _ pb R' Ep)|]. exists f, (b64url_nopad sb). split; [|exact R'].
  exists (b64url_nopad es256_header), (b64url_nopad pb), es256_header, pb, sb. split; [reflexivity|]. split; [apply seg_nopad, header_is_bytes|].
  split; [exact header_bytes|]. split; [apply seg_nopad; exact (utf8_encode_bytes _ _ Ep)|]. split; [exact Ep|]. split; [now apply seg_nopad|exact W].
Qed.
