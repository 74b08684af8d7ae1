(** A single receipt of a cash register. *)
From Coq Require Import Lia ZifyClasses ZifyN ZifyNat ZifyBool.
From Coq Require Import Floats.SpecFloat.
From Verif Require Import PyBase World ListFacts Codec CodecFacts PyFloat PyTime Algo AlgoFacts Receipt SpecReceipt FieldFacts ReceiptFacts RoundTrip KeyStore State
  VerifyReceipt VerifyFacts SpecDep SpecCluster FloatFacts AmountFacts SpecAmount CashReg SpecCashReg CashRegText.
Open Scope N_scope.
Open Scope py_scope.

(** ** Amounts *)
Lemma money_signed x z : money x z -> exists neg n, x = float_of_cents neg n /\ z = signed neg n /\ n <= max_cents.
Proof.
  intros (M & neg & -> & A & B). exists neg, (Z.abs_N z). split; [reflexivity|]. split.
  - unfold signed. destruct neg; [specialize (A eq_refl)|specialize (B eq_refl)]; lia.
  - unfold moderate, max_cents in *. change (10 ^ 14)%Z with 100000000000000%Z in M. lia.
Qed.

Lemma money_printed w x z : money x z -> amount_cents w (fmt_sum x) z.
Proof. intros (neg & n & -> & -> & L)%money_signed. rewrite fmt_cents by exact L. apply cents_text_amount. Qed.

Lemma money_zero x z : money x z -> is_zero x <-> z = 0%Z.
Proof.
  intros (neg & n & -> & -> & L)%money_signed. transitivity (feq0 (float_of_cents neg n) = true).
  - unfold is_zero, feq0. destruct (float_of_cents neg n); split; try (intros [? [=]]); try discriminate; eauto.
  - rewrite cents_zero. unfold signed. destruct neg; lia.
Qed.

Lemma money_ascii x z : money x z -> encodes (fmt_sum x).
Proof.
  intros (neg & n & -> & -> & L)%money_signed. rewrite fmt_cents by exact L. eexists. apply utf8_encode_ascii, cents_text_ascii.
Qed.

Lemma five {A B} (P : A -> B -> Prop) a b c d e zs : Forall2 P [a; b; c; d; e] zs ->
  exists x y z u v, zs = [x; y; z; u; v] /\ P a x /\ P b y /\ P c z /\ P d u /\ P e v.
Proof.
  intros F. inversion F as [|? x ? ? HA F1]; subst. inversion F1 as [|? y ? ? HB F2]; subst. inversion F2 as [|? z ? ? HC F3]; subst.
  inversion F3 as [|? u ? ? HD F4]; subst. inversion F4 as [|? v ? ? HE F5]; subst. inversion F5; subst.
  exists x, y, z, u, v. tauto.
Qed.

Lemma total_cents q z : request_total q z -> request_cents q = Ok z.
Proof.
  intros (zs & (a & b & c & d & e & -> & A & B & C & D & E)%five & ->).
  apply money_signed in A as (sa & na & A & -> & La), B as (sb & nb & B & -> & Lb), C as (sc & nc & C & -> & Lc),
    D as (sd & nd & D & -> & Ld), E as (se & ne & E & -> & Le).
  unfold request_cents. rewrite A, B, C, D, E.
  pose proof (fsum_exact sa sb sc sd se na nb nc nd ne La Lb Lc Ld Le) as X. unfold fsum in X. rewrite X. f_equal.
  unfold total. cbn [fold_right]. lia.
Qed.

Lemma total_unique q z z' : request_total q z -> request_total q z' -> z = z'.
Proof. intros A%total_cents B%total_cents. rewrite A in B. now apply Ok_inj in B. Qed.

(** ** The receipt *)
Definition rec_of (f : fields) (d : dt) (a b c e g : float) (sg : option (str * str)) : receipt :=
  Receipt (f_zda f) (f_register f) (f_receipt f) d (f_time f) a (f_a f) b (f_b f) c (f_c f) e (f_d f) g (f_e f)
    (f_tc f) (f_serial f) (f_chain f) sg.

(** The fields printed for a request *)
Definition request_fields (g : cashreg) (q : request) (tc chain : str) : fields :=
  Fields (sys_zda (q_sys q)) (cr_id g) (q_id q) (strftime (q_time q))
    (fmt_sum (q_a q)) (fmt_sum (q_b q)) (fmt_sum (q_c q)) (fmt_sum (q_d q)) (fmt_sum (q_e q)) tc (sys_serial (q_sys q)) chain.

Definition register_ok (g : cashreg) : Prop :=
  identifier (cr_id g) /\ List.length (cr_key g) = 32%nat /\ (5 <= cr_size g <= 16)%nat
  /\ (forall s, cr_last g = Some s -> s <> [] /\ encodes s).

Lemma request_wf w v g q tc chain : register_ok g -> request_ok w v q -> tc_text tc -> (exists b, b64decode chain = Ok b) ->
  wf_fields w (request_fields g q tc chain).
Proof.
  intros ((R1 & R2 & _) & _) ((I1 & I2 & _) & V & Y & (z & zs & (a & b & c & d & e & -> & A & B & C & D & E)%five & _) & (Z1 & _ & Z2 & _) & _) T Ch.
  unfold wf_fields, request_fields. cbn [f_zda f_register f_receipt f_time f_a f_b f_c f_d f_e f_tc f_serial f_chain].
  split; [exact I1|]. split; [exact I2|]. split; [exact R1|]. split; [exact R2|]. split; [exact Z1|].
  split. { exists (q_time q). now apply strftime_text. }
  split. { exact (proj1 (money_printed w _ _ A)). } split. { exact (proj1 (money_printed w _ _ B)). }
  split. { exact (proj1 (money_printed w _ _ C)). } split. { exact (proj1 (money_printed w _ _ D)). }
  split. { exact (proj1 (money_printed w _ _ E)). } split; [exact T|]. split; [exact Ch|exact Z2].
Qed.

Lemma request_reads w v g q tc chain : request_ok w v q -> exists a b c d e,
  forall sg, is_receipt w (request_fields g q tc chain) sg (rec_of (request_fields g q tc chain) (q_time q) a b c d e sg).
Proof.
  intros (_ & V & Y & (z & zs & (za & zb & zc & zd & ze & -> & A & B & C & D & E)%five & _) & _).
  destruct (float_of_amount w _ _ (money_printed w _ _ A)) as (sa & na & Ga & _).
  destruct (float_of_amount w _ _ (money_printed w _ _ B)) as (sb & nb & Gb & _).
  destruct (float_of_amount w _ _ (money_printed w _ _ C)) as (sc & nc & Gc & _).
  destruct (float_of_amount w _ _ (money_printed w _ _ D)) as (sd & nd & Gd & _).
  destruct (float_of_amount w _ _ (money_printed w _ _ E)) as (se & ne & Ge & _).
  exists (float_of_cents sa na), (float_of_cents sb nb), (float_of_cents sc nc), (float_of_cents sd nd), (float_of_cents se ne).
  intros sg. unfold is_receipt. split; [reflexivity|]. split; [reflexivity|]. split; [|auto 10].
  apply strptime_spec. now apply strftime_text.
Qed.

Lemma encodes_join l : l <> [] -> Forall encodes l -> encodes (join [c_us] l).
Proof.
  intros NE F. destruct (mapM_utf8 l) as (bs & _ & H & _).
  - intros s I. rewrite Forall_forall in F. exact (F s I).
  - eexists. exact (H NE).
Qed.

Lemma encodes_ascii s : Forall (fun c => c < 128) s -> encodes s.
Proof. intros F. eexists. now apply utf8_encode_ascii. Qed.

Lemma request_encodes w v g q tc chain : register_ok g -> request_ok w v q ->
  encodes tc -> encodes chain -> encodes (payload_text (request_fields g q tc chain)).
Proof.
  intros ((_ & _ & R) & _) ((_ & _ & I) & V & Y & (z & zs & (a & b & c & d & e & -> & A & B & C & D & E)%five & _) & (_ & Z1 & _ & _ & Z2) & _) T Ch.
  unfold payload_text. apply encodes_join; [discriminate|].
  unfold request_fields. cbn [f_zda f_register f_receipt f_time f_a f_b f_c f_d f_e f_tc f_serial f_chain].
  constructor; [now exists []|]. constructor.
  { destruct Z1 as [zb Z1]. eexists. apply utf8_encode_app; [|exact Z1]. apply utf8_encode_ascii. vm_compute. repeat constructor. }
  constructor; [exact R|]. constructor; [exact I|]. constructor; [now apply encodes_ascii, strftime_ascii|].
  constructor; [exact (money_ascii _ _ A)|]. constructor; [exact (money_ascii _ _ B)|]. constructor; [exact (money_ascii _ _ C)|].
  constructor; [exact (money_ascii _ _ D)|]. constructor; [exact (money_ascii _ _ E)|].
  constructor; [exact T|]. constructor; [exact Z2|]. constructor; [exact Ch|]. constructor.
Qed.

(** ** Issuing *)
Definition counter_after (g : cashreg) (q : request) (z : Z) : Z := if q_dummy q then cr_counter g else (cr_counter g + z)%Z.
Definition chained_to (g : cashreg) : str := match cr_last g with Some s => s | None => cr_id g end.

(** What is known about a receipt issued by register [g] *)
Record issued (w : world) (g : cashreg) (v : verifier) (q : request) (z : Z) (jws : str) (r : receipt) : Prop := Issued {
  is_reads : reads w jws r;
  is_jws : toJWSString r (lit "R1") = Ok jws;
  is_register : r_registerId r = cr_id g;
  is_id : r_receiptId r = q_id q;
  is_time : r_dateTime r = q_time q;
  is_zda : r_zda r = sys_zda (q_sys q);
  is_training : training r <-> q_dummy q = true;
  is_cancellation : cancellation r <-> q_dummy q = false /\ q_reversal q = true;
  is_zero_iff : zero r <-> zero_request q;
  is_unsigned : unsigned r <-> ~ works q;
  is_authentic : authentic w v r;
  is_cents : cents r = Ok z;
  is_chain : chain_value w (chained_to g) (r_previousChain r);
  is_counter : standard_request q -> decrypts w (cr_key g) r (counter_after g q z)
}.

Lemma counter_fits_bytes size z : (5 <= size)%nat -> counter_fits size z -> AlgoFacts.fits z size.
Proof.
  unfold counter_fits, AlgoFacts.fits, pow256. intros L.
  assert (256 ^ Z.of_nat size = 2 * 2 ^ (8 * Z.of_nat size - 1))%Z as ->; [|lia].
  rewrite <- Z.pow_succ_r by lia. replace (Z.succ (8 * Z.of_nat size - 1)) with (8 * Z.of_nat size)%Z by lia.
  rewrite Z.pow_mul_r by lia. reflexivity.
Qed.
Lemma firstn_bytes n b : is_bytes b -> is_bytes (firstn n b).
Proof. intros B. rewrite <- (firstn_skipn n b) in B. now apply Forall_app in B as [B _]. Qed.

(** The turnover counter field *)
Lemma field_tc w v g q z : aes_ok w -> register_ok g -> request_ok w v q -> request_total q z ->
  (standard_request q -> counter_fits (cr_size g) (counter_after g q z)) ->
  exists tb, (if q_dummy q then Ok (lit "TRA")
            else if q_reversal q then Ok (lit "STO")
            else do _x <- raiseForKey (cr_key g);
                 r1_encrypt w (cr_id g) (q_id q) (counter_after g q z) (cr_key g) (cr_size g)) = Ok tb
    /\ is_bytes tb
    /\ (tb = lit "TRA" <-> q_dummy q = true)
    /\ (tb = lit "STO" <-> q_dummy q = false /\ q_reversal q = true)
    /\ (standard_request q -> (5 <= List.length tb <= 16)%nat /\ r1_decrypt w (cr_id g) (q_id q) tb (cr_key g) = Ok (counter_after g q z)).
Proof.
  intros A ((_ & _ & Ri) & K & Sz & _) ((_ & _ & Qi) & _) T F. unfold standard_request in *.
  destruct (q_dummy q) eqn:D.
  - exists (lit "TRA"). split; [reflexivity|]. split; [vm_compute; repeat constructor|]. split; [tauto|].
    split; [split; [discriminate|intros [? _]; discriminate]|intros [? _]; discriminate].
  - destruct (q_reversal q) eqn:Rv.
    + exists (lit "STO"). split; [reflexivity|]. split; [vm_compute; repeat constructor|]. split; [split; discriminate|].
      split; [tauto|intros [_ ?]; discriminate].
    + unfold raiseForKey, r1_verifyKey. rewrite K. cbn [Nat.eqb bind]. destruct Ri as [ra Ri], Qi as [qa Qi].
      specialize (F (conj eq_refl eq_refl)). apply counter_fits_bytes in F; [|lia].
      destruct (proj1 (encrypt_ok_iff w (cr_id g) (q_id q) (counter_after g q z) (cr_key g) (cr_size g) ra qa Ri Qi) F) as [ct E].
      exists ct. split; [exact E|]. destruct (decrypt_encrypt w _ _ _ _ _ _ A E) as (De & L & By).
      split; [exact By|]. split; [split; [intros ->; cbn in L; lia|discriminate]|].
      split; [split; [intros ->; cbn in L; lia|intros [_ ?]; discriminate]|]. intros _. split; [rewrite L; exact Sz|exact De].
Qed.

(** The signature *)
Lemma field_sig w v q data pb : device_known w v (q_sys q) -> utf8_encode data = Ok pb ->
  exists sb, sys_sign w (q_sys q) data = Ok (b64url_nopad es256_header ++ [c_dot] ++ b64url_nopad pb ++ [c_dot] ++ b64url_nopad sb)
    /\ is_bytes sb
    /\ (~ works q -> sb = fail_marker)
    /\ (forall z n priv, q_sys q = SignatureSystemWorking z n priv ->
          sb = w_es256_sign w priv (b64url_nopad es256_header ++ [c_dot] ++ b64url_nopad pb)).
Proof.
  intros (_ & K) E. unfold works. unfold sys_sign. rewrite header_eq, header_bytes. cbn [bind]. rewrite E. cbn [bind].
  destruct (q_sys q) as [z n|z n priv].
  - exists fail_marker. split; [reflexivity|]. split; [vm_compute; repeat constructor|]. split; [reflexivity|discriminate].
  - unfold r1_sign, jws_input. rewrite header_eq, header_bytes. cbn [bind]. rewrite E. cbn [bind].
    eexists. split; [reflexivity|]. destruct (K z n priv eq_refl) as (k & P & _).
    split; [apply P|]. split; [intros H; exfalso; apply H; eauto|]. intros z' n' priv' [= -> -> ->]. reflexivity.
Qed.
Lemma marker_eq : b64url_nopad fail_marker = marker.
Proof. vm_compute. reflexivity. Qed.

Lemma sign_parts_ok r pb sb : is_bytes sb ->
  sign_parts r (b64url_nopad es256_header ++ [c_dot] ++ b64url_nopad pb ++ [c_dot] ++ b64url_nopad sb)
  = Ok (rec_of (r_fields r) (r_dateTime r) (r_sumA r) (r_sumB r) (r_sumC r) (r_sumD r) (r_sumE r) (Some (es256_header, b64url_nopad sb))).
Proof.
  intros B. unfold sign_parts. cbn [app]. rewrite split_char_app by apply b64url_nopad_nodot.
  rewrite split_char_app by apply b64url_nopad_nodot. rewrite split_char_nosep by apply b64url_nopad_nodot.
  destruct (seg_nopad es256_header header_is_bytes) as [_ H]. apply b64url_decode_str_iff in H. rewrite H. cbn [bind].
  rewrite (utf8_decode_encode es256_header es256_header header_bytes). cbn [bind]. unfold sign_receipt.
  rewrite b64url_nopad_noeq. cbn [negb]. destruct (seg_nopad sb B) as [_ G]. apply b64url_decode_str_iff in G. rewrite G. reflexivity.
Qed.

Lemma chain_nonempty g : register_ok g -> encodes (chained_to g).
Proof. intros ((_ & _ & R) & _ & _ & L). unfold chained_to. destruct (cr_last g) as [s|]; [exact (proj2 (L s eq_refl))|exact R]. Qed.

Lemma complete_ok w g c q d fa fb fc fd fe tb cb data pb sb :
  (if q_dummy q then Ok (lit "TRA")
            else if q_reversal q then Ok (lit "STO")
            else do _x <- raiseForKey (cr_key g);
                 r1_encrypt w (cr_id g) (q_id q) c (cr_key g) (cr_size g)) = Ok tb ->
  register_ok g -> utf8_encode (chained_to g) = Ok cb ->
  data = payload_text (request_fields g q (b64encode tb) (b64encode (firstn 8 (w_sha256 w cb)))) ->
  utf8_encode data = Ok pb ->
  sys_sign w (q_sys q) data = Ok (b64url_nopad es256_header ++ [c_dot] ++ b64url_nopad pb ++ [c_dot] ++ b64url_nopad sb) ->
  complete w (with_counter g c) (lit "R1") q (rec_of (request_fields g q [] []) d fa fb fc fd fe None)
  = Ok (rec_of (request_fields g q (b64encode tb) (b64encode (firstn 8 (w_sha256 w cb)))) d fa fb fc fd fe None,
        b64url_nopad es256_header ++ [c_dot] ++ b64url_nopad pb ++ [c_dot] ++ b64url_nopad sb).
Proof.
  intros Etc G Ecb -> Epb Esg. unfold complete, with_counter, rec_of, request_fields in *.
  cbn [cr_key cr_id cr_size cr_counter cr_last r_registerId r_receiptId f_register f_receipt] in *. rewrite Etc. cbn [bind].
  unfold set_tc. cbn [r_registerId r_zda r_receiptId r_dateTime r_dateTimeStr r_sumA r_sumAStr r_sumB r_sumBStr r_sumC r_sumCStr r_sumD r_sumDStr r_sumE r_sumEStr r_encTC r_certSerial r_previousChain r_sig].
  assert (r1_chain w (cr_id g) (cr_last g) = Ok (firstn 8 (w_sha256 w cb))) as ->.
  { unfold r1_chain, r1_hash. unfold chained_to in Ecb. destruct G as (_ & _ & _ & L). destruct (cr_last g) as [s|]; cbn [truthy].
    - destruct s as [|x s]; [destruct (L [] eq_refl); congruence|]. rewrite Ecb. reflexivity.
    - rewrite Ecb. reflexivity. }
  cbn [bind]. unfold set_previousChain.
  cbn [f_zda f_register f_receipt f_time f_a f_b f_c f_d f_e f_tc f_serial f_chain r_registerId r_zda r_receiptId r_dateTime r_dateTimeStr r_sumA r_sumAStr r_sumB r_sumBStr r_sumC r_sumCStr r_sumD r_sumDStr r_sumE r_sumEStr r_encTC r_certSerial r_previousChain r_sig].
  rewrite toPayloadString_spec; [|now exists pb]. cbn [bind].
  match goal with |- context [sys_sign w (q_sys q) ?x] => change x with (payload_text (request_fields g q (b64encode tb) (b64encode (firstn 8 (w_sha256 w cb))))) end.
  unfold request_fields. rewrite Esg. reflexivity.
Qed.

Lemma tc_nonempty tb : tb <> [] -> is_bytes tb -> exists c, In c (b64encode tb) /\ c <> c_eq.
Proof.
  intros NE B. pose proof (b64decode_encode tb B) as D. destruct (b64encode_shape tb) as (d & k & E & F & K & M & _).
  destruct d as [|c d].
  - destruct k as [|[|[|k]]]; cbn in M; try discriminate; try lia. rewrite E in D. cbn [app repeat] in D.
    change (b64decode []) with (@Ok bytes []) in D. apply Ok_inj in D. congruence.
  - exists c. rewrite E. split; [now left|]. cbn [forallb] in F. apply andb_true_iff in F as [F _]. intros ->. discriminate F.
Qed.

Theorem issue_ok w v g q z : hash_ok w -> aes_ok w -> register_ok g -> request_ok w v q -> request_total q z ->
  (standard_request q -> counter_fits (cr_size g) (counter_after g q z)) ->
  exists jws rec, issue w g (lit "R1") q = (with_last (with_counter g (counter_after g q z)) jws, Ok rec)
    /\ issued w g v q z jws rec.
Proof.
  intros Hh Ha G Q T F.
  destruct (field_tc w v g q z Ha G Q T F) as (tb & Etc & Btc & Htr & Hca & Hst).
  destruct (chain_nonempty g G) as [cb Ecb]. destruct (Hh cb) as [Hl Hb].
  set (pcb := firstn 8 (w_sha256 w cb)).
  assert (is_bytes pcb) as Bpc. { now apply firstn_bytes. }
  assert (List.length pcb = 8%nat) as Lpc by (unfold pcb; rewrite firstn_length; lia).
  assert (tc_text (b64encode tb)) as Ttc.
  { exists tb. split; [now apply b64decode_encode|]. unfold standard_request in Hst.
    destruct (q_dummy q) eqn:D; [right; right; left; tauto|]. destruct (q_reversal q) eqn:Rv; [right; right; right; tauto|].
    right. left. now apply Hst. }
  set (f := request_fields g q (b64encode tb) (b64encode pcb)).
  assert (encodes (payload_text f)) as [pb Epb].
  { eapply request_encodes; [exact G|exact Q| |]; apply encodes_ascii, b64encode_ascii. }
  assert (device_known w v (q_sys q)) as Dk by apply Q.
  destruct (field_sig w v q _ _ Dk Epb) as (sb & Esg & Bsb & Hbr & Hwk).
  set (jws := b64url_nopad es256_header ++ [c_dot] ++ b64url_nopad pb ++ [c_dot] ++ b64url_nopad sb) in *.
  destruct (request_reads w v g q [] [] Q) as (fa & fb & fc & fd & fe & R0).
  assert (wf_fields w (request_fields g q [] [])) as W0.
  { apply (request_wf w v); [exact G|exact Q| |].
    - exists []. split; [reflexivity|]. now left.
    - now exists []. }
  pose proof (proj2 (mk_receipt_spec w _ _) (conj W0 (R0 None))) as Mk.
  assert (is_receipt w f (Some (es256_header, b64url_nopad sb)) (rec_of f (q_time q) fa fb fc fd fe (Some (es256_header, b64url_nopad sb)))) as R1.
  { clear -R0. destruct (R0 None) as (_ & _ & A). split; [reflexivity|]. split; [reflexivity|]. exact A. }
  set (rec := rec_of f (q_time q) fa fb fc fd fe (Some (es256_header, b64url_nopad sb))) in *.
  assert (wf_fields w f) as W1. { apply (request_wf w v); [exact G|exact Q|exact Ttc|]. exists pcb. now apply b64decode_encode. }
  assert (wf_printed w f) as Wp.
  { split; [exact W1|]. split; [|split].
    - apply tc_nonempty; [|exact Btc]. destruct Ttc as (tb' & E & L). intros ->. unfold standard_request in Hst.
      destruct (q_dummy q) eqn:D. { discriminate (proj2 Htr eq_refl). } destruct (q_reversal q) eqn:Rv.
      { discriminate (proj2 Hca (conj eq_refl eq_refl)). } destruct (Hst (conj eq_refl eq_refl)) as [Lt _]. cbn in Lt. lia.
    - exists pcb. split; [now apply b64decode_encode|exact Lpc].
    - apply Q. }
  assert (reads w jws rec) as Rd.
  { exists f, (b64url_nopad sb). split; [|exact R1]. exists (b64url_nopad es256_header), (b64url_nopad pb), es256_header, pb, sb.
    split; [reflexivity|]. split; [apply seg_nopad, header_is_bytes|]. split; [exact header_bytes|].
    split; [apply seg_nopad; exact (utf8_encode_bytes _ _ Epb)|]. split; [exact Epb|]. split; [now apply seg_nopad|exact Wp]. }
  exists jws, rec. split.
  - unfold issue. change (known_alg (lit "R1")) with true. cbv iota.
    unfold mk_of in Mk. unfold request_fields at 1 2 3 4 5 6 7 8 9 10 11 12 in Mk.
    cbn [f_zda f_register f_receipt f_time f_a f_b f_c f_d f_e f_tc f_serial f_chain] in Mk. rewrite Mk.
    assert ((if q_dummy q then Ok (cr_counter g) else do x <- request_cents q; Ok (cr_counter g + x)%Z) = Ok (counter_after g q z)) as ->.
    { unfold counter_after. destruct (q_dummy q); [reflexivity|]. rewrite (total_cents q z T). reflexivity. }
    rewrite (complete_ok w g (counter_after g q z) q (q_time q) fa fb fc fd fe tb cb _ pb sb Etc G Ecb eq_refl Epb Esg).
    rewrite sign_parts_ok by exact Bsb. reflexivity.
  - assert (exists zs, printed_amounts w rec zs /\ Forall moderate zs /\ z = total zs /\ (zero_request q <-> Forall (eq 0%Z) zs)) as (zs & Pr & Mo & -> & Ze).
    { destruct T as (zs & (a & b & c & d & e & -> & A & B & C & D & E)%five & ->). exists [a; b; c; d; e].
      split. { unfold printed_amounts, rec, f, rec_of, request_fields, r_fields. cbv zeta.
               cbn [f_zda f_register f_receipt f_time f_a f_b f_c f_d f_e f_tc f_serial f_chain r_registerId r_zda r_receiptId r_dateTime r_dateTimeStr r_sumA r_sumAStr r_sumB r_sumBStr r_sumC r_sumCStr r_sumD r_sumDStr r_sumE r_sumEStr r_encTC r_certSerial r_previousChain r_sig].
               repeat (apply Forall2_cons; [apply money_printed; assumption|]). apply Forall2_nil. }
      split. { repeat (apply Forall_cons; [match goal with H : money _ ?x |- moderate ?x => exact (proj1 H) end|]). apply Forall_nil. }
      split; [reflexivity|]. unfold zero_request. rewrite !Forall_cons_iff.
      rewrite (money_zero _ _ A), (money_zero _ _ B), (money_zero _ _ C), (money_zero _ _ D), (money_zero _ _ E).
      split; intros (-> & -> & -> & -> & -> & _); auto 10. }
    assert (unsigned rec <-> ~ works q) as Un.
    { unfold unsigned, r_signature, rec, rec_of. cbn [r_sig option_map snd]. split.
      - intros [= H] (zz & n & priv & E). destruct Dk as [_ Dk]. destruct (Dk zz n priv E) as (k & P & _).
        rewrite <- marker_eq in H. apply CodecFacts2.b64url_nopad_inj in H; [|exact Bsb|vm_compute; repeat constructor].
        rewrite (Hwk _ _ _ E) in H. destruct (P (b64url_nopad es256_header ++ [c_dot] ++ b64url_nopad pb)) as (_ & L & _).
        rewrite H in L. discriminate L.
      - intros N. rewrite (Hbr N). now rewrite marker_eq. }
    constructor; try reflexivity.
    + exact Rd.
    + exact (toJWSString_spec w f _ rec pb R1 Epb).
    + unfold training, rec, rec_of, f, request_fields. cbn [r_encTC f_tc]. rewrite b64decode_encode by exact Btc. rewrite <- Htr. split; [intros [= ->]; reflexivity|intros ->; reflexivity].
    + unfold cancellation, rec, rec_of, f, request_fields. cbn [r_encTC f_tc]. rewrite b64decode_encode by exact Btc. rewrite <- Hca. split; [intros [= ->]; reflexivity|intros ->; reflexivity].
    + rewrite (reads_zero w jws rec zs Rd Pr). now symmetry.
    + exact Un.
    + split.
      * intros c Ec. destruct Dk as [Dk _]. exact (Dk c Ec).
      * destruct (q_sys q) as [zz n|zz n priv] eqn:Es.
        { left. apply Un. intros (? & ? & ? & E). congruence. }
        right. destruct Dk as [_ Dk]. destruct (Dk zz n priv eq_refl) as (k & P & Hk). exists k. split.
        -- unfold key_of. destruct (v_cert v); [exact Hk|]. destruct Hk as (ks & Ek & H). exists ks. split; [exact Ek|].
           unfold closed, rec, rec_of, f, request_fields. cbn [r_zda r_certSerial f_zda f_serial]. rewrite Es.
           exact H.
        -- exists pb, (b64url_nopad sb), sb. split; [exact Epb|]. split; [reflexivity|]. split; [now apply seg_nopad|].
           rewrite (Hwk _ _ _ eq_refl). apply P.
    + exact (reads_cents w jws rec zs Rd Pr Mo).
    + exists cb. split; [exact Ecb|reflexivity].
    + intros Sd. destruct (Hst Sd) as [L De]. unfold decrypts, decryptTC.
      assert (b64decode (r_encTC rec) = Ok tb) as D by now apply b64decode_encode.
      unfold isDummy, isReversal. rewrite (isDummyTC_eq _ _ D). cbn [bind].
      assert (str_eqb tb (lit "TRA") = false) as ->. { apply not_true_iff_false. rewrite str_eqb_eq. intros ->. cbn in L. lia. }
      cbn [negb]. rewrite (isReversalTC_eq _ _ D). cbn [bind].
      assert (str_eqb tb (lit "STO") = false) as ->. { apply not_true_iff_false. rewrite str_eqb_eq. intros ->. cbn in L. lia. }
      cbn [negb]. unfold raiseForKey, r1_verifyKey. rewrite (proj1 (proj2 G)). cbn [Nat.eqb bind].
      apply b64decode_str_iff in D. rewrite D. cbn [bind]. exact De.
Qed.
