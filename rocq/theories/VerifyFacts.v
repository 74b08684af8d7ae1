(** Verification of single receipts: the model meets the specification. *)
From Coq Require Import Floats.SpecFloat.
From Verif Require Import PyBase World Codec PyFloat PyTime Algo Receipt ListFacts CodecFacts SpecReceipt ReceiptFacts
  RoundTrip Json KeyStore VerifyReceipt State SpecDep.
Open Scope N_scope.
Open Scope py_scope.

Lemma parse_reads w s r alg : fromJWSString w s = Ok (r, alg) <-> alg = lit "R1" /\ reads w s r.
Proof. apply fromJWSString_spec. Qed.

Lemma reads_fun w s r r' : reads w s r -> reads w s r' -> r = r'.
Proof.
  intros H H'. assert (fromJWSString w s = Ok (r, lit "R1")) as A by now apply parse_reads.
  assert (fromJWSString w s = Ok (r', lit "R1")) as B by now apply parse_reads.
  rewrite A in B. apply Ok_inj in B. congruence.
Qed.

Lemma reads_nonempty w s r : reads w s r -> s <> [].
Proof. intros (f & sg & (h & p & hb & pb & gb & -> & _) & _) E. destruct h; discriminate. Qed.

Definition trainb (r : receipt) : bool :=
  match b64decode (r_encTC r) with Ok b => str_eqb b (lit "TRA") | Err _ => false end.
Definition cancelb (r : receipt) : bool :=
  match b64decode (r_encTC r) with Ok b => str_eqb b (lit "STO") | Err _ => false end.
Definition unsignedb (r : receipt) : bool :=
  match r_signature r with Some s => str_eqb marker s | None => false end.
Definition notableb (r : receipt) : bool := negb (isNull r) || trainb r || cancelb r.

Lemma trainb_iff r : trainb r = true <-> training r.
Proof.
  unfold trainb, training. destruct (b64decode (r_encTC r)) as [b|e]; [|split; discriminate].
  rewrite str_eqb_eq. split; [now intros ->|]. intros H. now apply Ok_inj in H.
Qed.
Lemma cancelb_iff r : cancelb r = true <-> cancellation r.
Proof.
  unfold cancelb, cancellation. destruct (b64decode (r_encTC r)) as [b|e]; [|split; discriminate].
  rewrite str_eqb_eq. split; [now intros ->|]. intros H. now apply Ok_inj in H.
Qed.
Lemma unsignedb_iff r : unsignedb r = true <-> unsigned r.
Proof.
  unfold unsignedb, unsigned. destruct (r_signature r); [|split; discriminate].
  rewrite str_eqb_eq. split; congruence.
Qed.
Lemma feq0_iff f : feq0 f = true <-> is_zero f.
Proof.
  unfold feq0, is_zero. split.
  - destruct f; try discriminate. eauto.
  - now intros [s ->].
Qed.
Lemma isNull_iff r : isNull r = true <-> zero r.
Proof. unfold isNull, zero. rewrite !andb_true_iff, !feq0_iff. tauto. Qed.

Lemma not_both r : training r -> cancellation r -> False.
Proof. unfold training, cancellation. intros -> H. discriminate. Qed.

Lemma standardb_iff r : trainb r || cancelb r = false <-> standard r.
Proof.
  unfold standard. rewrite orb_false_iff, <- !not_true_iff_false, trainb_iff, cancelb_iff. tauto.
Qed.

Lemma notableb_iff r : notableb r = false <-> zero r /\ standard r.
Proof.
  unfold notableb. rewrite <- orb_assoc, orb_false_iff, negb_false_iff, isNull_iff, standardb_iff. tauto.
Qed.

Lemma reads_tc w s r : reads w s r -> exists b, b64decode (r_encTC r) = Ok b.
Proof.
  intros (f & sg & (h & p & hb & pb & gb & _ & _ & _ & _ & _ & _ & W & _) & (F & _)).
  destruct W as (_ & _ & _ & _ & _ & _ & _ & _ & _ & _ & _ & (b & H & _) & _).
  rewrite <- F in H. exists b. exact H.
Qed.

Lemma reads_isDummy w s r : reads w s r -> isDummy r = Ok (trainb r).
Proof. intros H. apply reads_tc in H as [b H]. unfold isDummy, trainb. rewrite H. now apply isDummyTC_eq. Qed.
Lemma reads_isReversal w s r : reads w s r -> isReversal r = Ok (cancelb r).
Proof. intros H. apply reads_tc in H as [b H]. unfold isReversal, cancelb. rewrite H. now apply isReversalTC_eq. Qed.
Lemma reads_sig w s r : reads w s r -> exists sg sb, r_sig r = Some (es256_header, sg) /\ seg_decodes sg sb.
Proof.
  intros (f & sg & (h & p & hb & pb & gb & _ & _ & _ & _ & _ & G & _) & (_ & S & _)). eauto.
Qed.
Lemma reads_isSignedBroken w s r : reads w s r -> isSignedBroken r = Ok (unsignedb r).
Proof.
  intros H. apply reads_sig in H as (sg & sb & S & _). unfold isSignedBroken, unsignedb, r_signature. now rewrite S.
Qed.
Lemma reads_notable w s r : reads w s r -> notable r = Ok (notableb r).
Proof.
  intros H. unfold notable, notableb, orR. cbn [bind].
  rewrite (reads_isDummy _ _ _ H), (reads_isReversal _ _ _ H).
  destruct (isNull r), (trainb r), (cancelb r); reflexivity.
Qed.

(** ** Signature *)

Lemma r1_verify_spec w r k s :
  reads w s r ->
  exists jws, toJWSString r (lit "R1") = Ok jws /\ (r1_verify w jws k = true <-> signed_by w k r).
Proof.
  intros (f & sg & (h & p & hb & pb & gb & _ & _ & _ & _ & P & G & W) & I).
  pose proof (toJWSString_spec _ _ _ _ _ I P) as T. eexists. split; [exact T|].
  destruct I as (F & S & _). rewrite <- F in P.
  assert (is_bytes pb) as PB by now apply utf8_encode_bytes in P.
  unfold r1_verify.
  assert (split_char c_dot (b64url_nopad es256_header ++ [c_dot] ++ b64url_nopad pb ++ [c_dot] ++ sg)
          = [b64url_nopad es256_header; b64url_nopad pb; sg]) as SP.
  { change (split_char c_dot (join [c_dot] [b64url_nopad es256_header; b64url_nopad pb; sg])
            = [b64url_nopad es256_header; b64url_nopad pb; sg]).
    apply split_join; [discriminate|].
    repeat (apply Forall_cons; [|]); try apply Forall_nil.
    - apply (seg_no_dot _ es256_header), seg_nopad, header_is_bytes.
    - apply (seg_no_dot _ pb). now apply seg_nopad.
    - apply (seg_no_dot _ gb). apply G. }
  rewrite SP. cbn [nonempty].
  assert (nonempty (b64url_nopad pb) = true) as NE.
  { apply nonempty_spec. intros E.
    assert (seg_decodes (b64url_nopad pb) pb) as D by now apply seg_nopad.
    rewrite E in D. destruct D as [_ D].
    assert (pb = []) as -> by (vm_compute in D; now apply Ok_inj in D).
    apply utf8_decode_encode in P. unfold payload_text in P. discriminate P. }
  rewrite NE. cbn [andb].
  assert (G' := G). destruct G' as [_ G']. apply b64url_decode_str_iff in G'. rewrite G'. unfold signed_by. split.
  - intros V. exists pb, sg, gb. rewrite P. repeat split; try assumption; try apply G.
    unfold r_signature. now rewrite S.
  - intros (pb' & sg' & sb & P' & S' & G2 & V). rewrite P in P'. apply Ok_inj in P'. subst pb'.
    unfold r_signature in S'. rewrite S in S'. cbn in S'. apply Some_inj in S'. subst sg'.
    rewrite (seg_decodes_fun _ _ _ G G2). assumption.
Qed.

Lemma serial_ids w r s : reads w s r ->
  exists l, strSerialToKeyIds w (r_certSerial r) = Ok l
    /\ l = (match py_int w 16 (unsigned_serial (r_certSerial r)) with Some z => [fmt_x z] | None => [] end)
        ++ (match py_int w 10 (unsigned_serial (r_certSerial r)) with Some z => [fmt_x z] | None => [] end).
Proof.
  intros (f & sg & (h & p & hb & pb & gb & _ & _ & _ & _ & _ & _ & W & _) & (F & _)).
  destruct W as (_ & _ & _ & _ & _ & _ & _ & _ & _ & _ & _ & _ & _ & S).
  assert (r_certSerial r <> []) as NE.
  { rewrite <- F in S. cbn in S. intros E. rewrite E in S. destruct S as [[_ S]|[_ S]].
    - destruct S as (b & B & _ & [E'|[E'|(x & E' & _)]]).
      + subst b. destruct B as [(b & E' & _)|[(b & E' & _)|(b & E' & _)]]; discriminate.
      + discriminate.
      + destruct b; discriminate.
    - destruct S as (b & B & _ & [E'|[E'|(x & E' & _)]]).
      + subst b. destruct B as [[z B]|[z B]]; vm_compute in B; discriminate.
      + discriminate.
      + destruct b; discriminate. }
  unfold strSerialToKeyIds, unsigned_serial. destruct (r_certSerial r) as [|c t]; [congruence|]. eauto.
Qed.

Lemma existsb_In s l : existsb (str_eqb s) l = true <-> In s l.
Proof.
  rewrite existsb_exists. split.
  - intros (x & Hx & E). apply str_eqb_eq in E. now subst.
  - intros H. exists s. split; [assumption|apply str_eqb_refl].
Qed.

Lemma in_serials w s x :
  In x ((match py_int w 16 (unsigned_serial s) with Some z => [fmt_x z] | None => [] end)
        ++ (match py_int w 10 (unsigned_serial s) with Some z => [fmt_x z] | None => [] end)) <->
  serial_id w 16 s x \/ serial_id w 10 s x.
Proof.
  unfold serial_id. rewrite in_app_iff. apply Morphisms_Prop.or_iff_morphism.
  - destruct (py_int w 16 _) as [z|]; cbn; split.
    + intros [<-|[]]. eauto.
    + intros (z' & E & ->). apply Some_inj in E. subst. now left.
    + easy.
    + now intros (z' & E & _).
  - destruct (py_int w 10 _) as [z|]; cbn; split.
    + intros [<-|[]]. eauto.
    + intros (z' & E & ->). apply Some_inj in E. subst. now left.
    + easy.
    + now intros (z' & E & _).
Qed.

Lemma is_closed_iff r : str_eqb (r_zda r) (lit "AT0") = true <-> closed r.
Proof. apply str_eqb_eq. Qed.

(** The choice of the key. *)
Lemma choose_key_spec w v r s :
  proper v -> reads w s r ->
  (cert_fits w v r /\ exists o, choose_key w v r = Ok o /\ forall k, o = Some k <-> key_of w v r k)
  \/ (~ cert_fits w v r /\ choose_key w v r = Err (CertSerialMismatch (r_receiptId r))).
Proof.
  intros Pv R. destruct (serial_ids w r s R) as (l & SI & El).
  unfold choose_key, cert_fits, key_of. rewrite SI. cbn [bind].
  destruct Pv as [[c ->]|[ks ->]]; cbn [v_cert v_store fromCert fromKeyStore].
  - destruct (str_eqb (r_zda r) (lit "AT0")) eqn:Z.
    + left. apply is_closed_iff in Z. split; [auto|]. eexists. split; [reflexivity|]. intros k. split; congruence.
    + destruct (existsb (str_eqb (numSerialToKeyId (w_serial w c))) l) eqn:E.
      * left. split.
        -- intros c' Ec. apply Some_inj in Ec. subst c'. right. apply existsb_In in E. subst l.
           apply in_serials in E. exact E.
        -- eexists. split; [reflexivity|]. intros k. split; congruence.
      * right. split; [|reflexivity]. intros H. destruct (H c eq_refl) as [C|C].
        -- apply is_closed_iff in C. congruence.
        -- apply in_serials in C. rewrite <- El in C. apply existsb_In in C.
           unfold numSerialToKeyId in E. congruence.
  - left. split; [discriminate|].
    destruct (str_eqb (r_zda r) (lit "AT0")) eqn:Z.
    + apply is_closed_iff in Z. eexists. split; [reflexivity|]. intros k. unfold has_key. split.
      * intros H. exists ks. auto.
      * intros (ks' & E & [[_ H]|[N _]]); apply Some_inj in E; subst; [assumption|contradiction].
    + assert (~ closed r) as NC by (rewrite <- is_closed_iff; congruence).
      eexists. split; [reflexivity|]. intros k. unfold has_key. split.
      * intros H. exists ks. split; [reflexivity|]. right. split; [assumption|].
        subst l. unfold serial_id.
        destruct (py_int w 16 _) as [z|] eqn:E1; cbn [app first_key] in H.
        -- destruct (getKey ks (fmt_x z)) as [k'|] eqn:G.
           ++ left. apply Some_inj in H. subst k'. eauto.
           ++ right. split.
              ** intros i (z' & E & ->). apply Some_inj in E. now subst.
              ** destruct (py_int w 10 _) as [z'|] eqn:E2; cbn [first_key] in H; [|discriminate].
                 destruct (getKey ks (fmt_x z')) eqn:G'; [|discriminate]. apply Some_inj in H. subst. eauto.
        -- right. split; [intros i (z' & E & _); discriminate|].
           destruct (py_int w 10 _) as [z'|] eqn:E2; cbn [first_key] in H; [|discriminate].
           destruct (getKey ks (fmt_x z')) eqn:G'; [|discriminate]. apply Some_inj in H. subst. eauto.
      * intros (ks' & E & [[C _]|[_ H]]); [contradiction|]. apply Some_inj in E. subst ks'. subst l.
        unfold serial_id in H. destruct H as [(i & (z & E & ->) & G)|[N (i & (z & E & ->) & G)]].
        -- rewrite E. cbn [app first_key]. now rewrite G.
        -- rewrite E. destruct (py_int w 16 _) as [z'|] eqn:E1; cbn [app first_key].
           ++ rewrite (N (fmt_x z')) by eauto. now rewrite G.
           ++ now rewrite G.
Qed.

(** What [verify] does with a receipt that was read. *)
Lemma verify_spec w v r s :
  proper v -> reads w s r ->
  (~ cert_fits w v r /\ verify w v r (lit "R1") = Err (CertSerialMismatch (r_receiptId r)))
  \/ (cert_fits w v r /\ unsigned r /\
      verify w v r (lit "R1") = Err (if negb (trainb r || cancelb r) && isNull r
                                     then UnsignedNullReceipt (r_receiptId r)
                                     else SignatureSystemFailed (r_receiptId r)))
  \/ (cert_fits w v r /\ ~ unsigned r /\ (exists k, key_of w v r k /\ signed_by w k r)
      /\ verify w v r (lit "R1") = Ok (r, lit "R1"))
  \/ (cert_fits w v r /\ ~ unsigned r /\ ~ (exists k, key_of w v r k /\ signed_by w k r)
      /\ exists e, verify w v r (lit "R1") = Err e /\
         (e = NoPublicKey (r_receiptId r) \/ e = InvalidSignature (r_receiptId r))).
Proof.
  intros Pv R. unfold verify. change (known_alg (lit "R1")) with true. cbn iota.
  destruct (choose_key_spec w v r s Pv R) as [(C & o & K & Ko)|(C & K)]; rewrite K; cbn [bind].
  2:{ left. auto. }
  right. rewrite (reads_isSignedBroken _ _ _ R). cbn [bind].
  destruct (unsignedb r) eqn:U.
  - left. apply unsignedb_iff in U. split; [assumption|]. split; [assumption|].
    rewrite (reads_isDummy _ _ _ R), (reads_isReversal _ _ _ R). cbn [bind].
    destruct (trainb r), (cancelb r), (isNull r); reflexivity.
  - right. assert (~ unsigned r) as NU by (rewrite <- unsignedb_iff; congruence).
    destruct o as [k|].
    + destruct (r1_verify_spec w r k s R) as (jws & J & V). rewrite J. cbn [bind].
      destruct (r1_verify w jws k) eqn:E.
      * left. repeat split; try assumption. exists k. split; [now apply Ko|now apply V].
      * right. repeat split; try assumption.
        -- intros (k' & K1 & S). apply Ko in K1. apply Some_inj in K1. subst k'. apply V in S. congruence.
        -- eexists. split; [reflexivity|]. now right.
    + right. repeat split; try assumption.
      * intros (k' & K1 & _). apply Ko in K1. discriminate.
      * eexists. split; [reflexivity|]. now left.
Qed.

(** A receipt is authentic exactly if [verify] accepts it or reports one of the
    two non-fatal conditions. *)
Lemma verifyJWS_spec w v s r :
  proper v -> reads w s r ->
  (authentic w v r /\ ~ unsigned r /\ verifyJWS w v s = Ok (r, lit "R1"))
  \/ (authentic w v r /\ unsigned r /\ exists e, verifyJWS w v s = Err e /\
        (e = UnsignedNullReceipt (r_receiptId r) \/ e = SignatureSystemFailed (r_receiptId r)))
  \/ (~ authentic w v r /\ exists e, verifyJWS w v s = Err e /\
        (e = CertSerialMismatch (r_receiptId r) \/ e = NoPublicKey (r_receiptId r)
         \/ e = InvalidSignature (r_receiptId r))).
Proof.
  intros Pv R. unfold verifyJWS. assert (fromJWSString w s = Ok (r, lit "R1")) as P by now apply parse_reads.
  rewrite P. cbn [bind fst snd]. unfold authentic.
  destruct (verify_spec w v r s Pv R) as [(C & E)|[(C & U & E)|[(C & U & K & E)|(C & U & K & e & E & H)]]].
  - right. right. split; [tauto|]. eexists. split; [exact E|]. tauto.
  - right. left. split; [tauto|]. split; [assumption|]. eexists. split; [exact E|].
    destruct (_ && _); auto.
  - left. tauto.
  - right. right. split; [tauto|]. exists e. split; [exact E|]. tauto.
Qed.
