(** The receipt parsers and printers against the grammar of SpecReceipt.v. *)
From Coq Require Import Lia ZifyClasses ZifyN ZifyNat ZifyBool.
From Verif Require Import PyBase World Regex Codec PyFloat PyTime Algo Receipt ListFacts RegexFacts
  CodecFacts CodecFacts2 SpecReceipt FieldFacts.
Open Scope N_scope.
Open Scope py_scope.
Ltac Zify.zify_post_hook ::= Z.div_mod_to_equations.

(** ** Decoding texts *)

Lemma b64_text_ascii s : b64_text s -> Forall (fun c => c < 128) s.
Proof. intros (d & k & nl & -> & Hd & _ & Hn & _). now apply b64_text_ascii_parts. Qed.

Lemma b64decode_str_iff s b : b64decode_str s = Ok b <-> b64decode s = Ok b.
Proof.
  unfold b64decode_str. rewrite bind_Ok. split.
  - intros (t & Ht & H). assert (b64_text t) as T by (apply b64decode_accepts; eauto).
    apply b64_text_ascii in T. pose proof (utf8_decode_encode _ _ Ht) as D.
    rewrite utf8_decode_ascii in D by assumption. apply Ok_inj in D. now subst.
  - intros H. exists s. split; [|assumption]. apply utf8_encode_ascii, b64_text_ascii, b64decode_accepts. eauto.
Qed.

Lemma b64url_decode_str_iff s b :
  b64url_decode_str s = Ok b <-> urlsafe_b64decode (restoreb64padding s) = Ok b.
Proof.
  assert (forall t, (exists b, urlsafe_b64decode t = Ok b) -> Forall (fun c => c < 128) t) as A.
  { intros t H. apply urlsafe_b64decode_accepts in H as (d & k & nl & -> & Hd & _ & Hn & _).
    now apply b64url_parts_ascii. }
  unfold b64url_decode_str. rewrite bind_Ok. split.
  - intros (t & Ht & H). assert (Forall (fun c => c < 128) t) as T by (apply A; eauto).
    pose proof (utf8_decode_encode _ _ Ht) as D.
    rewrite utf8_decode_ascii in D by assumption. apply Ok_inj in D. now subst.
  - intros H. exists (restoreb64padding s). split; [|assumption]. apply utf8_encode_ascii, A. eauto.
Qed.

Definition encodable (s : str) : Prop := exists b, utf8_encode s = Ok b.

Lemma encodable_app s t : encodable (s ++ t) <-> encodable s /\ encodable t.
Proof.
  split.
  - intros [b H]. apply utf8_encode_app_inv in H as (x & y & Hx & Hy & _). split; eexists; eassumption.
  - intros [[x Hx] [y Hy]]. exists (x ++ y). now apply utf8_encode_app.
Qed.

Lemma encodable_cons c s : encodable (c :: s) <-> encodable [c] /\ encodable s.
Proof. apply (encodable_app [c] s). Qed.

Lemma encodable_ascii s : Forall (fun c => c < 128) s -> encodable s.
Proof. intros H. exists s. now apply utf8_encode_ascii. Qed.

Lemma encodable_In s : encodable s <-> forall c, In c s -> encodable [c].
Proof.
  induction s as [|c s IH].
  - split; [intros _ c []|intros _; now exists []].
  - rewrite encodable_cons, IH. split.
    + intros [H1 H2] x [<-|Hx]; auto.
    + intros H. split; [apply H; now left|intros x Hx; apply H; now right].
Qed.

Lemma catch_Ok {A} (m : result A) p e a : catch m p e = Ok a <-> m = Ok a.
Proof. unfold catch. destruct m as [x|x]; [reflexivity|]. destruct (p x); split; discriminate. Qed.

Lemma getEmptyOrB64_Ok s id b : getEmptyOrB64 s id = Ok b <-> b64decode s = Ok b.
Proof. unfold getEmptyOrB64. rewrite catch_Ok. apply b64decode_str_iff. Qed.

Lemma isDummyTC_eq s b : b64decode s = Ok b -> isDummyTC s = Ok (str_eqb b (lit "TRA")).
Proof. intros H. apply b64decode_str_iff in H. unfold isDummyTC. now rewrite H. Qed.
Lemma isReversalTC_eq s b : b64decode s = Ok b -> isReversalTC s = Ok (str_eqb b (lit "STO")).
Proof. intros H. apply b64decode_str_iff in H. unfold isReversalTC. now rewrite H. Qed.

(** ** The constructor *)

Ltac rsimpl :=
  cbn [r_zda r_registerId r_receiptId r_dateTime r_dateTimeStr r_sumA r_sumAStr r_sumB r_sumBStr r_sumC
       r_sumCStr r_sumD r_sumDStr r_sumE r_sumEStr r_encTC r_certSerial r_previousChain r_sig
       f_zda f_register f_receipt f_time f_a f_b f_c f_d f_e f_tc f_serial f_chain] in *.

Definition r_fields (r : receipt) : fields :=
  Fields (r_zda r) (r_registerId r) (r_receiptId r) (r_dateTimeStr r)
    (r_sumAStr r) (r_sumBStr r) (r_sumCStr r) (r_sumDStr r) (r_sumEStr r)
    (r_encTC r) (r_certSerial r) (r_previousChain r).

(** [r] is the receipt object with the given printed fields. *)
Definition is_receipt (w : world) (f : fields) (sg : option (str * str)) (r : receipt) : Prop :=
  r_fields r = f /\ r_sig r = sg
  /\ strptime w (f_time f) = Some (r_dateTime r)
  /\ getReceiptFloat w (f_a f) = Some (r_sumA r) /\ getReceiptFloat w (f_b f) = Some (r_sumB r)
  /\ getReceiptFloat w (f_c f) = Some (r_sumC r) /\ getReceiptFloat w (f_d f) = Some (r_sumD r)
  /\ getReceiptFloat w (f_e f) = Some (r_sumE r).

Lemma is_receipt_fun w f sg r r' : is_receipt w f sg r -> is_receipt w f sg r' -> r = r'.
Proof.
  intros (F & S & T & A & B & C & D & E) (F' & S' & T' & A' & B' & C' & D' & E').
  destruct r, r'. unfold r_fields in *. rsimpl. rewrite <- F' in F. injection F as -> -> -> -> -> -> -> -> -> -> -> ->.
  rewrite T in T'. rewrite A in A'. rewrite B in B'. rewrite C in C'. rewrite D in D'. rewrite E in E'.
  apply Some_inj in T', A', B', C', D', E'. now subst.
Qed.

Definition mk_of (w : world) (f : fields) : result receipt :=
  mk_receipt w (f_zda f) (f_register f) (f_receipt f) (f_time f)
    (f_a f) (f_b f) (f_c f) (f_d f) (f_e f) (f_tc f) (f_serial f) (f_chain f).

Lemma nonempty_spec s : nonempty s = true <-> s <> [].
Proof. destruct s; cbn; split; congruence. Qed.

Theorem mk_receipt_spec w f r : mk_of w f = Ok r <-> wf_fields w f /\ is_receipt w f None r.
Proof.
  unfold mk_of, mk_receipt, wf_fields. destruct f as [zda reg rid tim sa sb sc sd se tc ser ch].
  cbn [f_zda f_register f_receipt f_time f_a f_b f_c f_d f_e f_tc f_serial f_chain]. split.
  - intros H.
    destruct (nonempty rid) eqn:C1; [|discriminate].
    destruct (negb (has_char c_us rid)) eqn:C2; [|discriminate].
    destruct (nonempty zda && re_match (zdaRegex w) zda) eqn:C3; [|discriminate].
    destruct (nonempty reg && negb (has_char c_us reg)) eqn:C4; [|discriminate].
    apply bind_Ok in H as (d & Hd & H).
    apply bind_Ok in H as (fa & Ha & H). apply bind_Ok in H as (fb & Hb & H).
    apply bind_Ok in H as (fc & Hc & H). apply bind_Ok in H as (fd & Hdd & H).
    apply bind_Ok in H as (fe & He & H).
    apply bind_Ok in H as (tcb & Htc & H). apply bind_Ok in H as (chb & Hch & H).
    destruct (nonempty ser) eqn:C5; [|discriminate].
    apply bind_Ok in H as (u & Hser & H). cbv zeta in H.
    apply bind_Ok in H as (u' & Hz & H). apply Ok_inj in H.
    apply andb_true_iff in C4 as [C4 C4'].
    apply getTimestamp_spec in Hd. apply getSum_spec in Ha, Hb, Hc, Hdd, He.
    apply getEmptyOrB64_Ok in Htc, Hch. apply zda_spec in C3.
    rewrite nonempty_spec in C1, C4. apply negb_true_iff, has_char_false in C2, C4'.
    split.
    + do 5 (split; [assumption|]). split; [eauto|]. do 5 (split; [tauto|]).
      split.
      { exists tcb. split; [assumption|].
        destruct (negb (List.length tcb =? 0)%nat && ((List.length tcb <? 5)%nat || (16 <? List.length tcb)%nat)) eqn:L.
        - rewrite (isDummyTC_eq _ _ Htc) in Hz. cbn [bind] in Hz.
          destruct (str_eqb tcb (lit "TRA")) eqn:TRA.
          { apply str_eqb_eq in TRA. auto. }
          rewrite (isReversalTC_eq _ _ Htc) in Hz. cbn [bind] in Hz.
          destruct (str_eqb tcb (lit "STO")) eqn:STO; [|discriminate].
          apply str_eqb_eq in STO. auto.
        - lia. }
      split; [eauto|].
      pose proof (key_id_spec w ser) as K. pose proof (cert_serial_spec w ser) as CS.
      destruct (getCertSerialType w ser) eqn:T; try discriminate.
      * destruct (str_eqb zda (lit "AT0")) eqn:Z; [discriminate|]. apply str_eqb_neq in Z. tauto.
      * destruct (str_eqb zda (lit "AT0")) eqn:Z; [|discriminate]. apply str_eqb_eq in Z.
        left. split; [assumption|]. apply K. cbn; auto.
      * destruct (str_eqb zda (lit "AT0")) eqn:Z; [|discriminate]. apply str_eqb_eq in Z.
        left. split; [assumption|]. apply K. cbn; auto.
      * destruct (str_eqb zda (lit "AT0")) eqn:Z; [|discriminate]. apply str_eqb_eq in Z.
        left. split; [assumption|]. apply K. cbn; auto.
    + subst r. unfold is_receipt, r_fields. rsimpl. apply strptime_spec in Hd. tauto.
  - intros ((R1 & R2 & G1 & G2 & Z & (d & T) & A & B & C & D & E & (tcb & Htc & L) & (chb & Hch) & S) & I).
    destruct I as (F & Sg & IT & IA & IB & IC & ID & IE).
    cbn [f_zda f_register f_receipt f_time f_a f_b f_c f_d f_e f_tc f_serial f_chain] in *.
    rewrite (proj2 (nonempty_spec rid) R1). rewrite (proj2 (has_char_false c_us rid) R2). cbn [negb].
    rewrite (proj2 (zda_spec w zda) Z). rewrite (proj2 (nonempty_spec reg) G1).
    rewrite (proj2 (has_char_false c_us reg) G2). cbn [negb andb].
    rewrite (proj2 (getTimestamp_spec w tim rid (r_dateTime r)))
      by (now apply strptime_spec). cbn [bind].
    rewrite (proj2 (getSum_spec w sa rid _) (conj A IA)). cbn [bind].
    rewrite (proj2 (getSum_spec w sb rid _) (conj B IB)). cbn [bind].
    rewrite (proj2 (getSum_spec w sc rid _) (conj C IC)). cbn [bind].
    rewrite (proj2 (getSum_spec w sd rid _) (conj D ID)). cbn [bind].
    rewrite (proj2 (getSum_spec w se rid _) (conj E IE)). cbn [bind].
    rewrite (proj2 (getEmptyOrB64_Ok tc rid tcb) Htc). cbn [bind].
    rewrite (proj2 (getEmptyOrB64_Ok ch rid chb) Hch). cbn [bind].
    assert (nonempty ser = true) as ->.
    { destruct ser; [|reflexivity]. exfalso. destruct S as [(_ & S)|(_ & S)].
      - apply key_id_spec in S. cbn in S. intuition discriminate.
      - apply cert_serial_spec in S. discriminate. }
    assert (match getCertSerialType w ser with
      | T_SERIAL => if negb (str_eqb zda (lit "AT0")) then Ok tt else Err (InvalidCertificateProvider rid)
      | T_INVALID => Err (CertSerialInvalid rid)
      | _ => if str_eqb zda (lit "AT0") then Ok tt else Err (InvalidCertificateProvider rid)
      end = Ok tt) as ->.
    { destruct S as [(-> & S)|(N & S)].
      - apply key_id_spec in S. destruct (getCertSerialType w ser); cbn in S; try reflexivity; intuition discriminate.
      - apply cert_serial_spec in S. rewrite S. apply str_eqb_neq in N. now rewrite N. }
    cbn [bind]. cbv zeta.
    assert ((if negb (List.length tcb =? 0)%nat && ((List.length tcb <? 5)%nat || (16 <? List.length tcb)%nat)
      then do dm <- isDummyTC tc; do rv <- (if dm then Ok true else isReversalTC tc);
           (if rv then Ok tt else Err (MalformedReceipt rid))
      else Ok tt) = Ok tt) as ->.
    { destruct (negb (List.length tcb =? 0)%nat && ((List.length tcb <? 5)%nat || (16 <? List.length tcb)%nat)) eqn:C';
        [|reflexivity].
      rewrite (isDummyTC_eq _ _ Htc), (isReversalTC_eq _ _ Htc). cbn [bind].
      destruct L as [L|[L|[->| ->]]]; [lia|lia|reflexivity|reflexivity]. }
    cbn [bind]. f_equal. destruct r. unfold r_fields in F. rsimpl. inversion F; subst. reflexivity.
Qed.

Lemma wf_has_receipt w f : wf_fields w f -> exists r, mk_of w f = Ok r.
Proof.
  intros H. pose proof H as (_ & _ & _ & _ & _ & (d & T) & A & B & C & D & E & _).
  apply strptime_spec in T. apply amount_float in A as [a A], B as [b B], C as [c C], D as [d' D], E as [e E].
  exists (Receipt (f_zda f) (f_register f) (f_receipt f) d (f_time f) a (f_a f) b (f_b f) c (f_c f) d' (f_d f)
    e (f_e f) (f_tc f) (f_serial f) (f_chain f) None).
  apply mk_receipt_spec. split; [assumption|]. unfold is_receipt, r_fields. destruct f. rsimpl. tauto.
Qed.

(** ** Characters that cannot occur in fields *)

Lemma digit_not w c x : digit w c -> x < 128 -> is_09 x = false -> c <> x.
Proof.
  intros [d H] Hx Nx ->. rewrite decimal_ascii in H by assumption. now rewrite Nx in H.
Qed.

Lemma final_nl_not nl x : final_nl nl -> x <> c_nl -> ~ In x nl.
Proof. intros [->| ->] Hx; cbn; [easy|]. intros [H|[]]. congruence. Qed.

Lemma digits_not w ds x : Forall (digit w) ds -> x < 128 -> is_09 x = false -> ~ In x ds.
Proof.
  intros F Hx Nx Hin. rewrite Forall_forall in F. apply F in Hin. now apply (digit_not w x x) in Hin.
Qed.

Lemma zda_not w s x : zda_text w s -> (x = c_us \/ x = c_dash \/ x = c_semi) -> ~ In x s.
Proof.
  intros (t & nl & -> & Hn & H) Hx Hin.
  assert (x < 128 /\ is_09 x = false /\ x <> c_nl) as (X1 & X2 & X3)
    by (destruct Hx as [->|[->| ->]]; repeat split; discriminate).
  apply in_app_or in Hin as [Hin|Hin]; [|now apply (final_nl_not nl x)].
  destruct H as [->|(a & b & c & ds & -> & Ha & Hb & Hc & Hd)].
  - cbn in Hin. destruct Hx as [->|[->| ->]]; intuition discriminate.
  - cbn [In] in Hin. unfold letter, digit19 in *.
    destruct Hin as [<-|[<-|[<-|Hin]]]; [..|now apply (digits_not w ds x)];
      destruct Hx as [->|[->| ->]]; unfold c_us, c_dash, c_semi in *; lia.
Qed.

Lemma amount_not w s x : amount_text w s -> (x = c_us \/ x = c_semi) -> ~ In x s.
Proof.
  intros (sign & euros & a & b & nl & -> & Hn & Hs & F & Ha & Hb & _) Hx Hin.
  assert (x < 128 /\ is_09 x = false /\ x <> c_nl) as (X1 & X2 & X3)
    by (destruct Hx as [->| ->]; repeat split; discriminate).
  apply in_app_or in Hin as [Hin|Hin].
  { destruct Hs as [->| ->]; [easy|]. destruct Hin as [<-|[]]. destruct Hx; discriminate. }
  apply in_app_or in Hin as [Hin|Hin]; [now apply (digits_not w euros x)|].
  apply in_app_or in Hin as [Hin|Hin]; [|now apply (final_nl_not nl x)].
  cbn [In] in Hin. destruct Hin as [<-|[<-|[<-|[]]]].
  - destruct Hx; discriminate.
  - now apply (digit_not w a a) in Ha.
  - now apply (digit_not w b b) in Hb.
Qed.

(** Characters of time stamps. *)
Definition tchar (w : world) (c : N) : Prop := digit w c \/ c = 32 \/ sep c.

Lemma tchar_digit w v : v <= 9 -> tchar w (48 + v).
Proof. intros H. left. exists v. now apply decimal_digit_char. Qed.

Lemma tchar_dec w c v : decimal w c = Some v -> tchar w c.
Proof. intros H. left. now exists v. Qed.

Lemma time_chars w s d : time_text w s d -> Forall (tchar w) s.
Proof.
  intros (ty & tm & td & th & ti & ts & t & -> & Ht & Ty & Tm & Td & Th & Ti & Ts & _).
  assert (tchar w c_dash) as S1 by (right; right; now left).
  assert (tchar w c_colon) as S2 by (right; right; right; right; now right).
  assert (tchar w t) as S3 by (right; right; right; destruct Ht; [now left|right; now left]).
  assert (forall x r, minute_text w x r -> Forall (tchar w) x) as MT.
  { intros x r [(c & -> & D)|(c & -> & D & B)].
    - constructor; [now apply tchar_dec in D|constructor].
    - constructor; [apply tchar_digit; clear D; lia|]. constructor; [now apply tchar_dec in D|constructor]. }
  apply Forall_app; split.
  { destruct Ty as (a & b & c & e & x & y & z & u & -> & A & B & C & D & _).
    repeat (apply Forall_cons; [eapply tchar_dec; eassumption|]). constructor. }
  constructor; [assumption|]. apply Forall_app; split.
  { destruct Tm as [(-> & B)|(-> & B)].
    - constructor; [apply tchar_digit; lia|constructor].
    - constructor; [apply tchar_digit; lia|]. constructor; [apply tchar_digit; lia|constructor]. }
  constructor; [assumption|]. apply Forall_app; split.
  { destruct Td as [(-> & B)|[(-> & B)|[(-> & B)|[(c & -> & D & B)|(-> & B)]]]].
    - constructor; [apply tchar_digit; lia|constructor].
    - constructor; [apply (tchar_digit w 0); lia|]. constructor; [apply tchar_digit; lia|constructor].
    - constructor; [right; now left|]. constructor; [apply tchar_digit; lia|constructor].
    - constructor; [apply tchar_digit; clear D; lia|]. constructor; [now apply tchar_dec in D|constructor].
    - constructor; [apply (tchar_digit w 3); lia|]. constructor; [apply tchar_digit; lia|constructor]. }
  constructor; [assumption|]. apply Forall_app; split.
  { destruct Th as [(c & -> & D)|[(c & -> & D & B)|(-> & B)]].
    - constructor; [now apply tchar_dec in D|constructor].
    - constructor; [apply tchar_digit; clear D; lia|]. constructor; [now apply tchar_dec in D|constructor].
    - constructor; [apply (tchar_digit w 2); lia|]. constructor; [apply tchar_digit; lia|constructor]. }
  constructor; [assumption|]. apply Forall_app; split; [eauto|].
  constructor; [assumption|]. eauto.
Qed.

Lemma time_not w s d x : time_text w s d -> (x = c_us \/ x = c_semi) -> ~ In x s.
Proof.
  intros H Hx Hin. apply time_chars in H. rewrite Forall_forall in H. apply H in Hin.
  destruct Hin as [Hin|[->|Hin]].
  - apply (digit_not w x x) in Hin; [congruence|destruct Hx as [->| ->]; reflexivity..].
  - destruct Hx; discriminate.
  - destruct Hin as [->|[->|[->| ->]]]; destruct Hx; discriminate.
Qed.

Lemma b64_not s b x : b64decode s = Ok b -> (x = c_us \/ x = c_semi) -> ~ In x s.
Proof.
  intros H Hx Hin. assert (b64_text s) as (d & k & nl & -> & Hd & _ & Hn & _) by (apply b64decode_accepts; eauto).
  apply in_app_or in Hin as [Hin|Hin].
  - rewrite forallb_forall in Hd. apply Hd in Hin. destruct Hx as [->| ->]; discriminate.
  - apply in_app_or in Hin as [Hin|Hin].
    + apply repeat_spec in Hin. destruct Hx as [->| ->]; discriminate.
    + apply (final_nl_not nl x) in Hin; [assumption|exact Hn|]. destruct Hx as [->| ->]; discriminate.
Qed.

(** Segments of a JWS contain no dots. *)
Lemma seg_no_dot s b : urlsafe_b64decode (restoreb64padding s) = Ok b -> ~ In c_dot s.
Proof.
  intros H Hin. assert (In c_dot (restoreb64padding s)) as Hin'.
  { unfold restoreb64padding. destruct (_ <? 4)%nat; [apply in_or_app; now left|assumption]. }
  assert (exists b, urlsafe_b64decode (restoreb64padding s) = Ok b) as H' by eauto.
  apply urlsafe_b64decode_accepts in H' as (d & k & nl & E & Hd & _ & Hn & _). rewrite E in Hin'.
  apply in_app_or in Hin' as [Hi|Hi].
  - rewrite forallb_forall in Hd. apply Hd in Hi. discriminate.
  - apply in_app_or in Hi as [Hi|Hi].
    + apply repeat_spec in Hi. discriminate.
    + now apply (final_nl_not nl c_dot) in Hi.
Qed.

(** ** Payloads *)

Definition payload_segs (f : fields) : list str :=
  [[]; lit "R1-" ++ f_zda f; f_register f; f_receipt f; f_time f;
   f_a f; f_b f; f_c f; f_d f; f_e f; f_tc f; f_serial f; f_chain f].

Lemma payload_segs_no_us w f : wf_printed w f -> Forall (fun s => ~ In c_us s) (payload_segs f).
Proof.
  intros (W & _ & (cb & Hcb & _) & S).
  destruct W as (_ & R & _ & G & Z & (d & T) & A & B & C & D & E & (tb & Htb & _) & _ & _).
  unfold payload_segs. repeat apply Forall_cons; try assumption; try (now apply Forall_nil).
  - easy.
  - intros Hin. apply in_app_or in Hin as [Hin|Hin].
    + cbn in Hin. intuition discriminate.
    + apply (zda_not _ _ c_us Z) in Hin; auto.
  - apply (time_not _ _ _ _ T). now left.
  - apply (amount_not _ _ _ A). now left.
  - apply (amount_not _ _ _ B). now left.
  - apply (amount_not _ _ _ C). now left.
  - apply (amount_not _ _ _ D). now left.
  - apply (amount_not _ _ _ E). now left.
  - apply (b64_not _ _ _ Htb). now left.
  - apply (b64_not _ _ _ Hcb). now left.
Qed.

Lemma payload_split w f : wf_printed w f -> split_char c_us (payload_text f) = payload_segs f.
Proof. intros W. unfold payload_text. apply split_join; [discriminate|]. now apply payload_segs_no_us in W. Qed.

Lemma zda_split w zda : zda_text w zda -> split_char c_dash (lit "R1-" ++ zda) = [lit "R1"; zda].
Proof.
  intros Z. change (lit "R1-" ++ zda) with (lit "R1" ++ c_dash :: zda).
  rewrite split_char_app by (cbn; intuition discriminate).
  rewrite split_char_nosep; [reflexivity|]. apply (zda_not _ _ _ Z). auto.
Qed.

Lemma alg_and_zda_spec w label s alg zda :
  alg_and_zda w label s = Ok (alg, zda) <-> alg = lit "R1" /\ s = lit "R1-" ++ zda /\ ~ In c_dash zda.
Proof.
  unfold alg_and_zda. split.
  - intros H. pose proof (join_split c_dash s) as J. pose proof (split_char_no_sep c_dash s) as NS.
    destruct (split_char c_dash s) as [|a [|z [|]]]; try discriminate.
    destruct (re_match (algRegex w) a); [|discriminate].
    destruct (known_alg a) eqn:K; [|discriminate].
    apply Ok_inj in H. inversion H; subst. apply str_eqb_eq in K. subst.
    inversion NS as [|? ? _ NS']; subst. inversion NS'; subst. auto.
  - intros (-> & -> & N). change (lit "R1-" ++ zda) with (lit "R1" ++ c_dash :: zda).
    rewrite split_char_app by (cbn; intuition discriminate).
    rewrite split_char_nosep by assumption. reflexivity.
Qed.

(** ** Parsers *)

Definition with_sig (r : receipt) (sg : str * str) : receipt :=
  Receipt (r_zda r) (r_registerId r) (r_receiptId r) (r_dateTime r) (r_dateTimeStr r)
    (r_sumA r) (r_sumAStr r) (r_sumB r) (r_sumBStr r) (r_sumC r) (r_sumCStr r)
    (r_sumD r) (r_sumDStr r) (r_sumE r) (r_sumEStr r)
    (r_encTC r) (r_certSerial r) (r_previousChain r) (Some sg).

Lemma sign_receipt_spec r h sg r' :
  sign_receipt r h sg = Ok r' <-> (exists b, seg_decodes sg b) /\ r' = with_sig r (h, sg).
Proof.
  unfold sign_receipt, seg_decodes. split.
  - intros H. destruct (negb (ends_with_char c_eq sg)) eqn:E; [|discriminate].
    apply negb_true_iff in E. apply bind_Ok in H as (b & Hb & H). apply catch_Ok, b64url_decode_str_iff in Hb.
    apply Ok_inj in H. subst. split; [eauto|reflexivity].
  - intros ((b & E & H) & ->). rewrite E. cbn [negb].
    apply b64url_decode_str_iff in H. rewrite H. reflexivity.
Qed.

Lemma is_receipt_sig w f sg sg' r :
  is_receipt w f sg r -> is_receipt w f (Some sg') (with_sig r sg').
Proof. unfold is_receipt, with_sig, r_fields. rsimpl. tauto. Qed.

Definition no_sig (r : receipt) : receipt :=
  Receipt (r_zda r) (r_registerId r) (r_receiptId r) (r_dateTime r) (r_dateTimeStr r)
    (r_sumA r) (r_sumAStr r) (r_sumB r) (r_sumBStr r) (r_sumC r) (r_sumCStr r)
    (r_sumD r) (r_sumDStr r) (r_sumE r) (r_sumEStr r)
    (r_encTC r) (r_certSerial r) (r_previousChain r) None.

Lemma is_receipt_nosig w f sg r : is_receipt w f (Some sg) r -> is_receipt w f None (no_sig r) /\ r = with_sig (no_sig r) sg.
Proof.
  unfold is_receipt, with_sig, no_sig, r_fields. rsimpl. intros H. split; [tauto|].
  destruct r. rsimpl. destruct H as (_ & -> & _). reflexivity.
Qed.

Lemma remove_eq_spec s : nonempty (remove_char c_eq s) = true <-> exists c, In c s /\ c <> c_eq.
Proof.
  rewrite nonempty_spec. unfold remove_char. split.
  - intros H. destruct (filter (fun x => negb (x =? c_eq)) s) as [|c l] eqn:E; [congruence|].
    exists c. assert (In c (c :: l)) as Hin by now left. rewrite <- E in Hin. apply filter_In in Hin as [H1 H2].
    split; [assumption|]. apply negb_true_iff, N.eqb_neq in H2. assumption.
  - intros (c & Hc & Nc) E. assert (In c []) as F; [|destruct F].
    rewrite <- E. apply filter_In. split; [assumption|]. now apply negb_true_iff, N.eqb_neq.
Qed.

Definition finish_of (w : world) (label alg : str) (f : fields) (header sg : str) : result (receipt * str) :=
  finish_receipt w label alg (f_zda f) (f_register f) (f_receipt f) (f_time f)
    (f_a f) (f_b f) (f_c f) (f_d f) (f_e f) (f_tc f) (f_serial f) (f_chain f) header sg.

Lemma finish_spec w label alg f h sg r alg' :
  ~ In c_us (f_serial f) ->
  finish_of w label alg f h sg = Ok (r, alg') <->
  alg' = alg /\ wf_printed w f /\ (exists b, seg_decodes sg b) /\ is_receipt w f (Some (h, sg)) r.
Proof.
  intros NS. unfold finish_of, finish_receipt. fold (mk_of w f). split.
  - intros H. destruct (nonempty (remove_char c_eq (f_tc f))) eqn:T; [|discriminate].
    apply bind_Ok in H as (r0 & H0 & H). apply bind_Ok in H as (r1 & H1 & H).
    apply bind_Ok in H as (cv & Hcv & H).
    destruct (List.length cv =? r1_chainBytes)%nat eqn:L; [|discriminate].
    apply Ok_inj in H. inversion H; subst. clear H. split; [reflexivity|].
    apply mk_receipt_spec in H0 as [W I]. apply sign_receipt_spec in H1 as [G ->].
    apply b64decode_str_iff in Hcv. apply Nat.eqb_eq in L. apply remove_eq_spec in T.
    split; [|split; [assumption|now apply (is_receipt_sig w f None)]].
    split; [assumption|]. split; [assumption|]. split; [exists cv; now split|assumption].
  - intros (-> & (W & T & (cv & Hcv & L) & _) & G & I).
    apply remove_eq_spec in T. rewrite T.
    apply is_receipt_nosig in I as [I E].
    rewrite (proj2 (mk_receipt_spec w f (no_sig r)) (conj W I)). cbn [bind].
    rewrite (proj2 (sign_receipt_spec (no_sig r) h sg r) (conj G E)). cbn [bind].
    apply b64decode_str_iff in Hcv. rewrite Hcv. cbn [bind]. unfold r1_chainBytes. rewrite L. reflexivity.
Qed.

Lemma header_eq : r1_jwsHeader = es256_header.
Proof. reflexivity. Qed.

Theorem fromJWSString_spec w s r alg :
  fromJWSString w s = Ok (r, alg) <->
  alg = lit "R1" /\ exists f sg, jws_text w s f sg /\ is_receipt w f (Some (es256_header, sg)) r.
Proof.
  unfold fromJWSString. split.
  - intros H. pose proof (join_split c_dot s) as J.
    destruct (split_char c_dot s) as [|h [|p [|sg [|]]]]; try discriminate.
    destruct (negb (ends_with_char c_eq h || ends_with_char c_eq p || ends_with_char c_eq sg)) eqn:E; [|discriminate].
    apply negb_true_iff, orb_false_iff in E as [E Esg]. apply orb_false_iff in E as [Eh Ep].
    apply bind_Ok in H as (ht & Hh & H). apply bind_Ok in H as (pt & Hp & H).
    apply catch_Ok, bind_Ok in Hh as (hb & Hh & Hht). apply catch_Ok, bind_Ok in Hp as (pb & Hp & Hpt).
    apply b64url_decode_str_iff in Hh, Hp.
    pose proof (join_split c_us pt) as JP. pose proof (split_char_no_sep c_us pt) as NS.
    destruct (split_char c_us pt) as [|e [|az [|g [|i [|t [|a [|b [|c [|d [|ee [|tc [|ser [|ch [|]]]]]]]]]]]]]]; try discriminate.
    destruct e; [|discriminate]. cbn [nonempty negb] in H.
    apply bind_Ok in H as ((al & z) & Haz & H). cbn [fst snd] in H.
    apply alg_and_zda_spec in Haz as (-> & -> & _).
    destruct (str_eqb r1_jwsHeader ht) eqn:HH; [|discriminate]. apply str_eqb_eq in HH. subst ht.
    apply (finish_spec w s (lit "R1") (Fields z g i t a b c d ee tc ser ch)) in H as (-> & W & (gb & G) & I).
    2: { rsimpl. rewrite Forall_forall in NS. apply NS. cbn; tauto. }
    split; [reflexivity|].
    exists (Fields z g i t a b c d ee tc ser ch), sg. split; [|assumption].
    exists h, p, hb, pb, gb. split; [symmetry; exact J|]. split; [now split|].
    split; [rewrite <- header_eq; now apply utf8_encode_decode|]. split; [now split|].
    split; [|now split].
    assert (payload_text (Fields z g i t a b c d ee tc ser ch) = pt) as -> by exact JP.
    now apply utf8_encode_decode.
  - intros (-> & f & sg & (h & p & hb & pb & gb & -> & (Eh & Hh) & Hht & (Ep & Hp) & Hpt & G & W) & I).
    pose proof (seg_no_dot _ _ Hh) as Nh. pose proof (seg_no_dot _ _ Hp) as Np.
    pose proof (seg_no_dot _ _ (proj2 G)) as Ng.
    cbn [app]. rewrite split_char_app by assumption.
    rewrite split_char_app by assumption. rewrite split_char_nosep by assumption.
    rewrite Eh, Ep, (proj1 G). cbn [orb negb].
    apply b64url_decode_str_iff in Hh, Hp. rewrite Hh. cbn [bind].
    rewrite (utf8_decode_encode _ _ Hht). cbn [catch bind].
    rewrite Hp. cbn [bind]. rewrite (utf8_decode_encode _ _ Hpt). cbn [catch bind].
    rewrite (payload_split w f W). unfold payload_segs. cbn [nonempty negb].
    assert (alg_and_zda w (h ++ c_dot :: p ++ c_dot :: sg) (lit "R1-" ++ f_zda f) = Ok (lit "R1", f_zda f)) as ->.
    { apply alg_and_zda_spec. split; [reflexivity|]. split; [reflexivity|].
      destruct W as (W & _). apply (zda_not w). { apply W. } auto. }
    cbn [bind fst snd]. rewrite header_eq, str_eqb_refl.
    fold (finish_of w (h ++ c_dot :: p ++ c_dot :: sg) (lit "R1") f es256_header sg).
    apply finish_spec; [apply W|]. split; [reflexivity|]. split; [assumption|]. split; [eauto|assumption].
Qed.

Lemma seg_nopad b : is_bytes b -> seg_decodes (b64url_nopad b) b.
Proof.
  intros H. split; [apply b64url_nopad_noeq|]. rewrite restore_padding. now apply urlsafe_decode_encode.
Qed.

Theorem fromBasicCode_spec w s r alg :
  fromBasicCode w s = Ok (r, alg) <->
  alg = lit "R1" /\ exists f sg, qr_text w s f sg /\ is_receipt w f (Some (es256_header, b64url_nopad sg)) r.
Proof.
  unfold fromBasicCode. split.
  - intros H.
    pose proof (join_split c_us s) as JP. pose proof (split_char_no_sep c_us s) as NS.
    destruct (split_char c_us s) as [|e [|az [|g [|i [|t [|a [|b [|c [|d [|ee [|tc [|ser [|ch [|sg [|]]]]]]]]]]]]]]]; try discriminate.
    destruct e; [|discriminate]. cbn [nonempty negb] in H.
    apply bind_Ok in H as ((al & z) & Haz & H). cbn [fst snd] in H.
    apply alg_and_zda_spec in Haz as (-> & -> & _).
    apply bind_Ok in H as (sb & Hs & H). apply catch_Ok, b64decode_str_iff in Hs.
    apply (finish_spec w s (lit "R1") (Fields z g i t a b c d ee tc ser ch)) in H as (-> & W & (gb & G) & I).
    2: { rsimpl. rewrite Forall_forall in NS. apply NS. cbn; tauto. }
    split; [reflexivity|].
    exists (Fields z g i t a b c d ee tc ser ch), sb. split; [|assumption].
    exists sg. split; [|now split]. rewrite <- JP. unfold payload_text. rsimpl. cbn [join app].
    repeat (rewrite <- app_assoc; cbn [app]). reflexivity.
  - intros (-> & f & sg & (g & -> & Hg & W) & I).
    assert (split_char c_us (payload_text f ++ [c_us] ++ g) = payload_segs f ++ [g]) as ->.
    { replace (payload_text f ++ [c_us] ++ g) with (join [c_us] (payload_segs f ++ [g])).
      - apply split_join; [discriminate|]. apply Forall_app. split; [now apply payload_segs_no_us in W|].
        constructor; [|constructor]. apply (b64_not _ _ _ Hg). now left.
      - unfold payload_text, payload_segs. cbn [join app]. repeat (rewrite <- app_assoc; cbn [app]). reflexivity. }
    unfold payload_segs. cbn [app nonempty negb].
    match goal with |- context [alg_and_zda w ?l _] =>
      assert (alg_and_zda w l (lit "R1-" ++ f_zda f) = Ok (lit "R1", f_zda f)) as AZ end.
    { apply alg_and_zda_spec. split; [reflexivity|]. split; [reflexivity|].
      destruct W as (W & _). apply (zda_not w). { apply W. } auto. }
    cbn [app] in AZ. rewrite AZ. clear AZ.
    cbn [bind fst snd]. apply b64decode_str_iff in Hg as Hg'. rewrite Hg'. cbn [catch bind].
    match goal with |- finish_receipt w ?l _ _ _ _ _ _ _ _ _ _ _ _ _ _ _ = _ =>
      apply (finish_spec w l (lit "R1") f) end; [apply W|].
    split; [reflexivity|]. split; [assumption|].
    split; [|assumption]. exists sg. apply seg_nopad. now apply b64decode_bytes in Hg.
Qed.
