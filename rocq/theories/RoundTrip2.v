(** OCR and CSV round trips (C03, C04), exceptions of the parsers (C05), system
    types (C07). *)
From Coq Require Import Lia ZifyClasses ZifyN ZifyNat ZifyBool.
From Verif Require Import PyBase World Regex Codec PyFloat PyTime Algo Receipt DepBase ListFacts RegexFacts
  CodecFacts CodecFacts2 SpecReceipt FieldFacts ReceiptFacts RoundTrip.
Open Scope N_scope.
Open Scope py_scope.

(** ** OCR *)

Lemma mapM_app {A B} (f : A -> result B) l m x y :
  mapM f l = Ok x -> mapM f m = Ok y -> mapM f (l ++ m) = Ok (x ++ y).
Proof.
  revert x. induction l as [|a l IH]; intros x Hl Hm.
  - cbn in Hl. apply Ok_inj in Hl. now subst.
  - cbn [mapM] in Hl. apply bind_Ok in Hl as (b & Hb & Hl). apply bind_Ok in Hl as (bs & Hbs & Hl).
    apply Ok_inj in Hl. subst. cbn [app mapM]. rewrite Hb. cbn [bind]. rewrite (IH _ Hbs Hm). reflexivity.
Qed.

(** The same fields with the binary ones in canonical base64. *)
Definition canon_fields (f : fields) (tb cb : bytes) : fields :=
  Fields (f_zda f) (f_register f) (f_receipt f) (f_time f) (f_a f) (f_b f) (f_c f) (f_d f) (f_e f)
    (b64encode tb) (f_serial f) (b64encode cb).

Definition ocr_segs (f : fields) (tb cb sb : bytes) : list str :=
  [c_us :: lit "R1-" ++ f_zda f; f_register f; f_receipt f; f_time f;
   f_a f; f_b f; f_c f; f_d f; f_e f] ++ [b32encode tb; f_serial f; b32encode cb; b32encode sb].

Lemma b32_enc_ok b : is_bytes b -> utf8_encode (b32encode b) = Ok (b32encode b).
Proof. intros H. now apply utf8_encode_ascii, b32encode_ascii. Qed.

Lemma toOCRCode_spec w f sg r tb cb sb :
  is_receipt w f (Some (es256_header, sg)) r -> encodable (payload_text f) ->
  b64decode (f_tc f) = Ok tb -> b64decode (f_chain f) = Ok cb -> seg_decodes sg sb ->
  toOCRCode r (lit "R1") = Ok (join [c_us] (ocr_segs f tb cb sb)).
Proof.
  intros (F & S & _) E T C [_ G].
  pose proof (b64decode_bytes _ _ T) as Tb. pose proof (b64decode_bytes _ _ C) as Cb.
  assert (is_bytes sb) as Sb by (now apply urlsafe_b64decode_bytes in G).
  assert (forall s, In s (payload_segments r (lit "R1")) -> encodable s) as A.
  { rewrite <- F, <- payload_segments_join in E. now apply (encodable_join [c_us]). }
  unfold toOCRCode. rewrite S.
  change (c_us :: lit "R1" ++ [c_dash] ++ r_zda r) with (c_us :: lit "R1-" ++ r_zda r).
  set (l1 := [c_us :: lit "R1-" ++ r_zda r; r_registerId r; r_receiptId r; r_dateTimeStr r;
    r_sumAStr r; r_sumBStr r; r_sumCStr r; r_sumDStr r; r_sumEStr r]).
  destruct (mapM_utf8 l1) as (b1 & H1 & _).
  { intros s Hs. apply A. change (payload_segments r (lit "R1")) with
      (l1 ++ [r_encTC r; r_certSerial r; r_previousChain r]). apply in_or_app. now left. }
  rewrite H1. cbn [bind].
  assert (r_encTC r = f_tc f /\ r_previousChain r = f_chain f /\ r_certSerial r = f_serial f) as (-> & -> & Es)
    by (rewrite <- F; repeat split).
  apply b64decode_str_iff in T, C. rewrite T. cbn [bind].
  destruct (A (r_certSerial r)) as [cs Hcs]. { cbn. tauto. }
  rewrite Hcs. cbn [bind]. rewrite C. cbn [bind]. apply b64url_decode_str_iff in G. rewrite G. cbn [bind].
  destruct (mapM_utf8 (ocr_segs f tb cb sb)) as (bs & Hbs & J & _).
  { intros s Hs. unfold ocr_segs in Hs. apply in_app_or in Hs as [Hs|Hs].
    - apply A. rewrite <- F in Hs. cbn in Hs |- *. tauto.
    - destruct Hs as [<-|[<-|[<-|[<-|[]]]]]; [..| |].
      + exists (b32encode tb). now apply b32_enc_ok.
      + rewrite <- Es. now exists cs.
      + exists (b32encode cb). now apply b32_enc_ok.
      + exists (b32encode sb). now apply b32_enc_ok. }
  assert (bs = b1 ++ [b32encode tb; cs; b32encode cb; b32encode sb]) as ->.
  { apply Ok_inj. rewrite <- Hbs. unfold ocr_segs. apply mapM_app.
    - rewrite <- F. exact H1.
    - cbn [mapM]. rewrite <- Es, Hcs, !b32_enc_ok by assumption. reflexivity. }
  apply utf8_decode_encode, J. discriminate.
Qed.

Lemma canon_wf w f tb cb :
  wf_printed w f -> b64decode (f_tc f) = Ok tb -> b64decode (f_chain f) = Ok cb -> tb <> [] ->
  wf_printed w (canon_fields f tb cb).
Proof.
  intros (W & _ & (cb' & C' & L) & S) T C N.
  pose proof (b64decode_bytes _ _ T) as Tb. pose proof (b64decode_bytes _ _ C) as Cb.
  rewrite C in C'. apply Ok_inj in C'. subst cb'.
  destruct W as (W1 & W2 & W3 & W4 & W5 & W6 & W7 & W8 & W9 & W10 & W11 & W12 & W13 & W14).
  split; [|split; [|split]].
  - unfold wf_fields, canon_fields. cbn [f_zda f_register f_receipt f_time f_a f_b f_c f_d f_e f_tc f_serial f_chain].
    repeat (split; [assumption|]). split; [|split; [|assumption]].
    + destruct W12 as (tb' & T' & K). rewrite T in T'. apply Ok_inj in T'. subst tb'. exists tb.
      split; [now apply b64decode_encode|assumption].
    + exists cb. now apply b64decode_encode.
  - cbn [canon_fields f_tc]. destruct tb as [|x [|y [|z tb]]]; [congruence|..];
      (eexists; split; [left; reflexivity|]); apply N.eqb_neq, b64_char_neq_eq.
  - cbn [canon_fields f_chain]. exists cb. split; [now apply b64decode_encode|assumption].
  - exact S.
Qed.

Lemma canon_receipt w f sg r tb cb :
  is_receipt w f sg r -> exists r', is_receipt w (canon_fields f tb cb) sg r'.
Proof.
  intros (F & S & R). exists (Receipt (r_zda r) (r_registerId r) (r_receiptId r) (r_dateTime r) (r_dateTimeStr r)
    (r_sumA r) (r_sumAStr r) (r_sumB r) (r_sumBStr r) (r_sumC r) (r_sumCStr r)
    (r_sumD r) (r_sumDStr r) (r_sumE r) (r_sumEStr r)
    (b64encode tb) (r_certSerial r) (b64encode cb) (r_sig r)).
  unfold is_receipt, r_fields, canon_fields in *. subst f. rsimpl.
  cbn [f_zda f_register f_receipt f_time f_a f_b f_c f_d f_e f_tc f_serial f_chain] in *. tauto.
Qed.

(** Two receipts that differ only in how their binary fields are encoded. *)
Definition same_up_to_encoding (r r' : receipt) : Prop :=
  (exists tb cb sb, b64decode (r_encTC r) = Ok tb /\ r_encTC r' = b64encode tb
    /\ b64decode (r_previousChain r) = Ok cb /\ r_previousChain r' = b64encode cb
    /\ sig_value r sb /\ r_sig r' = Some (es256_header, b64url_nopad sb))
  /\ r_zda r' = r_zda r /\ r_registerId r' = r_registerId r /\ r_receiptId r' = r_receiptId r
  /\ r_dateTime r' = r_dateTime r /\ r_dateTimeStr r' = r_dateTimeStr r
  /\ r_sumA r' = r_sumA r /\ r_sumAStr r' = r_sumAStr r
  /\ r_sumB r' = r_sumB r /\ r_sumBStr r' = r_sumBStr r
  /\ r_sumC r' = r_sumC r /\ r_sumCStr r' = r_sumCStr r
  /\ r_sumD r' = r_sumD r /\ r_sumDStr r' = r_sumDStr r
  /\ r_sumE r' = r_sumE r /\ r_sumEStr r' = r_sumEStr r
  /\ r_certSerial r' = r_certSerial r.

Lemma same_canon w f sg r tb cb sb r' :
  is_receipt w f (Some (es256_header, sg)) r -> b64decode (f_tc f) = Ok tb -> b64decode (f_chain f) = Ok cb ->
  seg_decodes sg sb -> is_receipt w (canon_fields f tb cb) (Some (es256_header, b64url_nopad sb)) r' ->
  same_up_to_encoding r r'.
Proof.
  intros (F & S & T & A & B & C & D & E) Tb Cb Sb (F' & S' & T' & A' & B' & C' & D' & E').
  unfold canon_fields in *. destruct r, r'. unfold r_fields, sig_value in *. rsimpl. subst f.
  cbn [f_zda f_register f_receipt f_time f_a f_b f_c f_d f_e f_tc f_serial f_chain] in *.
  injection F' as -> -> -> -> -> -> -> -> -> -> -> ->.
  rewrite T in T'. rewrite A in A'. rewrite B in B'. rewrite C in C'. rewrite D in D'. rewrite E in E'.
  apply Some_inj in T', A', B', C', D', E'. subst. unfold same_up_to_encoding, sig_value. rsimpl. split.
  - exists tb, cb, sb. repeat (split; [assumption || reflexivity|]). split; [|reflexivity]. now exists sg.
  - repeat split.
Qed.

Lemma ocr_split w f tb cb sb :
  wf_printed w f -> is_bytes tb -> is_bytes cb -> is_bytes sb ->
  split_char c_us (join [c_us] (ocr_segs f tb cb sb)) =
    [[]; lit "R1-" ++ f_zda f; f_register f; f_receipt f; f_time f; f_a f; f_b f; f_c f; f_d f; f_e f;
     b32encode tb; f_serial f; b32encode cb; b32encode sb].
Proof.
  intros W Tb Cb Sb.
  change (join [c_us] (ocr_segs f tb cb sb)) with (join [c_us] [[]; lit "R1-" ++ f_zda f; f_register f;
     f_receipt f; f_time f; f_a f; f_b f; f_c f; f_d f; f_e f;
     b32encode tb; f_serial f; b32encode cb; b32encode sb]).
  apply split_join; [discriminate|].
  pose proof (payload_segs_no_us w f W) as P. unfold payload_segs in P.
  repeat (apply Forall_cons; [try now apply b32encode_no_us|]); try apply Forall_nil;
    (rewrite Forall_forall in P; apply P; cbn [In]; tauto).
Qed.

Theorem fromOCRCode_py2 w f tb cb sb :
  wf_printed w f -> is_bytes tb -> is_bytes cb -> is_bytes sb ->
  fromOCRCode w Py2 (join [c_us] (ocr_segs f tb cb sb)) =
  fromBasicCode w (payload_text (canon_fields f tb cb) ++ [c_us] ++ b64encode sb).
Proof.
  intros W Tb Cb Sb. unfold fromOCRCode. rewrite (ocr_split w) by assumption. cbn [nonempty negb].
  rewrite !b32decode_encode_py2 by assumption. cbn [catch bind]. f_equal.
  unfold payload_text, canon_fields.
  cbn [f_zda f_register f_receipt f_time f_a f_b f_c f_d f_e f_tc f_serial f_chain].
  cbn [join]. rewrite <- ?app_assoc. reflexivity.
Qed.

Theorem ocr_py2 w f sg r tb cb sb :
  wf_printed w f -> is_receipt w f (Some (es256_header, sg)) r -> encodable (payload_text f) ->
  b64decode (f_tc f) = Ok tb -> b64decode (f_chain f) = Ok cb -> seg_decodes sg sb -> tb <> [] ->
  exists o r', toOCRCode r (lit "R1") = Ok o /\ fromOCRCode w Py2 o = Ok (r', lit "R1")
    /\ is_receipt w (canon_fields f tb cb) (Some (es256_header, b64url_nopad sb)) r'.
Proof.
  intros W I E T C G N. destruct (canon_receipt w f (Some (es256_header, sg)) r tb cb I) as [r0 I0].
  apply (is_receipt_sig w _ _ (es256_header, b64url_nopad sb)) in I0.
  eexists _, _. split; [now apply (toOCRCode_spec w f sg r tb cb sb)|]. split; [|exact I0].
  rewrite fromOCRCode_py2;
    [|assumption|now apply b64decode_bytes in T|now apply b64decode_bytes in C|now apply seg_decodes_bytes in G].
  apply fromBasicCode_spec. split; [reflexivity|]. exists (canon_fields f tb cb), sb. split; [|assumption].
  apply qr_text_encode; [now apply canon_wf|]. apply b64decode_encode. now apply seg_decodes_bytes in G.
Qed.

(** Receipts accepted by either parser, with texts that can be encoded. *)
Lemma jws_receipt w s r alg :
  fromJWSString w s = Ok (r, alg) ->
  exists f sg sb, alg = lit "R1" /\ wf_printed w f /\ is_receipt w f (Some (es256_header, sg)) r
    /\ encodable (payload_text f) /\ seg_decodes sg sb.
Proof.
  intros H. apply fromJWSString_spec in H as (-> & f & sg & J & I).
  pose proof (jws_text_encodable _ _ _ _ J) as E. destruct J as (h & p & hb & pb & gb & _ & _ & _ & _ & _ & G & W).
  exists f, sg, gb. auto.
Qed.

Lemma qr_receipt w s r alg :
  encodable s -> fromBasicCode w s = Ok (r, alg) ->
  exists f sg sb, alg = lit "R1" /\ wf_printed w f /\ is_receipt w f (Some (es256_header, sg)) r
    /\ encodable (payload_text f) /\ seg_decodes sg sb.
Proof.
  intros E H. apply fromBasicCode_spec in H as (-> & f & b & (g & -> & G & W) & I).
  apply encodable_app in E as [E _]. exists f, (b64url_nopad b), b.
  repeat (split; [assumption || reflexivity|]). apply seg_nopad. now apply b64decode_bytes in G.
Qed.

Theorem ocr_roundtrip_py2 w s r alg :
  fromJWSString w s = Ok (r, alg) -> b64decode (r_encTC r) <> Ok [] ->
  exists o r', toOCRCode r alg = Ok o /\ fromOCRCode w Py2 o = Ok (r', alg) /\ same_up_to_encoding r r'.
Proof.
  intros H N. apply jws_receipt in H as (f & sg & sb & -> & W & I & E & G).
  assert (exists tb cb, b64decode (f_tc f) = Ok tb /\ b64decode (f_chain f) = Ok cb) as (tb & cb & T & C).
  { destruct W as ((_ & _ & _ & _ & _ & _ & _ & _ & _ & _ & _ & (tb & T & _) & (cb & C) & _) & _). eauto. }
  assert (tb <> []) as N'.
  { intros ->. apply N. destruct I as (<- & _). exact T. }
  destruct (ocr_py2 w f sg r tb cb sb) as (o & r' & Ho & Hr & I'); try assumption.
  exists o, r'. split; [assumption|]. split; [assumption|]. now apply (same_canon w f sg r tb cb sb).
Qed.

(** Canonical receipts come back unchanged. *)
Lemma same_canonical r r' sg :
  same_up_to_encoding r r' -> r_sig r = Some (es256_header, sg) ->
  canon64 (r_encTC r) -> canon64 (r_previousChain r) -> canon_seg sg -> r' = r.
Proof.
  intros ((tb & cb & sb & T & T' & C & C' & (sg' & S & G) & S') & H) Sg CT CC CS.
  rewrite Sg in S. injection S as <-. apply (b64_reencode _ _ T) in CT. apply (b64_reencode _ _ C) in CC.
  apply (seg_canon _ _ G) in CS. rewrite CT in T'. rewrite CC in C'.
  assert (r_sig r' = r_sig r) as S'' by (rewrite S', Sg, CS; reflexivity). clear S' Sg.
  destruct r, r'. rsimpl. destruct H as (-> & -> & -> & -> & -> & -> & -> & -> & -> & -> & -> & -> & -> & -> & -> & ->).
  now subst.
Qed.

(** On Python 3 the OCR parser raises AttributeError for every OCR code that
    the library itself prints. *)
Theorem ocr_py3 w s r alg :
  fromJWSString w s = Ok (r, alg) ->
  exists o, toOCRCode r alg = Ok o /\ fromOCRCode w Py3 o = Err PyAttributeError.
Proof.
  intros H. apply jws_receipt in H as (f & sg & sb & -> & W & I & E & G).
  assert (exists tb cb, b64decode (f_tc f) = Ok tb /\ b64decode (f_chain f) = Ok cb) as (tb & cb & T & C).
  { destruct W as ((_ & _ & _ & _ & _ & _ & _ & _ & _ & _ & _ & (tb & T & _) & (cb & C) & _) & _). eauto. }
  eexists. split; [now apply (toOCRCode_spec w f sg r tb cb sb)|].
  unfold fromOCRCode. rewrite (ocr_split w);
    [reflexivity|assumption|now apply b64decode_bytes in T|now apply b64decode_bytes in C|now apply seg_decodes_bytes in G].
Qed.

(** ** CSV *)

(** No white space at either end. *)
Definition no_edge_space (w : world) (s : str) : Prop :=
  (forall c t, s = c :: t -> char_isspace w c = false) /\ (forall c t, s = t ++ [c] -> char_isspace w c = false).

Lemma lstrip_id sp s : (forall c t, s = c :: t -> sp c = false) -> lstrip sp s = s.
Proof. destruct s as [|c t]; [reflexivity|]. intros H. cbn [lstrip]. now rewrite (H c t eq_refl). Qed.

Lemma strip_id w s : no_edge_space w s -> strip (char_isspace w) s = s.
Proof.
  intros [H1 H2]. unfold strip. rewrite (lstrip_id _ s) by assumption. rewrite lstrip_id; [apply rev_involutive|].
  intros c t E. apply (H2 c (rev t)). rewrite <- (rev_involutive s), E. reflexivity.
Qed.

Lemma replace_char_notin c d s : ~ In c s -> replace_char c d s = s.
Proof.
  intros H. unfold replace_char. rewrite (map_ext_in _ (fun x => x)); [apply map_id|].
  intros x Hx. destruct (x =? c) eqn:E; [|reflexivity]. apply N.eqb_eq in E. now subst.
Qed.

Lemma replace_char_join c d l :
  Forall (fun s => ~ In c s) l -> replace_char c d (join [c] l) = join [d] l.
Proof.
  induction l as [|s l IH]; intros F; [reflexivity|]. inversion F; subst.
  destruct l as [|t l]; [now apply replace_char_notin|].
  change (join [c] (s :: t :: l)) with (s ++ c :: join [c] (t :: l)).
  change (join [d] (s :: t :: l)) with (s ++ d :: join [d] (t :: l)).
  unfold replace_char in *. rewrite map_app. cbn [map]. rewrite IH by assumption. rewrite N.eqb_refl.
  f_equal. now apply (replace_char_notin c d).
Qed.

(** The fields as they appear in a CSV line. *)
Definition csv_fields (f : fields) : list str :=
  [lit "R1-" ++ f_zda f; f_register f; f_receipt f; f_time f;
   f_a f; f_b f; f_c f; f_d f; f_e f; f_tc f; f_serial f; f_chain f].

Definition csv_safe (w : world) (f : fields) : Prop :=
  Forall (fun s => ~ In c_semi s /\ no_edge_space w s) (csv_fields f).

Lemma b64encode_safe w b : is_bytes b ->
  ~ In c_us (b64encode b) /\ ~ In c_semi (b64encode b) /\ no_edge_space w (b64encode b).
Proof.
  intros H. destruct (b64encode_canon b H) as (d & k & -> & F & _).
  assert (forall c, In c (d ++ repeat c_eq k) -> is_b64_char c = true \/ c = c_eq) as A.
  { intros c Hc. apply in_app_or in Hc as [Hc|Hc].
    - left. rewrite forallb_forall in F. now apply F.
    - right. now apply repeat_spec in Hc. }
  assert (forall c, is_b64_char c = true \/ c = c_eq -> char_isspace w c = false) as B.
  { intros c Hc. unfold char_isspace, is_b64_char, is_az, is_AZ, is_09, c_eq, c_plus, c_slash in *.
    replace (c <? 128) with true by lia. lia. }
  repeat split.
  - intros Hin. apply A in Hin as [Hin|Hin]; discriminate.
  - intros Hin. apply A in Hin as [Hin|Hin]; discriminate.
  - intros c t E. apply B, A. rewrite E. now left.
  - intros c t E. apply B, A. rewrite E. apply in_or_app. right. now left.
Qed.

Theorem csv_via_qr w f b :
  wf_printed w f -> is_bytes b -> csv_safe w f ->
  let q := payload_text f ++ [c_us] ++ b64encode b in
  fromCSV w (replace_char c_us c_semi (tl q)) = fromBasicCode w q.
Proof.
  intros W Hb S q. destruct (b64encode_safe w b Hb) as (B1 & B2 & B3).
  set (l := csv_fields f ++ [b64encode b]).
  assert (q = c_us :: join [c_us] l) as Eq.
  { unfold q, l, payload_text, csv_fields. cbn [join app]. rewrite <- ?app_assoc. cbn [app].
    repeat (rewrite <- ?app_assoc; cbn [app]). reflexivity. }
  assert (Forall (fun s => ~ In c_us s) l) as U.
  { apply Forall_app. split; [|repeat constructor; assumption].
    pose proof (payload_segs_no_us w f W) as P. now inversion P. }
  assert (Forall (fun s => ~ In c_semi s /\ no_edge_space w s) l) as V.
  { apply Forall_app. split; [exact S|]. apply Forall_cons; [now split|apply Forall_nil]. }
  rewrite Eq. cbn [tl]. unfold fromCSV. rewrite replace_char_join by assumption.
  rewrite split_join; [|discriminate|eapply Forall_impl; [|exact V]; intros x Hx; apply Hx].
  rewrite (map_ext_in _ (fun x => x)); [now rewrite map_id|].
  intros x Hx. rewrite Forall_forall in V. apply strip_id, V, Hx.
Qed.

Theorem csv_roundtrip w s r alg :
  fromJWSString w s = Ok (r, alg) -> csv_safe w (r_fields r) ->
  exists csv b, sig_value r b /\ toCSV r alg = Ok csv /\ fromCSV w csv = Ok (canonical_sig r b, alg).
Proof.
  intros H S. apply jws_receipt in H as (f & sg & sb & -> & W & I & E & G).
  assert (r_fields r = f) as Ef by apply I. rewrite Ef in S.
  eexists _, sb. split; [exists sg; split; [apply I|assumption]|].
  split. { unfold toCSV. rewrite (toBasicCode_spec w f sg r sb) by assumption. cbn [bind]. reflexivity. }
  pose proof (seg_decodes_bytes _ _ G) as Sb. rewrite (csv_via_qr w f sb) by assumption.
  apply fromBasicCode_spec. split; [reflexivity|]. exists f, sb. split.
  - apply qr_text_encode; [assumption|]. now apply b64decode_encode.
  - unfold canonical_sig. eapply is_receipt_sig; exact I.
Qed.

(** ** Exceptions of the parsers *)

Definition receipt_exn (e : exn) : Prop :=
  exists s, e = MalformedReceipt s \/ e = UnknownAlgorithm s \/ e = AlgorithmMismatch s
    \/ e = CertSerialInvalid s \/ e = InvalidCertificateProvider s.

Lemma rx_malformed s : receipt_exn (MalformedReceipt s). Proof. exists s. tauto. Qed.
Lemma rx_unknown s : receipt_exn (UnknownAlgorithm s). Proof. exists s. tauto. Qed.
Lemma rx_mismatch s : receipt_exn (AlgorithmMismatch s). Proof. exists s. tauto. Qed.
Lemma rx_serial s : receipt_exn (CertSerialInvalid s). Proof. exists s. tauto. Qed.
Lemma rx_provider s : receipt_exn (InvalidCertificateProvider s). Proof. exists s. tauto. Qed.
Global Hint Resolve rx_malformed rx_unknown rx_mismatch rx_serial rx_provider : rx.

(** Computations that raise nothing else. *)
Definition clean {A} (m : result A) : Prop := forall e, m = Err e -> receipt_exn e.

Lemma clean_Ok {A} (a : A) : clean (Ok a).
Proof. discriminate. Qed.
Lemma clean_Err {A} e : receipt_exn e -> @clean A (Err e).
Proof. intros H x E. now injection E as <-. Qed.
Lemma clean_bind {A B} (m : result A) (f : A -> result B) :
  clean m -> (forall a, m = Ok a -> clean (f a)) -> clean (bind m f).
Proof. intros Hm Hf e H. apply bind_Err in H as [H|(a & Ha & H)]; [now apply Hm|now apply (Hf a)]. Qed.
Lemma clean_check {A} (b : bool) e (m : result A) :
  receipt_exn e -> (b = true -> clean m) -> clean (if b then m else Err e).
Proof. intros He Hm. destruct b; [now apply Hm|now apply clean_Err]. Qed.

Lemma clean_b64 s id : encodable s -> clean (catch (b64decode_str s) b64_exn (MalformedReceipt id)).
Proof.
  intros [b Hb] e H. unfold catch, b64decode_str in H. rewrite Hb in H. cbn [bind] in H.
  destruct (b64decode b) as [x|x] eqn:E; [discriminate|].
  apply (b64decode_utf8_err s) in E as [->| ->]; [..|assumption]; injection H as <-; auto with rx.
Qed.

Lemma encodable_pad s : encodable s -> encodable (restoreb64padding s).
Proof.
  intros H. unfold restoreb64padding. destruct (_ <? 4)%nat; [|assumption].
  apply encodable_app. split; [assumption|]. apply encodable_ascii, Forall_forall. intros x Hx.
  apply repeat_spec in Hx. subst. reflexivity.
Qed.

Lemma clean_b64url s id : encodable s -> clean (catch (b64url_decode_str s) b64_exn (MalformedReceipt id)).
Proof.
  intros H e H'. apply encodable_pad in H as [b Hb]. unfold catch, b64url_decode_str in H'. rewrite Hb in H'.
  cbn [bind] in H'. destruct (urlsafe_b64decode b) as [x|x] eqn:E; [discriminate|].
  eapply urlsafe_b64decode_utf8_err in E; [|exact Hb]. destruct E as [->| ->]; injection H' as <-; auto with rx.
Qed.

Lemma clean_b64url_text s id :
  encodable s -> clean (catch (do b <- b64url_decode_str s; utf8_decode b) b64_utf8_exn (MalformedReceipt id)).
Proof.
  intros H e H'. apply encodable_pad in H as [b Hb]. unfold catch, b64url_decode_str in H'. rewrite Hb in H'.
  cbn [bind] in H'. destruct (urlsafe_b64decode b) as [x|x] eqn:E; cbn [bind] in H'.
  - destruct (utf8_decode x) as [y|y] eqn:D; [discriminate|]. apply utf8_decode_err in D. subst.
    injection H' as <-. auto with rx.
  - eapply urlsafe_b64decode_utf8_err in E; [|exact Hb]. destruct E as [->| ->]; injection H' as <-; auto with rx.
Qed.

Lemma clean_getSum w s id : clean (getSum w s id).
Proof.
  unfold getSum. destruct s; [apply clean_Err; auto with rx|].
  destruct (getReceiptFloat w _); [apply clean_Ok|apply clean_Err; auto with rx].
Qed.
Lemma clean_getTimestamp w s id : clean (getTimestamp w s id).
Proof.
  unfold getTimestamp. destruct s; [apply clean_Err; auto with rx|].
  destruct (strptime w _); [apply clean_Ok|apply clean_Err; auto with rx].
Qed.

Lemma clean_mk w zda reg rid tim a b c d e tc ser ch :
  encodable tc -> encodable ch -> clean (mk_receipt w zda reg rid tim a b c d e tc ser ch).
Proof.
  intros Et Ec. unfold mk_receipt.
  do 4 (apply clean_check; [auto with rx|intros _]).
  apply clean_bind; [apply clean_getTimestamp|intros ? _].
  do 5 (apply clean_bind; [apply clean_getSum|intros ? _]).
  apply clean_bind; [now apply clean_b64|intros tb Ht]. apply getEmptyOrB64_Ok in Ht.
  apply clean_bind; [now apply clean_b64|intros ? _].
  apply clean_check; [auto with rx|intros _].
  apply clean_bind.
  { destruct (getCertSerialType w ser); try (apply clean_check; [auto with rx|intros _; apply clean_Ok]).
    apply clean_Err; auto with rx. }
  intros _ _. cbv zeta. apply clean_bind; [|intros; apply clean_Ok].
  destruct (_ && _); [|apply clean_Ok]. rewrite (isDummyTC_eq _ _ Ht). cbn [bind].
  rewrite (isReversalTC_eq _ _ Ht). destruct (str_eqb tb _); cbn [bind].
  - apply clean_Ok.
  - apply clean_check; [auto with rx|intros _; apply clean_Ok].
Qed.

Lemma clean_finish w label alg zda reg rid tim a b c d e tc ser ch h sg :
  encodable tc -> encodable ch -> encodable sg ->
  clean (finish_receipt w label alg zda reg rid tim a b c d e tc ser ch h sg).
Proof.
  intros Et Ec Es. unfold finish_receipt. apply clean_check; [auto with rx|intros _].
  apply clean_bind; [now apply clean_mk|intros r Hr].
  change (mk_of w (Fields zda reg rid tim a b c d e tc ser ch) = Ok r) in Hr.
  apply mk_receipt_spec in Hr as [W _].
  destruct W as (_ & _ & _ & _ & _ & _ & _ & _ & _ & _ & _ & _ & (cb & C) & _).
  cbn [f_chain] in C. apply b64decode_str_iff in C.
  apply clean_bind.
  { unfold sign_receipt. apply clean_check; [auto with rx|intros _].
    apply clean_bind; [now apply clean_b64url|intros; apply clean_Ok]. }
  intros r' _. rewrite C. cbn [bind]. apply clean_check; [auto with rx|intros _; apply clean_Ok].
Qed.

Lemma clean_alg w label s : clean (alg_and_zda w label s).
Proof.
  unfold alg_and_zda. destruct (split_char c_dash s) as [|x [|y [|]]]; try (apply clean_Err; auto with rx).
  do 2 (apply clean_check; [auto with rx|intros _]). apply clean_Ok.
Qed.

Lemma encodable_split c s t : encodable s -> In t (split_char c s) -> encodable t.
Proof.
  intros H Ht. rewrite encodable_In in *. intros x Hx. apply H. now apply (split_char_In c s t).
Qed.

Theorem fromJWSString_clean w s : encodable s -> clean (fromJWSString w s).
Proof.
  intros H. unfold fromJWSString.
  pose proof (encodable_split c_dot s) as Sp.
  destruct (split_char c_dot s) as [|s0 [|s1 [|s2 [|]]]]; try (apply clean_Err; auto with rx).
  assert (encodable s0 /\ encodable s1 /\ encodable s2) as (E0 & E1 & E2).
  { repeat split; apply Sp; auto; cbn [In]; tauto. }
  apply clean_check; [auto with rx|intros _].
  apply clean_bind; [now apply clean_b64url_text|intros hd _].
  apply clean_bind; [now apply clean_b64url_text|intros pl Hp].
  assert (encodable pl) as Ep.
  { apply catch_Ok, bind_Ok in Hp as (b & _ & Hp). exists b. now apply utf8_encode_decode. }
  clear Sp. pose proof (encodable_split c_us pl) as Sp.
  destruct (split_char c_us pl) as [|p0 [|p1 [|p2 [|p3 [|p4 [|p5 [|p6 [|p7 [|p8 [|p9 [|p10 [|p11 [|p12 [|]]]]]]]]]]]]]];
    try (apply clean_Err; auto with rx).
  apply clean_check; [auto with rx|intros _].
  apply clean_bind; [apply clean_alg|intros az _].
  apply clean_check; [auto with rx|intros _].
  apply clean_finish; try assumption; apply Sp; auto; cbn [In]; tauto.
Qed.

Theorem fromBasicCode_clean w s : encodable s -> clean (fromBasicCode w s).
Proof.
  intros H. unfold fromBasicCode. pose proof (encodable_split c_us s) as Sp.
  destruct (split_char c_us s) as [|p0 [|p1 [|p2 [|p3 [|p4 [|p5 [|p6 [|p7 [|p8 [|p9 [|p10 [|p11 [|p12 [|p13 [|]]]]]]]]]]]]]]];
    try (apply clean_Err; auto with rx).
  apply clean_check; [auto with rx|intros _].
  apply clean_bind; [apply clean_alg|intros az _].
  apply clean_bind; [apply clean_b64, Sp; auto; cbn [In]; tauto|intros g _].
  apply clean_finish; [apply Sp; auto; cbn [In]; tauto..|]. apply encodable_ascii, b64url_nopad_ascii.
Qed.

Lemma lstrip_In sp s x : In x (lstrip sp s) -> In x s.
Proof.
  induction s as [|c s IH]; [easy|]. cbn [lstrip]. destruct (sp c); [intros H; right; now apply IH|easy].
Qed.
Lemma strip_In sp s x : In x (strip sp s) -> In x s.
Proof.
  unfold strip. rewrite <- in_rev. intros H. apply lstrip_In in H. apply in_rev in H. now apply lstrip_In in H.
Qed.

Lemma join_In sep l x : In x (join sep l) -> In x sep \/ exists s, In s l /\ In x s.
Proof.
  induction l as [|s l IH]; [easy|]. destruct l as [|t l].
  - intros H. right. exists s. split; [now left|assumption].
  - change (join sep (s :: t :: l)) with (s ++ sep ++ join sep (t :: l)). intros H.
    apply in_app_or in H as [H|H]; [right; exists s; split; [now left|assumption]|].
    apply in_app_or in H as [H|H]; [now left|]. apply IH in H as [H|(u & Hu & H)]; [now left|].
    right. exists u. split; [now right|assumption].
Qed.

Theorem fromCSV_clean w s : encodable s -> clean (fromCSV w s).
Proof.
  intros H. apply fromBasicCode_clean. rewrite encodable_In in *. intros c [<-|Hc]; [now exists [c_us]|].
  apply join_In in Hc as [[<-|[]]|(t & Ht & Hc)]; [now exists [c_us]|].
  apply in_map_iff in Ht as (u & <- & Hu). apply strip_In in Hc. apply H. now apply (split_char_In c_semi s u).
Qed.

(** ** System types *)

Lemma key_not_serial w s : key_id_text w s -> cert_serial_text w s -> False.
Proof.
  intros K C. apply key_id_spec in K. apply cert_serial_spec in C. rewrite C in K.
  destruct K as [K|[K|[K|[]]]]; discriminate.
Qed.

Theorem system_type w f r :
  mk_of w f = Ok r ->
  (r_zda r = lit "AT0" <-> key_id_text w (r_certSerial r))
  /\ (r_zda r <> lit "AT0" <-> cert_serial_text w (r_certSerial r)).
Proof.
  intros H. apply mk_receipt_spec in H as [W (F & _)].
  destruct W as (_ & _ & _ & _ & _ & _ & _ & _ & _ & _ & _ & _ & _ & Z). subst f. unfold r_fields in Z.
  cbn [f_zda f_serial] in Z. pose proof (key_not_serial w (r_certSerial r)) as X. tauto.
Qed.

(** ** Grammar, in the form of C06 *)

Theorem constructor_grammar w f : (exists r, mk_of w f = Ok r) <-> wf_fields w f.
Proof.
  split; [|apply wf_has_receipt]. intros [r H]. now apply mk_receipt_spec in H as [W _].
Qed.

Lemma wf_receipt_sig w f sg : wf_fields w f -> exists r, is_receipt w f (Some sg) r.
Proof.
  intros H. apply wf_has_receipt in H as [r H]. apply mk_receipt_spec in H as [_ H].
  exists (with_sig r sg). now apply (is_receipt_sig w f None).
Qed.

Lemma is_receipt_time w f sg r : is_receipt w f sg r -> time_text w (f_time f) (r_dateTime r).
Proof. intros (_ & _ & T & _). now apply strptime_spec. Qed.

Theorem jws_grammar w s :
  ((exists r alg, fromJWSString w s = Ok (r, alg)) <-> exists f sg, jws_text w s f sg)
  /\ forall r alg, fromJWSString w s = Ok (r, alg) ->
     alg = lit "R1" /\ exists f sg, jws_text w s f sg /\ r_fields r = f
       /\ r_sig r = Some (es256_header, sg) /\ time_text w (f_time f) (r_dateTime r).
Proof.
  split; [split|].
  - intros (r & alg & H). apply fromJWSString_spec in H as (_ & f & sg & J & _). eauto.
  - intros (f & sg & J). assert (wf_fields w f) as W.
    { destruct J as (h & p & hb & pb & gb & _ & _ & _ & _ & _ & _ & W). apply W. }
    apply (wf_receipt_sig w f (es256_header, sg)) in W as [r I]. exists r, (lit "R1").
    apply fromJWSString_spec. split; [reflexivity|]. eauto.
  - intros r alg H. apply fromJWSString_spec in H as (-> & f & sg & J & I). split; [reflexivity|].
    exists f, sg. split; [assumption|]. split; [apply I|]. split; [apply I|]. now apply is_receipt_time in I.
Qed.

Theorem qr_grammar w s :
  ((exists r alg, fromBasicCode w s = Ok (r, alg)) <-> exists f sg, qr_text w s f sg)
  /\ forall r alg, fromBasicCode w s = Ok (r, alg) ->
     alg = lit "R1" /\ exists f sg, qr_text w s f sg /\ r_fields r = f
       /\ r_sig r = Some (es256_header, b64url_nopad sg) /\ time_text w (f_time f) (r_dateTime r).
Proof.
  split; [split|].
  - intros (r & alg & H). apply fromBasicCode_spec in H as (_ & f & sg & J & _). eauto.
  - intros (f & sg & J). assert (wf_fields w f) as W.
    { destruct J as (g & _ & _ & W). apply W. }
    apply (wf_receipt_sig w f (es256_header, b64url_nopad sg)) in W as [r I]. exists r, (lit "R1").
    apply fromBasicCode_spec. split; [reflexivity|]. eauto.
  - intros r alg H. apply fromBasicCode_spec in H as (-> & f & sg & J & I). split; [reflexivity|].
    exists f, sg. split; [assumption|]. split; [apply I|]. split; [apply I|]. now apply is_receipt_time in I.
Qed.

Lemma payload_inj w f f' : wf_printed w f -> wf_printed w f' -> payload_text f = payload_text f' -> f = f'.
Proof.
  intros W W' E. apply payload_split in W, W'. rewrite E, W' in W. unfold payload_segs in W.
  destruct f as [x1 x2 x3 x4 x5 x6 x7 x8 x9 x10 x11 x12], f' as [y1 y2 y3 y4 y5 y6 y7 y8 y9 y10 y11 y12].
  cbn [f_zda f_register f_receipt f_time f_a f_b f_c f_d f_e f_tc f_serial f_chain] in W.
  injection W as <- <- <- <- <- <- <- <- <- <- <- <-. reflexivity.
Qed.

Theorem jws_unambiguous w s f f' sg sg' : jws_text w s f sg -> jws_text w s f' sg' -> f = f' /\ sg = sg'.
Proof.
  intros (h & p & hb & pb & gb & E & Hh & _ & Hp & Hpb & G & W)
         (h' & p' & hb' & pb' & gb' & E' & Hh' & _ & Hp' & Hpb' & G' & W').
  rewrite E in E'. apply dot_unique in E' as (-> & -> & ->);
    [|eapply seg_no_dot; apply Hh|eapply seg_no_dot; apply Hp|eapply seg_no_dot; apply G].
  split; [|reflexivity]. rewrite (seg_decodes_fun _ _ _ Hp Hp') in Hpb.
  apply (payload_inj w); [assumption..|]. now apply (utf8_encode_inj _ _ pb').
Qed.

(** ** Receipts in memory *)

Theorem shrink_expand s :
  (exists b, shrinkDEPReceipt s = Ok b /\ expandDEPReceipt b = Ok s)
  \/ shrinkDEPReceipt s = Err PyUnicodeEncodeError.
Proof.
  unfold shrinkDEPReceipt, expandDEPReceipt. destruct (utf8_encode s) as [b|e] eqn:E.
  - left. exists b. split; [reflexivity|]. now rewrite (utf8_decode_encode _ _ E).
  - right. apply utf8_encode_err in E. now subst.
Qed.

Theorem expand_shrink b :
  (exists s, expandDEPReceipt b = Ok s /\ shrinkDEPReceipt s = Ok b)
  \/ expandDEPReceipt b = Err MalformedDEPElement.
Proof.
  unfold shrinkDEPReceipt, expandDEPReceipt. destruct (utf8_decode b) as [s|e] eqn:E.
  - left. exists s. split; [reflexivity|]. now apply utf8_encode_decode.
  - right. apply utf8_decode_err in E. now subst.
Qed.
