(** Properties C01-C07 and C41: the text formats of receipts. *)
From Verif Require Import PyBase World Regex Codec PyTime Algo Receipt DepBase ListFacts CodecFacts CodecFacts2
  SpecReceipt FieldFacts ReceiptFacts RoundTrip RoundTrip2 ExampleWorld ExampleReceipts.
Open Scope N_scope.

(** *** C01: JWS round trip *)

(** An accepted receipt prints to a string that parses to the same receipt and
    algorithm. The string is the original one exactly if the header and payload
    segments were canonically encoded. *)
Theorem C01_jws_roundtrip :
  forall w s r alg, fromJWSString w s = Ok (r, alg) ->
  exists s', toJWSString r alg = Ok s' /\ fromJWSString w s' = Ok (r, alg)
    /\ (forall h p g, s = h ++ [c_dot] ++ p ++ [c_dot] ++ g ->
          (s' = s <-> canon_seg h /\ canon_seg p)).
Proof. exact jws_roundtrip. Qed.
Print Assumptions C01_jws_roundtrip.

(** Canonical segments are those the encoder produces. *)
Theorem C01_canonical_segments :
  forall s, canon_seg s <-> exists b, is_bytes b /\ s = b64url_nopad b.
Proof. exact canon_seg_spec. Qed.
Print Assumptions C01_canonical_segments.

Example C01_ex : exists r, fromJWSString toy_world ex_jws = Ok (r, lit "R1") /\ toJWSString r (lit "R1") = Ok ex_jws.
Proof. exists ex_receipt. split; vm_compute; reflexivity. Qed.

Example C01_open_ex : exists r, fromJWSString toy_world ex_open_jws = Ok (r, lit "R1").
Proof. exists (rec_of (fromJWSString toy_world ex_open_jws)). vm_compute; reflexivity. Qed.

(** *** C02: QR round trip *)

Theorem C02_jws_to_qr :
  forall w s r alg, fromJWSString w s = Ok (r, alg) ->
  exists q b, sig_value r b /\ toBasicCode r alg = Ok q
    /\ fromBasicCode w q = Ok (canonical_sig r b, alg).
Proof. exact jws_to_qr. Qed.
Print Assumptions C02_jws_to_qr.

Theorem C02_jws_qr_jws :
  forall w s r alg, fromJWSString w s = Ok (r, alg) ->
  exists q r' s', toBasicCode r alg = Ok q /\ fromBasicCode w q = Ok (r', alg) /\ toJWSString r' alg = Ok s'
    /\ (forall h p g, s = h ++ [c_dot] ++ p ++ [c_dot] ++ g ->
          (s' = s <-> canon_seg h /\ canon_seg p /\ canon_seg g)).
Proof. exact jws_qr_jws. Qed.
Print Assumptions C02_jws_qr_jws.

Theorem C02_qr_roundtrip :
  forall w s r alg, encodable s -> fromBasicCode w s = Ok (r, alg) ->
  exists q, toBasicCode r alg = Ok q /\ fromBasicCode w q = Ok (r, alg)
    /\ (forall p g, s = p ++ [c_us] ++ g -> ~ In c_us g -> (q = s <-> canon64 g)).
Proof. exact qr_roundtrip. Qed.
Print Assumptions C02_qr_roundtrip.

Example C02_ex : exists r, fromBasicCode toy_world ex_qr = Ok (r, lit "R1")
  /\ toBasicCode r (lit "R1") = Ok ex_qr /\ fromJWSString toy_world ex_jws = Ok (r, lit "R1").
Proof. exists ex_receipt. repeat split; vm_compute; reflexivity. Qed.

(** Without [encodable] the round trip fails: a lone surrogate in an ID is
    accepted by the QR parser, but such a receipt cannot be printed. *)
Definition ex_surrogate : fields := Fields (lit "AT0") [55296] (lit "1") (lit "2016-02-29T12:00:59")
  (lit "1,00") (lit "0,00") (lit "-0,50") (lit "0,00") (lit "0,00")
  (lit "AAECAwQFBgc=") (lit "U:ATU12345678-K1") (lit "CAkKCwwNDg8=").
Theorem C02_surrogates_refuted :
  exists w s r alg, fromBasicCode w s = Ok (r, alg) /\ toBasicCode r alg = Err PyUnicodeEncodeError.
Proof.
  exists toy_world, (ex_qr_of ex_surrogate ex_sig),
    (rec_of (fromBasicCode toy_world (ex_qr_of ex_surrogate ex_sig))), (lit "R1").
  split; vm_compute; reflexivity.
Qed.
Print Assumptions C02_surrogates_refuted.

(** *** C03: OCR round trip *)

(** On Python 2: the OCR code of an accepted receipt with a turnover counter is
    accepted, and the receipt is the same up to the encoding of the binary
    fields; if these were canonical, it is the same. *)
Theorem C03_ocr_py2 :
  forall w s r alg, fromJWSString w s = Ok (r, alg) -> b64decode (r_encTC r) <> Ok [] ->
  exists o r', toOCRCode r alg = Ok o /\ fromOCRCode w Py2 o = Ok (r', alg) /\ same_up_to_encoding r r'.
Proof. exact ocr_roundtrip_py2. Qed.
Print Assumptions C03_ocr_py2.

Theorem C03_ocr_canonical :
  forall r r' sg, same_up_to_encoding r r' -> r_sig r = Some (es256_header, sg) ->
  canon64 (r_encTC r) -> canon64 (r_previousChain r) -> canon_seg sg -> r' = r.
Proof. exact same_canonical. Qed.
Print Assumptions C03_ocr_canonical.

Example C03_ex : exists r o, fromJWSString toy_world ex_jws = Ok (r, lit "R1")
  /\ toOCRCode r (lit "R1") = Ok o /\ fromOCRCode toy_world Py2 o = Ok (r, lit "R1").
Proof. exists ex_receipt, (text_of (toOCRCode ex_receipt (lit "R1"))). repeat split; vm_compute; reflexivity. Qed.

(** On Python 3 it is false: every OCR code printed by the library makes the
    parser raise AttributeError. *)
Theorem C03_ocr_py3_always_fails :
  forall w s r alg, fromJWSString w s = Ok (r, alg) ->
  exists o, toOCRCode r alg = Ok o /\ fromOCRCode w Py3 o = Err PyAttributeError.
Proof. exact ocr_py3. Qed.
Print Assumptions C03_ocr_py3_always_fails.

Theorem C03_ocr_py3_refuted :
  exists w s r alg o, fromJWSString w s = Ok (r, alg) /\ toOCRCode r alg = Ok o
    /\ fromOCRCode w Py3 o = Err PyAttributeError.
Proof.
  exists toy_world, ex_jws, ex_receipt, (lit "R1"), (text_of (toOCRCode ex_receipt (lit "R1"))).
  repeat split; vm_compute; reflexivity.
Qed.
Print Assumptions C03_ocr_py3_refuted.

(** On Python 2 it is false for receipts whose counter is a lone line feed,
    which stands for no bytes at all. *)
Definition ex_empty_tc : fields := Fields (lit "AT0") (lit "REG-1") (lit "1") (lit "2016-02-29T12:00:59")
  (lit "1,00") (lit "0,00") (lit "-0,50") (lit "0,00") (lit "0,00")
  [c_nl] (lit "U:ATU12345678-K1") (lit "CAkKCwwNDg8=").
Theorem C03_ocr_py2_refuted :
  exists w s r alg o e, fromJWSString w s = Ok (r, alg) /\ toOCRCode r alg = Ok o
    /\ fromOCRCode w Py2 o = Err e.
Proof.
  set (r := rec_of (fromJWSString toy_world (ex_jws_of ex_empty_tc ex_sig))).
  set (o := text_of (toOCRCode r (lit "R1"))).
  exists toy_world, (ex_jws_of ex_empty_tc ex_sig), r, (lit "R1"), o, (exn_of (fromOCRCode toy_world Py2 o)).
  repeat split; vm_compute; reflexivity.
Qed.
Print Assumptions C03_ocr_py2_refuted.

(** *** C04: CSV round trip *)

Theorem C04_csv_roundtrip :
  forall w s r alg, fromJWSString w s = Ok (r, alg) -> csv_safe w (r_fields r) ->
  exists csv b, sig_value r b /\ toCSV r alg = Ok csv /\ fromCSV w csv = Ok (canonical_sig r b, alg).
Proof. exact csv_roundtrip. Qed.
Print Assumptions C04_csv_roundtrip.

Example C04_ex : csv_safe toy_world ex_fields
  /\ exists r csv, fromJWSString toy_world ex_jws = Ok (r, lit "R1") /\ r_fields r = ex_fields
     /\ toCSV r (lit "R1") = Ok csv /\ fromCSV toy_world csv = Ok (r, lit "R1").
Proof.
  split.
  - unfold csv_safe, csv_fields, ex_fields.
    cbn [f_zda f_register f_receipt f_time f_a f_b f_c f_d f_e f_tc f_serial f_chain].
    repeat (apply Forall_cons; [split; [intros H; cbn in H; intuition discriminate|split;
      [intros c t E; cbn in E; injection E as <- _; reflexivity
      |intros c t E; apply (f_equal (fun l => last l 0)) in E; rewrite last_last in E; cbn in E; subst c; reflexivity]]|]).
    apply Forall_nil.
  - exists ex_receipt, (text_of (toCSV ex_receipt (lit "R1"))). repeat split; vm_compute; reflexivity.
Qed.

(** The condition is needed: with the separator in a receipt ID the CSV line is
    rejected, and white space around an ID is lost. *)
Definition ex_space : fields := Fields (lit "AT0") (lit "REG-1") (lit "1 ") (lit "2016-02-29T12:00:59")
  (lit "1,00") (lit "0,00") (lit "-0,50") (lit "0,00") (lit "0,00")
  (lit "AAECAwQFBgc=") (lit "U:ATU12345678-K1") (lit "CAkKCwwNDg8=").
Theorem C04_csv_unsafe_refuted :
  (exists w s r alg csv e, fromJWSString w s = Ok (r, alg) /\ toCSV r alg = Ok csv /\ fromCSV w csv = Err e)
  /\ (exists w s r alg csv r', fromJWSString w s = Ok (r, alg) /\ toCSV r alg = Ok csv
       /\ fromCSV w csv = Ok (r', alg) /\ r_receiptId r' <> r_receiptId r).
Proof.
  split.
  - set (r := rec_of (fromJWSString toy_world ex_open_jws)). set (csv := text_of (toCSV r (lit "R1"))).
    exists toy_world, ex_open_jws, r, (lit "R1"), csv, (exn_of (fromCSV toy_world csv)).
    repeat split; vm_compute; reflexivity.
  - set (r := rec_of (fromJWSString toy_world (ex_jws_of ex_space ex_sig))). set (csv := text_of (toCSV r (lit "R1"))).
    exists toy_world, (ex_jws_of ex_space ex_sig), r, (lit "R1"), csv, (rec_of (fromCSV toy_world csv)).
    repeat split; [vm_compute; reflexivity..|]. vm_compute. discriminate.
Qed.
Print Assumptions C04_csv_unsafe_refuted.

(** *** C05: parsers reject cleanly *)

Theorem C05_parsers_clean :
  forall w s e, encodable s ->
  (fromJWSString w s = Err e \/ fromBasicCode w s = Err e \/ fromCSV w s = Err e) ->
  receipt_exn e.
Proof.
  exact (fun w s e E H => match H with
    | or_introl H => fromJWSString_clean w s E e H
    | or_intror (or_introl H) => fromBasicCode_clean w s E e H
    | or_intror (or_intror H) => fromCSV_clean w s E e H end).
Qed.
Print Assumptions C05_parsers_clean.

Example C05_ex : encodable (lit "a.b.c") /\ fromJWSString toy_world (lit "a.b.c") = Err (MalformedReceipt (lit "a.b.c")).
Proof. split; [now exists (lit "a.b.c")|vm_compute; reflexivity]. Qed.

(** Texts with lone surrogates can make the parsers raise UnicodeEncodeError. *)
Definition ex_surrogate_tc : fields := Fields (lit "AT0") (lit "REG-1") (lit "1") (lit "2016-02-29T12:00:59")
  (lit "1,00") (lit "0,00") (lit "-0,50") (lit "0,00") (lit "0,00")
  [55296] (lit "U:ATU12345678-K1") (lit "CAkKCwwNDg8=").
Theorem C05_surrogates_refuted :
  exists w s t, fromJWSString w s = Err PyUnicodeEncodeError /\ fromBasicCode w t = Err PyUnicodeEncodeError.
Proof.
  exists toy_world, [55296; c_dot; c_dot], (ex_qr_of ex_surrogate_tc ex_sig). split; vm_compute; reflexivity.
Qed.
Print Assumptions C05_surrogates_refuted.

(** *** C06: accepted receipts are well formed *)

(** The parsers accept exactly the texts of the grammar in SpecReceipt.v, and
    the attributes of the receipt are the fields of the text. *)
Theorem C06_jws_grammar :
  forall w s,
  ((exists r alg, fromJWSString w s = Ok (r, alg)) <-> exists f sg, jws_text w s f sg)
  /\ forall r alg, fromJWSString w s = Ok (r, alg) ->
     alg = lit "R1" /\ exists f sg, jws_text w s f sg /\ r_fields r = f
       /\ r_sig r = Some (es256_header, sg) /\ time_text w (f_time f) (r_dateTime r).
Proof. exact jws_grammar. Qed.
Print Assumptions C06_jws_grammar.

Theorem C06_qr_grammar :
  forall w s,
  ((exists r alg, fromBasicCode w s = Ok (r, alg)) <-> exists f sg, qr_text w s f sg)
  /\ forall r alg, fromBasicCode w s = Ok (r, alg) ->
     alg = lit "R1" /\ exists f sg, qr_text w s f sg /\ r_fields r = f
       /\ r_sig r = Some (es256_header, b64url_nopad sg) /\ time_text w (f_time f) (r_dateTime r).
Proof. exact qr_grammar. Qed.
Print Assumptions C06_qr_grammar.

(** The constructor accepts exactly well formed fields. *)
Theorem C06_constructor :
  forall w f, (exists r, mk_of w f = Ok r) <-> wf_fields w f.
Proof. exact constructor_grammar. Qed.
Print Assumptions C06_constructor.

(** The grammar is unambiguous: a text determines the fields. *)
Theorem C06_unambiguous :
  forall w s f f' sg sg', jws_text w s f sg -> jws_text w s f' sg' -> f = f' /\ sg = sg'.
Proof. exact jws_unambiguous. Qed.
Print Assumptions C06_unambiguous.

Example C06_ex :
  fromJWSString toy_world ex_jws = Ok (ex_receipt, lit "R1") /\
  (** no 29th of February in 2015 *)
  (mk_of toy_world (Fields (lit "AT0") (lit "R") (lit "1") (lit "2015-02-29T12:00:59")
     (lit "1,00") (lit "0,00") (lit "0,00") (lit "0,00") (lit "0,00")
     (lit "AAECAwQFBgc=") (lit "U:A") (lit "CAkKCwwNDg8=")) = Err (MalformedReceipt (lit "1"))).
Proof. split; vm_compute; reflexivity. Qed.

(** *** C07: system type and certificate field agree *)

Theorem C07_system_type :
  forall w f r, mk_of w f = Ok r ->
  (r_zda r = lit "AT0" <-> key_id_text w (r_certSerial r))
  /\ (r_zda r <> lit "AT0" <-> cert_serial_text w (r_certSerial r)).
Proof. exact system_type. Qed.
Print Assumptions C07_system_type.

Example C07_ex :
  mk_of toy_world ex_fields = Ok (no_sig ex_receipt)
  /\ mk_of toy_world ex_open = Ok (no_sig (rec_of (fromJWSString toy_world ex_open_jws))).
Proof. split; vm_compute; reflexivity. Qed.

(** *** C41: compressed receipts in memory *)

Theorem C41_shrink_expand :
  forall s, (exists b, shrinkDEPReceipt s = Ok b /\ expandDEPReceipt b = Ok s)
            \/ shrinkDEPReceipt s = Err PyUnicodeEncodeError.
Proof. exact shrink_expand. Qed.
Print Assumptions C41_shrink_expand.

Theorem C41_expand_shrink :
  forall b, (exists s, expandDEPReceipt b = Ok s /\ shrinkDEPReceipt s = Ok b)
            \/ expandDEPReceipt b = Err MalformedDEPElement.
Proof. exact expand_shrink. Qed.
Print Assumptions C41_expand_shrink.

Example C41_ex : shrinkDEPReceipt ex_open_jws = Ok ex_open_jws
  /\ shrinkDEPReceipt [228] = Ok [195; 164] /\ expandDEPReceipt [195] = Err MalformedDEPElement.
Proof. repeat split; vm_compute; reflexivity. Qed.
