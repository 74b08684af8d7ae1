(** The commands receipt.py and verify_receipt.py. *)
From Coq Require Import Sorted.
From Verif Require Import PyBase World Codec CodecFacts2 Receipt Json KeyStore VerifyReceipt State Verify DepExport StateCli ReceiptCli SpecReceipt ReceiptFacts RoundTrip RoundTrip2 SpecDep
  SpecReceiptCli ReceiptCliFacts ExampleWorld ExampleReceipts ExampleDep ExampleExport ExampleKeys ExampleCli ExampleConvert ExampleReceiptCli.
Open Scope N_scope.

(** ** C59 receipt.py *)

(** Lines that give canonically encoded receipts without line breaks in any format become the
    same receipts in any other format, in order. *)
Theorem C59_converted w py fetch f g ts rs ins : Forall2 (one_line w) ts rs -> Forall2 (given w py fetch f) rs ins ->
  exists outs, Forall2 (shown w g) rs outs /\ receipt_py w py fetch f g (lines_text ins) = (lines_text outs, None).
Proof. exact (convert_given w py fetch f g ts rs ins). Qed.
Print Assumptions C59_converted.

(** And back, if the other format can be read. *)
Theorem C59_back w py fetch f g ts rs ins outs : f <> F_url -> g <> F_url -> Forall2 (one_line w) ts rs ->
  Forall2 (given w py fetch f) rs ins -> Forall2 (given w py fetch g) rs outs ->
  receipt_py w py fetch f g (lines_text ins) = (lines_text outs, None) /\ receipt_py w py fetch g f (lines_text outs) = (lines_text ins, None).
Proof. exact (convert_there_and_back w py fetch f g ts rs ins outs). Qed.
Print Assumptions C59_back.

(** Any input: the lines are converted one by one up to the first that cannot be. *)
Theorem C59_lines w py fetch f g text out e : receipt_py w py fetch f g text = (out, e) ->
  exists good rest outs, file_lines (universal_newlines text) = good ++ rest /\ out = lines_text outs
    /\ Forall2 (fun l s => convert_line w py fetch f g l = Ok s) good outs
    /\ match e with
       | None => rest = []
       | Some e => exists bad r, rest = bad :: r /\ convert_line w py fetch f g bad = Err e
       end.
Proof. exact (convert_lines_spec w py fetch f g _ out e). Qed.
Print Assumptions C59_lines.

Example C59_example : Forall2 (one_line toy_world) ex_three ex_rs /\ Forall2 (given toy_world Py3 ex_offline F_csv) ex_rs ex_csvs
  /\ Forall2 (given toy_world Py3 ex_offline F_qr) ex_rs ex_qrs /\ Forall2 (given toy_world Py3 ex_offline F_jws) ex_rs ex_three
  /\ receipt_py toy_world Py3 ex_offline F_csv F_qr (lines_text ex_csvs) = (lines_text ex_qrs, None).
Proof.
  split; [exact ex_one_line|]. split; [apply ex_given_csv|]. split; [apply ex_given_qr|]. split; [apply ex_given_jws|]. vm_compute. reflexivity.
Qed.
Example C59_lines_example : exists e, receipt_py toy_world Py3 ex_offline F_jws F_jws ex_gap = (lines_text [ex_t1], Some e).
Proof. exact (proj1 ex_stops). Qed.

(** Receipts with line feeds in their IDs are legal, but do not survive. *)
Theorem C59_line_feeds_refuted : exists w t r out e, fromJWSString w t = Ok (r, lit "R1")
  /\ (forall py fetch, receipt_py w py fetch F_jws F_qr (lines_text [t]) = (out, None))
  /\ (forall py fetch, receipt_py w py fetch F_qr F_jws out = ([], Some e)).
Proof. exact feeds_converted. Qed.
Print Assumptions C59_line_feeds_refuted.

(** In Python 3 no OCR codes can be read: both commands end at the first one. *)
Theorem C59_ocr_py3_always_fails w fetch t ts r rs : Forall2 (one_line w) (t :: ts) (r :: rs) ->
  exists outs, Forall2 (shown w F_ocr) (r :: rs) outs
    /\ (forall g, receipt_py w Py3 fetch F_ocr g (lines_text outs) = ([], Some PyAttributeError))
    /\ (forall store ks, readStoreFromJson w (load store) = Ok ks ->
        verify_receipt_py w Py3 fetch F_ocr store (V_stdin (lines_text outs)) = ([], Err PyAttributeError)).
Proof. exact (ocr_fails w fetch t ts r rs). Qed.
Print Assumptions C59_ocr_py3_always_fails.

(** ** C60 verify_receipt.py *)

(** The report for receipts given as JWS, QR code or CSV: all lines are counted, and
    exactly those are reported that are no receipts signed with the right key. *)
Theorem C60_report w py fetch f store ks i ls : plain_format f -> readStoreFromJson w (load store) = Ok ks -> given_lines i ls -> Forall encodable ls ->
  let lines := map (strip (char_isspace w)) ls in
  exists failed good, verify_receipt_py w py fetch f store i = (failed, Ok (good, List.length lines))
    /\ (good + List.length failed = List.length lines)%nat
    /\ StronglySorted lt (map fst failed)
    /\ (forall k e, In (k, e) failed -> exists l, nth_error lines k = Some l /\ verify_text w py fetch (fromKeyStore ks) f l = Err e /\ ~ genuine w ks f l)
    /\ (forall k l, nth_error lines k = Some l -> ~ genuine w ks f l -> exists e, In (k, e) failed).
Proof. exact (report_spec w py fetch f store ks i ls). Qed.
Print Assumptions C60_report.

(** Every input has lines, and only these. *)
Theorem C60_lines : forall i, exists ls, given_lines i ls /\ forall ls', given_lines i ls' -> ls' = ls.
Proof. exact input_total. Qed.
Print Assumptions C60_lines.

Example C60_lines_example : given_lines (V_stdin ([65; 13; c_nl; 66; 13] ++ [c_nl; c_nl; 67])) [[65]; [66]; []; [67]].
Proof. exact ex_breaks. Qed.

(** The report does not depend on the format, including URLs with the right hashes. *)
Theorem C60_formats w py fetch f store ts rs ins : Forall2 (one_line w) ts rs -> Forall2 (given w py fetch f) rs ins -> Forall2 (hashed w f) rs ins ->
  verify_receipt_py w py fetch f store (V_stdin (lines_text ins)) = verify_receipt_py w py fetch F_jws store (V_stdin (lines_text ts)).
Proof. exact (formats_spec w py fetch f store ts rs ins). Qed.
Print Assumptions C60_formats.

Example C60_example : readStoreFromJson toy_world (load ex_store) = Ok ex_ks /\ Forall2 (one_line toy_world) ex_three ex_rs
  /\ Forall2 (given toy_world Py3 ex_offline F_csv) ex_rs ex_csvs /\ Forall2 (hashed toy_world F_csv) ex_rs ex_csvs
  /\ verify_receipt_py toy_world Py3 ex_offline F_csv ex_store (V_stdin (lines_text ex_csvs)) = ([(2%nat, SignatureSystemFailed (lit "3"))], Ok (2%nat, 3%nat)).
Proof.
  split; [exact ex_store_keys|]. split; [exact ex_one_line|]. split; [apply ex_given_csv|]. split; [|exact (proj1 ex_report)].
  unfold ex_rs, ex_csvs. repeat (apply Forall2_cons; [exact I|]). apply Forall2_nil.
Qed.
Example C60_url_example : one_line toy_world ex_t2 ex_t2_receipt /\ given toy_world Py3 ex_online F_url ex_t2_receipt ex_url /\ hashed toy_world F_url ex_t2_receipt ex_url.
Proof. exact ex_url_receipt. Qed.

(** Blank lines count as receipts. *)
Theorem C60_blank_refuted : exists w store t t' e, (forall py fetch, verify_receipt_py w py fetch F_jws store (V_stdin (lines_text [t; t'])) = ([], Ok (2%nat, 2%nat)))
  /\ forall py fetch, verify_receipt_py w py fetch F_jws store (V_stdin (lines_text [t; []; t'])) = ([(1%nat, e)], Ok (2%nat, 3%nat)).
Proof. exists toy_world, ex_store, ex_t1, ex_t2. eexists. split; intros; vm_compute; reflexivity. Qed.
Print Assumptions C60_blank_refuted.

(** Receipts of a failed device are reported, though they may be part of a valid DEP. *)
Theorem C60_device_refuted : exists w store ks key c t1 t2 t3 t4 text id, readStoreFromJson w (load store) = Ok ks
  /\ snd (verifyDEP w (ex_dep_of [ex_group text [] [t1; t2]; ex_group text [] [t3; t4]]) ks (Some key) c None) = None
  /\ forall py fetch, verify_receipt_py w py fetch F_jws store (V_stdin (lines_text [t1; t2; t3; t4])) = ([(2%nat, SignatureSystemFailed id)], Ok (3%nat, 4%nat)).
Proof.
  exists toy_world, ex_store, ex_ks, ex_key, ex_start, ex_t1, ex_t2, ex_t3, ex_t4, ex_cert_text, (lit "3"). split; [exact ex_store_keys|].
  split; [exact (proj1 ex_devices)|]. intros. vm_compute. reflexivity.
Qed.
Print Assumptions C60_device_refuted.

(** Exceptions other than those of receipts end the program without report: those
    for lone surrogates and those of the network. *)
Theorem C60_surrogates_refuted : exists w store s, forall py fetch, verify_receipt_py w py fetch F_jws store (V_argument s) = ([], Err PyUnicodeEncodeError).
Proof. exists toy_world, ex_store, [55296; c_dot; c_dot]. intros. vm_compute. reflexivity. Qed.
Print Assumptions C60_surrogates_refuted.
Theorem C60_network_refuted : exists w store fetch u u', (forall py, verify_receipt_py w py fetch F_url store (V_stdin (lines_text [u; u])) = ([], Ok (2%nat, 2%nat)))
  /\ forall py, verify_receipt_py w py fetch F_url store (V_stdin (lines_text [u; u'; u])) = ([], Err PyException).
Proof. exists toy_world, ex_store, ex_online, ex_url, (lit "http://y/"). split; intros; vm_compute; reflexivity. Qed.
Print Assumptions C60_network_refuted.
