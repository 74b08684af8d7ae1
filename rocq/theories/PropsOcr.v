(** C82 Reading OCR codes and CSV lines. *)
From Verif Require Import PyBase World Codec SpecCodec Receipt SpecReceipt ReceiptFacts SpecReading SpecOcr OcrFacts ExampleWorld ExampleReading ExampleOcr.
Open Scope N_scope.

(** Base 32 is read as RFC 4648 says, bit by bit, with arbitrary bits after the last octet. *)
Theorem C82_base32 : forall s b, b32decode Py2 s = Ok b <-> base32 s b.
Proof. exact b32_spec. Qed.
Print Assumptions C82_base32.

Example C82_base32_case : base32 (lit "KRJEC===") (lit "TRA") /\ base32 (lit "KRJED===") (lit "TRA").
Proof. exact ex_base32. Qed.

(** Python 2: an OCR code is read if and only if there is a QR code with the same
    elements and octets, and gives the same receipt. *)
Theorem C82_ocr : forall w s x, fromOCRCode w Py2 s = Ok x <-> exists qr, ocr_code s qr /\ fromBasicCode w qr = Ok x.
Proof. exact ocr_reads. Qed.
Print Assumptions C82_ocr.

Example C82_ocr_case : ocr_code ex_ocr_good (ex_code (lit "R1") (lit "AT1") (lit "5a") (lit "AAAA")) /\ exists x, fromOCRCode toy_world Py2 ex_ocr_good = Ok x.
Proof. exact (conj ex_ocr_code ex_ocr_read). Qed.

(** It is not read with an exception if and only if it has the fault this stands for. *)
Theorem C82_ocr_faults : forall w s e, encodable s -> fromOCRCode w Py2 s = Err e <-> ocr_fault w s e.
Proof. exact ocr_diagnosis. Qed.
Print Assumptions C82_ocr_faults.

Example C82_ocr_faults_case : Forall (fun te => ocr_fault toy_world (fst te) (snd te (fst te))) ex_ocrs.
Proof. exact ex_ocrs_fault. Qed.

(** Python 3: no OCR code is read. If it has the right form, the exception is AttributeError. *)
Theorem C82_python3 : forall w s, exists e, fromOCRCode w Py3 s = Err e /\ forall e', ocr3_fault s e' <-> e' = e.
Proof. exact ocr3_diagnosis. Qed.
Print Assumptions C82_python3.

(** A CSV line stands for one QR code, and reading it is reading this code. *)
Theorem C82_csv : forall w s, exists qr, csv_code w s qr /\ fromCSV w s = fromBasicCode w qr /\ forall qr', csv_code w s qr' -> qr' = qr.
Proof. exact csv_reads. Qed.
Print Assumptions C82_csv.

Example C82_csv_case : csv_code toy_world ex_csv (ex_code (lit "R1") (lit "AT1") (lit "5a") (lit "AAAA")) /\ exists x, fromCSV toy_world ex_csv = Ok x.
Proof. exact ex_csv_code. Qed.

Theorem C82_csv_faults : forall w s e, encodable s -> fromCSV w s = Err e <-> exists qr, csv_code w s qr /\ code_fault w qr e.
Proof. exact csv_diagnosis. Qed.
Print Assumptions C82_csv_faults.

Example C82_csv_faults_case : exists qr, csv_code toy_world (lit "R1-AT1;REG-1") qr /\ code_fault toy_world qr (MalformedReceipt (lit "_R1-AT1_REG-1")).
Proof. exact ex_csv_fault. Qed.

(** A malformed CSV line is reported with another text than the line. *)
Theorem C82_text_refuted : exists w s t, (forall qr, csv_code w s qr -> forall alg f g, ~ code_parts qr alg f g) /\ fromCSV w s = Err (MalformedReceipt t) /\ t <> s.
Proof. exact ex_other_text. Qed.
Print Assumptions C82_text_refuted.

(** A line without any semicolon can be read as CSV. *)
Theorem C82_semicolon_refuted : exists w s x, ~ In c_semi s /\ fromCSV w s = Ok x.
Proof. exact ex_underscores. Qed.
Print Assumptions C82_semicolon_refuted.
