(** What receipt.py and verify_receipt.py print. *)
From Verif Require Import PyBase World Codec Receipt Json KeyStore VerifyReceipt StateCli ReceiptCli StateArgv SpecStateArgv ReceiptArgv.
Open Scope N_scope.

(** The words after the formats, and what is then verified *)
Inductive source (stdin : str) : list str -> receipt_input -> Prop :=
| src_argument s : source stdin [s] (V_argument s)
| src_stdin : source stdin [] (V_stdin stdin).

(** A line of the report: the number of the receipt, filled up with blanks to three characters, and the text *)
Definition reports (k : nat) (text line : str) : Prop :=
  exists blanks, line = lit "Line " ++ blanks ++ fmt_d (Z.of_nat k) ++ lit ": " ++ text /\ Forall (eq 32) blanks
    /\ List.length (blanks ++ fmt_d (Z.of_nat k)) = Nat.max 3 (List.length (fmt_d (Z.of_nat k))).

(** The receipt an exception is about *)
Definition about (e : exn) (rec : str) : Prop :=
  e = MalformedReceipt rec \/ e = UnknownAlgorithm rec \/ e = AlgorithmMismatch rec \/ e = CertSerialInvalid rec \/ e = InvalidCertificateProvider rec
  \/ e = CertSerialMismatch rec \/ e = NoPublicKey rec \/ e = InvalidSignature rec \/ e = SignatureSystemFailed rec \/ e = UnsignedNullReceipt rec \/ e = InvalidURLHash rec.

(** The last line *)
Definition summarises (good total : nat) (line : str) : Prop :=
  line = fmt_d (Z.of_nat good) ++ lit " of " ++ fmt_d (Z.of_nat total) ++ lit " receipts verified successfully.".

(** No receipt named in a failure, nor the reason, has a line feed. *)
Definition tidy (reason : str -> option str) (failed : list (nat * exn)) : Prop :=
  forall k e, In (k, e) failed -> (forall rec, about e rec -> ~ In c_nl rec) /\ (forall rec x, e = MalformedReceipt rec -> reason rec = Some x -> ~ In c_nl x).

(** What is wrong with receipt [rec], in words; a malformed receipt comes with or without a reason. *)
Definition wording (rec : str) : list (exn * str) :=
  [(UnknownAlgorithm rec, lit "Unknown algorithm."); (AlgorithmMismatch rec, lit "Algorithm mismatch."); (CertSerialInvalid rec, lit "Certificate serial invalid.");
   (InvalidCertificateProvider rec, lit "Invalid certificate provider."); (CertSerialMismatch rec, lit "Certificate serial mismatch.");
   (NoPublicKey rec, lit "No public key found."); (InvalidSignature rec, lit "Invalid Signature.");
   (SignatureSystemFailed rec, lit "Signature System failed. This is probably fine."); (UnsignedNullReceipt rec, lit "Null receipt not signed. This is probably fine.");
   (InvalidURLHash rec, lit "Invalid URL hash.")].
Inductive worded (reason : str -> option str) (rec : str) : exn -> str -> Prop :=
| wd_kind e m : In (e, m) (wording rec) -> worded reason rec e m
| wd_malformed : reason rec = None \/ reason rec = Some [] -> worded reason rec (MalformedReceipt rec) (lit "Malformed receipt.")
| wd_reason x : reason rec = Some x -> x <> [] -> worded reason rec (MalformedReceipt rec) (lit "Malformed receipt -- " ++ x).
