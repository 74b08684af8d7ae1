(** The command lines of receipt.py and verify_receipt.py. Files are given by the
    documents or texts they contain. *)
From Verif Require Import PyBase World Codec Receipt Json KeyStore VerifyReceipt DepExport Url StateCli.
Open Scope N_scope.
Open Scope py_scope.

(** ** receipt.py *)

(** receipt.py:31-38 INPUT_FORMATS. [fetch] is what the network returns for a URL,
    see [getAndVerifyReceiptURL]. *)
Definition read_receipt (w : world) (py : pygen) (fetch : str -> result str) (f : format) (s : str) : result (receipt * str) :=
  match f with
  | F_jws => fromJWSString w s
  | F_qr => fromBasicCode w s
  | F_ocr => fromOCRCode w py s
  | F_url => do code <- fetch s; fromBasicCode w code
  | F_csv => fromCSV w s
  end.

(** receipt.py:40-46 OUTPUT_FORMATS *)
Definition print_receipt (w : world) (f : format) (r : receipt) (alg : str) : result str :=
  match f with
  | F_jws => toJWSString r alg
  | F_qr => toBasicCode r alg
  | F_ocr => toOCRCode r alg
  | F_url => toURLHash w r alg
  | F_csv => toCSV r alg
  end.

(** receipt.py:62-64, the body of the loop *)
Definition convert_line (w : world) (py : pygen) (fetch : str -> result str) (f g : format) (l : str) : result str :=
  do rp <- read_receipt w py fetch f (strip (char_isspace w) l);
  print_receipt w g (fst rp) (snd rp).

(** receipt.py:61-64: what is printed, and the exception the program ends with, if
    any. Texts that cannot be encoded for the output do not occur: the input was
    decoded. *)
Fixpoint convert_lines (w : world) (py : pygen) (fetch : str -> result str) (f g : format) (lines : list str) : str * option exn :=
  match lines with
  | [] => ([], None)
  | l :: r =>
      match convert_line w py fetch f g l with
      | Err e => ([], Some e)
      | Ok s => let (out, e) := convert_lines w py fetch f g r in (s ++ [c_nl] ++ out, e)
      end
  end.
Definition receipt_py (w : world) (py : pygen) (fetch : str -> result str) (f g : format) (stdin : str) : str * option exn :=
  convert_lines w py fetch f g (file_lines (universal_newlines stdin)).

(** ** verify_receipt.py *)

(** librksv/receipt.py:38-111 and librksv/verify_receipt.py:35-96: the subclasses of
    ReceiptException *)
Definition receipt_exception (e : exn) : bool :=
  match e with
  | MalformedReceipt _ | UnknownAlgorithm _ | AlgorithmMismatch _ | CertSerialInvalid _ | InvalidCertificateProvider _
  | NoPublicKey _ | InvalidSignature _ | CertSerialMismatch _ | SignatureSystemFailed _ | UnsignedNullReceipt _
  | InvalidURLHash _ => true
  | _ => false
  end.

(** verify_receipt.py:46-53 INPUT_FORMATS: the function that verifies. Its value is
    not used. *)
Definition verify_text (w : world) (py : pygen) (fetch : str -> result str) (v : verifier) (f : format) (s : str) : result unit :=
  match f with
  | F_jws => do _ <- verifyJWS w v s; Ok tt
  | F_qr => do _ <- verifyBasicCode w v s; Ok tt
  | F_ocr => do _ <- verifyOCRCode w py v s; Ok tt
  | F_url => getAndVerifyReceiptURL w v fetch s
  | F_csv => do _ <- verifyCSV w v s; Ok tt
  end.

(** verify_receipt.py:70-73: the receipt is given as argument, or receipts are read
    from the standard input. *)
Inductive receipt_input := V_argument (s : str) | V_stdin (text : str).
Definition input_lines (i : receipt_input) : list str :=
  match i with
  | V_argument s => [s]
  | V_stdin t => file_lines (universal_newlines t)
  end.

(** verify_receipt.py:75-85: the failures printed, each given by the number of the
    receipt and the exception, and in the end either the number of good receipts and the
    number of receipts or the exception the program ends with *)
Fixpoint verify_lines (w : world) (ver : str -> result unit) (idx fails : nat) (lines : list str) : list (nat * exn) * result (nat * nat) :=
  match lines with
  | [] => ([], Ok ((idx - fails)%nat, idx))
  | l :: r =>
      match ver (strip (char_isspace w) l) with
      | Ok _ => verify_lines w ver (S idx) fails r
      | Err e =>
          if receipt_exception e then
            let (out, x) := verify_lines w ver (S idx) (S fails) r in ((idx, e) :: out, x)
          else ([], Err e)
      end
  end.

(** verify_receipt.py:63-85 *)
Definition verify_receipt_py (w : world) (py : pygen) (fetch : str -> result str) (f : format) (store : json) (i : receipt_input)
  : list (nat * exn) * result (nat * nat) :=
  match readStoreFromJson w (load store) with
  | Err e => ([], Err e)
  | Ok ks => verify_lines w (verify_text w py fetch (fromKeyStore ks) f) 0 0 (input_lines i)
  end.
