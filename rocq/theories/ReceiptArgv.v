(** The command lines of receipt.py and verify_receipt.py, from sys.argv to what is printed. *)
From Verif Require Import PyBase World Codec Receipt Json KeyStore VerifyReceipt DepExport Url StateCli ReceiptCli StateArgv.
Open Scope N_scope.
Open Scope py_scope.

(** How the programs end: with a message about their usage or the formats and status 0; otherwise
    with what was printed, and with an exception and status 1, or with status 0. *)
Inductive r_end : Type :=
| R_usage
| R_end (raised : bool) (out : str).

(** receipt.py:48-64. [args] is sys.argv without the name of the program. *)
Definition receipt_program (w : world) (py : pygen) (fetch : str -> result str) (stdin : str) (args : list str) : r_end :=
  match args with
  | [a; b] =>
      match format_arg a, format_arg b with
      | Some f, Some g => let (out, e) := receipt_py w py fetch f g stdin in R_end (match e with Some _ => true | None => false end) out
      | _, _ => R_usage
      end
  | _ => R_usage
  end.

(** librksv/receipt.py:38-111 and librksv/verify_receipt.py:35-96: the text of a ReceiptException, untranslated.
    [reason] is the reason given for a malformed receipt, if any; it is not in the model of the exception. *)
Definition at_receipt (rec msg : str) : str := lit "At receipt """ ++ rec ++ lit """: " ++ msg.
Definition exn_text (reason : str -> option str) (e : exn) : str :=
  match e with
  | MalformedReceipt r =>
      at_receipt r match reason r with
                   | None | Some [] => lit "Malformed receipt."
                   | Some x => lit "Malformed receipt" ++ lit " -- " ++ x
                   end
  | UnknownAlgorithm r => at_receipt r (lit "Unknown algorithm.")
  | AlgorithmMismatch r => at_receipt r (lit "Algorithm mismatch.")
  | CertSerialInvalid r => at_receipt r (lit "Certificate serial invalid.")
  | InvalidCertificateProvider r => at_receipt r (lit "Invalid certificate provider.")
  | CertSerialMismatch r => at_receipt r (lit "Certificate serial mismatch.")
  | NoPublicKey r => at_receipt r (lit "No public key found.")
  | InvalidSignature r => at_receipt r (lit "Invalid Signature.")
  | SignatureSystemFailed r => at_receipt r (lit "Signature System failed." ++ lit " This is probably fine.")
  | UnsignedNullReceipt r => at_receipt r (lit "Null receipt not signed." ++ lit " This is probably fine.")
  | InvalidURLHash r => at_receipt r (lit "Invalid URL hash.")
  | _ => []
  end.

(** verify_receipt.py:82 and 85, ["Line {: >3}: {}"] and the summary *)
Definition pad3 (s : str) : str := repeat 32 (3 - List.length s) ++ s.
Definition failure_line (reason : str -> option str) (f : nat * exn) : str :=
  lit "Line " ++ pad3 (fmt_d (Z.of_nat (fst f))) ++ lit ": " ++ exn_text reason (snd f).
Definition summary_line (good total : nat) : str :=
  fmt_d (Z.of_nat good) ++ lit " of " ++ fmt_d (Z.of_nat total) ++ lit " receipts verified successfully.".

(** verify_receipt.py:55-85. [stdin] is the text on standard input. *)
Definition verify_receipt_program (w : world) (py : pygen) (fetch : str -> result str) (reason : str -> option str) (fs : files)
    (stdin : str) (args : list str) : r_end :=
  match args with
  | a :: store :: rest =>
      match rest with
      | _ :: _ :: _ => R_usage
      | _ =>
          match format_arg a with
          | None => R_usage
          | Some f =>
              match f_json fs store with
              | Err _ => R_end true []
              | Ok j =>
                  let (failed, e) := verify_receipt_py w py fetch f j (match rest with [s] => V_argument s | _ => V_stdin stdin end) in
                  let report := List.concat (map (fun x => failure_line reason x ++ [c_nl]) failed) in
                  match e with
                  | Ok (good, total) => R_end false (report ++ summary_line good total ++ [c_nl])
                  | Err _ => R_end true report
                  end
              end
          end
      end
  | _ => R_usage
  end.
