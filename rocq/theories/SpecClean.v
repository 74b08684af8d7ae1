(** Exceptions of the library and of Python. *)
From Verif Require Import PyBase World Codec Receipt Json State SpecReceipt ReceiptFacts SpecDep SpecDoc.
Open Scope N_scope.

(** The exceptions of the library, all of which have a message for the user *)
Definition library_exn (e : exn) : Prop :=
  match e with
  | PyTypeError | PyStopIteration | PyAttributeError | PyValueError | PyOverflowError | PyIndexError | PyKeyError
  | PyBinasciiError | PyUnicodeEncodeError | PyUnicodeDecodeError | PyException => False
  | _ => True
  end.

(** Those that are about a receipt or a DEP, as opposed to keys or states *)
Definition verdict (e : exn) : Prop :=
  match e with
  | MalformedReceipt _ | UnknownAlgorithm _ | AlgorithmMismatch _ | CertSerialInvalid _ | InvalidCertificateProvider _
  | NoPublicKey _ | InvalidSignature _ | CertSerialMismatch _ | SignatureSystemFailed _ | UnsignedNullReceipt _
  | InvalidURLHash _
  | ClusterInOpenSystem | ChainingError _ | NoRestoreReceipt _ | InvalidTurnoverCounter _ | CertSerialCollision _ _ _
  | UntrustedCertificate _ | CertificateChainBroken _ _ | SignatureSystemFailedOnInitial _ | NonzeroTurnoverOnInitial _
  | NonstandardTypeOnInitial _ | InvalidChainingOnInitial _ | InvalidChainingOnClusterInitial _ | NoCertificateGiven
  | ChangingRegisterId _ | ChangingSystemType _ | DecreasingDate _ | DuplicateReceiptId _
  | MalformedDEP | DEPParseError | MalformedDEPElement | MissingDEPElement | DuplicateDEPElement | MalformedDEPCertificate => True
  | _ => False
  end.

(** No text of the document contains a lone surrogate. *)
Definition texts_encode (dep : json) : Prop := forall s, text_in dep s -> exists b, utf8_encode s = Ok b.
Definition opt_encodes (o : option str) : Prop := forall s, o = Some s -> exists b, utf8_encode s = Ok b.
Definition state_encodes (c : cluster) : Prop :=
  Forall (fun r => opt_encodes (s_start r) /\ opt_encodes (s_last r)) (c_regs c).

(** A receipt of the document whose amounts cannot be added: the sum is no number
    or infinite. *)
Definition amounts_fail (w : world) (dep : json) (e : exn) : Prop :=
  exists s r, text_in dep s /\ reads w s r /\ cents r = Err e.

(** No amount has more than 15 characters, as in -99999999999,99. *)
Definition short_amounts (w : world) (dep : json) : Prop :=
  forall s r, text_in dep s -> reads w s r ->
  let f := r_fields r in Forall (fun a => (List.length a <= 15)%nat) [f_a f; f_b f; f_c f; f_d f; f_e f].
