(** What the verdict about a test must be. *)
From Verif Require Import PyBase World Receipt Json KeyStore State DepParser Verify SpecCluster SpecDoc SpecChunks RunTest TestVerify.
Open Scope N_scope.

(** A DEP as [runTest] makes them: each element occurs once, no name contains a dot,
    and all groups have certificates unless there is only one. *)
Definition regular_dep (w : world) (dep : json) : Prop :=
  exists gs, dep_doc w dep gs /\ plain_names dep /\ certs_or_one gs.

(** Both end with the same result, or both with an exception. *)
Definition alike (a b : outcome) : Prop :=
  (exists c, a = T_ok c /\ b = T_ok c)
  \/ (exists x y, a = T_turnover x y /\ b = T_turnover x y)
  \/ (exists e e', a = T_raised e /\ b = T_raised e').

(** The classes of exceptions with those that are directly derived from them *)
Definition class_tree : list (str * list str) :=
  [ (lit "RKSVException", [lit "RKSVVerifyException"]);
    (lit "RKSVVerifyException", [lit "ReceiptException"; lit "DEPException"]);
    (lit "ReceiptException",
      [lit "ReceiptParseException"; lit "NonFatalReceiptException"; lit "CertSerialInvalidException"; lit "InvalidCertificateProviderException";
       lit "NoPublicKeyException"; lit "InvalidSignatureException"; lit "CertSerialMismatchException"; lit "InvalidURLHashException"]);
    (lit "ReceiptParseException", [lit "MalformedReceiptException"; lit "UnknownAlgorithmException"; lit "AlgorithmMismatchException"]);
    (lit "NonFatalReceiptException", [lit "SignatureSystemFailedException"; lit "UnsignedNullReceiptException"]);
    (lit "DEPException",
      [lit "DEPReceiptException"; lit "DEPParseException"; lit "ClusterInOpenSystemException"; lit "CertificateSerialCollisionException";
       lit "UntrustedCertificateException"; lit "CertificateChainBrokenException"; lit "NoCertificateGivenException"; lit "DuplicateReceiptIdException"]);
    (lit "DEPReceiptException",
      [lit "ChainingException"; lit "NoRestoreReceiptAfterSignatureSystemFailureException"; lit "InvalidTurnoverCounterException";
       lit "SignatureSystemFailedOnInitialReceiptException"; lit "NonzeroTurnoverOnInitialReceiptException";
       lit "NonstandardTypeOnInitialReceiptException"; lit "InvalidChainingOnInitialReceiptException";
       lit "InvalidChainingOnClusterInitialReceiptException"; lit "ChangingRegisterIdException"; lit "ChangingSystemTypeException";
       lit "DecreasingDateException"]);
    (lit "DEPParseException", [lit "MalformedDEPException"; lit "MalformedCertificateException"]);
    (lit "MalformedDEPException", [lit "MalformedDEPElementException"; lit "MissingDEPElementException"; lit "DuplicateDEPElementException"]) ].
Definition base_class (c b : str) : Prop := exists l, In (b, l) class_tree /\ In c l.

(** A class is, or is derived from, another one. *)
Inductive derived : str -> str -> Prop :=
| d_self c : derived c c
| d_base c b a : base_class c b -> derived b a -> derived c a.

(** What a test expects of the verification: no exception, or one of the given class,
    about the given receipt and with the given message. *)
Definition expects (say : exn -> str) (x : expectation) (actual : option exn) : Prop :=
  match actual with
  | None => match ex_type x with None => True | Some t => t = lit "no Exception" end
  | Some e =>
      (exists t, ex_type x = Some t /\ derived (hd [] (classes e)) t)
      /\ (forall r, ex_receipt x = Some r -> r <> [] -> exn_receipt e = Some r)
      /\ (forall m, ex_msg x = Some m -> say e = m)
      /\ (forall p f, ex_regex x = Some (p, f) -> f (say e) = true)
  end.

(** The class is about receipts or DEPs. *)
Definition verification_exception (e : exn) : Prop := derived (hd [] (classes e)) (lit "RKSVVerifyException").

(** An outcome as expected *)
Definition as_expected (say : exn -> str) (x : expectation) (o : outcome) : Prop :=
  (exists c, o = T_ok c /\ expects say x None)
  \/ (exists e, o = T_raised e /\ verification_exception e /\ expects say x (Some e)).
