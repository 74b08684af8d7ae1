(** librksv/verify_receipt.py *)
From Verif Require Import PyBase World Codec PyFloat Algo Receipt Json KeyStore.
Open Scope N_scope.
Open Scope py_scope.

(** librksv/verify_receipt.py:186-219 ReceiptVerifier *)
Record verifier : Type := Verifier { v_store : option keystore; v_cert : option cert }.
Definition fromCert (c : cert) : verifier := Verifier None (Some c).
Definition fromKeyStore (ks : keystore) : verifier := Verifier (Some ks) None.

(** librksv/algorithms.py:188-197 R1.verify: PyJWT checks the third segment as
    an ES256 signature of the first two; a token that cannot be decoded is
    invalid, and so is one without payload. The header is always the one of R1
    here, see [toJWSString]. Public keys are elliptic curve keys; PyJWT raises
    TypeError for others. *)
Definition r1_verify (w : world) (jws : str) (key : pubkey) : bool :=
  match split_char c_dot jws with
  | [h; p; s] =>
      nonempty p &&
      match b64url_decode_str s with
      | Ok sig => w_es256_verify w key (h ++ [c_dot] ++ p) sig
      | Err _ => false
      end
  | _ => false
  end.

(** The first key found, librksv/verify_receipt.py:238-241 *)
Fixpoint first_key (ks : keystore) (serials : list str) : option pubkey :=
  match serials with
  | [] => None
  | s :: r => match getKey ks s with Some k => Some k | None => first_key ks r end
  end.

(** The choice of the key, librksv/verify_receipt.py:226-241. Without
    certificate and key store the code calls a method of None. *)
Definition choose_key (w : world) (v : verifier) (r : receipt) : result (option pubkey) :=
  if str_eqb (r_zda r) (lit "AT0") then
    match v_cert v with
    | Some c => Ok (Some (w_cert_pubkey w c))
    | None =>
        match v_store v with
        | Some ks => Ok (getKey ks (r_certSerial r))
        | None => Err PyAttributeError
        end
    end
  else
    do serials <- strSerialToKeyIds w (r_certSerial r);
    match v_cert v with
    | Some c =>
        check existsb (str_eqb (numSerialToKeyId (w_serial w c))) serials
          else CertSerialMismatch (r_receiptId r);
        Ok (Some (w_cert_pubkey w c))
    | None =>
        match v_store v with
        | Some ks => Ok (first_key ks serials)
        | None => match serials with [] => Ok None | _ => Err PyAttributeError end
        end
    end.

(** librksv/verify_receipt.py:221-257 verify. Returns the receipt and the
    prefix of the algorithm. *)
Definition verify (w : world) (v : verifier) (r : receipt) (prefix : str) : result (receipt * str) :=
  check known_alg prefix else UnknownAlgorithm (r_receiptId r);
  do key <- choose_key w v r;
  do broken <- isSignedBroken r;
  if broken then
    do dm <- isDummy r;
    do rv <- (if dm then Ok true else isReversal r);
    if negb rv && isNull r then Err (UnsignedNullReceipt (r_receiptId r))
    else Err (SignatureSystemFailed (r_receiptId r))
  else
    match key with
    | None => Err (NoPublicKey (r_receiptId r))
    | Some k =>
        do jws <- toJWSString r prefix;
        check r1_verify w jws k else InvalidSignature (r_receiptId r);
        Ok (r, prefix)
    end.

(** librksv/verify_receipt.py:259-277 *)
Definition verifyJWS (w : world) (v : verifier) (s : str) : result (receipt * str) :=
  do rp <- fromJWSString w s; verify w v (fst rp) (snd rp).
Definition verifyBasicCode (w : world) (v : verifier) (s : str) : result (receipt * str) :=
  do rp <- fromBasicCode w s; verify w v (fst rp) (snd rp).
Definition verifyOCRCode (w : world) (g : pygen) (v : verifier) (s : str) : result (receipt * str) :=
  do rp <- fromOCRCode w g s; verify w v (fst rp) (snd rp).
Definition verifyCSV (w : world) (v : verifier) (s : str) : result (receipt * str) :=
  do rp <- fromCSV w s; verify w v (fst rp) (snd rp).

(** librksv/verify_receipt.py:279-297 verifyURLHash. [None] and the empty text
    are reported by the receipt's ID. *)
Definition verifyURLHash (w : world) (r : receipt) (alg : str) (urlHash : str) : result unit :=
  do qr <- toBasicCode r alg;
  do h <- r1_hash w qr;
  check str_eqb (b64url_nopad (firstn 8 h)) urlHash
    else InvalidURLHash (if nonempty urlHash then urlHash else r_receiptId r);
  Ok tt.
