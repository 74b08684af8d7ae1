(** librksv/receipt.py: the receipt class and its text formats.

    Simplification throughout: arguments are texts. The code also guards
    against arguments of other types, for which it raises
    MalformedReceiptException. *)
From Verif Require Import PyBase World Regex Codec PyFloat PyTime Algo.
Open Scope N_scope.
Open Scope py_scope.

(** librksv/receipt.py:113-121 *)
Inductive serial_type := T_SERIAL | T_TAX | T_UID | T_GLN | T_INVALID.

(** The tests of librksv/receipt.py:145-160 on the part before the dash. *)
Definition serialTypeOfBody (w : world) (s : str) : serial_type :=
  let body := skipn 2 s in
  let n := List.length s in
  if (n =? 11)%nat && str_eqb (firstn 2 s) (lit "S:") && isdigit w body then T_TAX
  else if (3 <=? n)%nat && (n <=? 16)%nat && str_eqb (firstn 2 s) (lit "U:")
          && isalnum w body && str_eqb body (upper w body) then T_UID
  else if (n =? 15)%nat && str_eqb (firstn 2 s) (lit "G:") && isdigit w body then T_GLN
  else match py_int w 16 s with
       | Some _ => T_SERIAL
       | None => match py_int w 10 s with
                 | Some _ => T_SERIAL
                 | None => T_INVALID
                 end
       end.

(** librksv/receipt.py:124-160 getCertSerialType *)
Definition getCertSerialType (w : world) (s : str) : serial_type :=
  match s with
  | [] => T_INVALID
  | c :: r =>
      let s := if (c =? c_dash) && negb (has_char c_dash r) then r else s in
      match split_char c_dash s with
      | [] => T_INVALID   (* str.split never returns the empty list *)
      | [a] => serialTypeOfBody w a
      | [a; b] => if isalnum w b then serialTypeOfBody w a else T_INVALID
      | _ => T_INVALID
      end
  end.

(** Attributes of a receipt object, librksv/receipt.py:276-296. [r_sig] holds
    the JWS header and the signature of a signed receipt. *)
Record receipt : Type := Receipt {
  r_zda : str;
  r_registerId : str;
  r_receiptId : str;
  r_dateTime : dt;
  r_dateTimeStr : str;
  r_sumA : float; r_sumAStr : str;
  r_sumB : float; r_sumBStr : str;
  r_sumC : float; r_sumCStr : str;
  r_sumD : float; r_sumDStr : str;
  r_sumE : float; r_sumEStr : str;
  r_encTC : str;
  r_certSerial : str;
  r_previousChain : str;
  r_sig : option (str * str)
}.

Definition r_header (r : receipt) : option str := option_map fst (r_sig r).
Definition r_signature (r : receipt) : option str := option_map snd (r_sig r).
Definition r_signed (r : receipt) : bool :=
  match r_sig r with Some _ => true | None => false end.

(** The label of receipts without an ID (its translation is not modelled). *)
Definition unknown_receipt : str := lit "Unknown Receipt".

(** librksv/receipt.py:165-171 _getSum *)
Definition getSum (w : world) (s receiptId : str) : result float :=
  match s with
  | [] => Err (MalformedReceipt receiptId)
  | _ => match getReceiptFloat w s with
         | None => Err (MalformedReceipt receiptId)
         | Some f => Ok f
         end
  end.

(** librksv/receipt.py:173-182 _getTimestamp *)
Definition getTimestamp (w : world) (s receiptId : str) : result dt :=
  match s with
  | [] => Err (MalformedReceipt receiptId)
  | _ => match strptime w s with
         | None => Err (MalformedReceipt receiptId)
         | Some d => Ok d
         end
  end.

(** [except (TypeError, binascii.Error)] *)
Definition b64_exn (e : exn) : bool :=
  match e with PyTypeError | PyBinasciiError => true | _ => false end.

(** [except (TypeError, binascii.Error, UnicodeDecodeError)] *)
Definition b64_utf8_exn (e : exn) : bool :=
  match e with PyTypeError | PyBinasciiError | PyUnicodeDecodeError => true | _ => false end.

(** [utils.b64decode(s.encode('utf-8'))] *)
Definition b64decode_str (s : str) : result bytes :=
  do b <- utf8_encode s; b64decode b.

(** [utils.urlsafe_b64decode(utils.restoreb64padding(s).encode('utf-8'))] *)
Definition b64url_decode_str (s : str) : result bytes :=
  do b <- utf8_encode (restoreb64padding s); urlsafe_b64decode b.

(** librksv/receipt.py:184-190 _getEmptyOrB64 *)
Definition getEmptyOrB64 (s receiptId : str) : result bytes :=
  catch (b64decode_str s) b64_exn (MalformedReceipt receiptId).

(** librksv/receipt.py:705-719 isDummy, isReversal *)
Definition isDummyTC (encTC : str) : result bool :=
  do b <- b64decode_str encTC; Ok (str_eqb b (lit "TRA")).
Definition isReversalTC (encTC : str) : result bool :=
  do b <- b64decode_str encTC; Ok (str_eqb b (lit "STO")).
Definition isDummy (r : receipt) : result bool := isDummyTC (r_encTC r).
Definition isReversal (r : receipt) : result bool := isReversalTC (r_encTC r).

(** librksv/receipt.py:198-303 __init__ *)
Definition mk_receipt (w : world) (zda registerId receiptId dateTime
    sumA sumB sumC sumD sumE encTC certSerial previousChain : str) : result receipt :=
  check nonempty receiptId else MalformedReceipt unknown_receipt;
  check negb (has_char c_us receiptId) else MalformedReceipt receiptId;
  check nonempty zda && re_match (zdaRegex w) zda else MalformedReceipt receiptId;
  check nonempty registerId && negb (has_char c_us registerId) else MalformedReceipt receiptId;
  do d <- getTimestamp w dateTime receiptId;
  do fA <- getSum w sumA receiptId;
  do fB <- getSum w sumB receiptId;
  do fC <- getSum w sumC receiptId;
  do fD <- getSum w sumD receiptId;
  do fE <- getSum w sumE receiptId;
  do tc <- getEmptyOrB64 encTC receiptId;
  do _x <- getEmptyOrB64 previousChain receiptId;
  check nonempty certSerial else MalformedReceipt receiptId;
  do _y <- match getCertSerialType w certSerial with
           | T_INVALID => Err (CertSerialInvalid receiptId)
           | T_SERIAL =>
               check negb (str_eqb zda (lit "AT0")) else InvalidCertificateProvider receiptId;
               Ok tt
           | _ =>
               check str_eqb zda (lit "AT0") else InvalidCertificateProvider receiptId;
               Ok tt
           end;
  let n := List.length tc in
  do _z <- (if negb (n =? 0)%nat && ((n <? 5)%nat || (16 <? n)%nat) then
              do dm <- isDummyTC encTC;
              do rv <- (if dm then Ok true else isReversalTC encTC);
              check rv else MalformedReceipt receiptId;
              Ok tt
            else Ok tt);
  Ok (Receipt zda registerId receiptId d dateTime fA sumA fB sumB fC sumC fD sumD fE sumE
        encTC certSerial previousChain None).

(** librksv/receipt.py:664-690 sign *)
Definition sign_receipt (r : receipt) (header signature : str) : result receipt :=
  check negb (ends_with_char c_eq signature) else MalformedReceipt (r_receiptId r);
  do _x <- catch (b64url_decode_str signature) b64_exn (MalformedReceipt (r_receiptId r));
  Ok (Receipt (r_zda r) (r_registerId r) (r_receiptId r) (r_dateTime r) (r_dateTimeStr r)
        (r_sumA r) (r_sumAStr r) (r_sumB r) (r_sumBStr r) (r_sumC r) (r_sumCStr r)
        (r_sumD r) (r_sumDStr r) (r_sumE r) (r_sumEStr r)
        (r_encTC r) (r_certSerial r) (r_previousChain r) (Some (header, signature))).

(** The tail shared by fromJWSString and fromBasicCode, librksv/receipt.py:
    378-396 and 497-515: [label] names the text being parsed. *)
Definition finish_receipt (w : world) (label alg zda registerId receiptId dateTime
    sumA sumB sumC sumD sumE encTC certSerial previousChain header signature : str)
  : result (receipt * str) :=
  check nonempty (remove_char c_eq encTC) else MalformedReceipt label;
  do r <- mk_receipt w zda registerId receiptId dateTime sumA sumB sumC sumD sumE
            encTC certSerial previousChain;
  do r <- sign_receipt r header signature;
  do cv <- b64decode_str previousChain;
  check (List.length cv =? r1_chainBytes)%nat else MalformedReceipt (r_receiptId r);
  Ok (r, alg).

(** Checks on algorithm and ZDA IDs shared by the parsers, librksv/receipt.py:
    350-361 and 461-472. *)
Definition alg_and_zda (w : world) (label seg : str) : result (str * str) :=
  match split_char c_dash seg with
  | [alg; zda] =>
      check re_match (algRegex w) alg else MalformedReceipt label;
      check known_alg alg else UnknownAlgorithm label;
      Ok (alg, zda)
  | _ => Err (MalformedReceipt label)
  end.

(** librksv/receipt.py:306-396 fromJWSString *)
Definition fromJWSString (w : world) (jws : str) : result (receipt * str) :=
  match split_char c_dot jws with
  | [s0; s1; s2] =>
      check negb (ends_with_char c_eq s0 || ends_with_char c_eq s1 || ends_with_char c_eq s2)
        else MalformedReceipt jws;
      do header <- catch (do b <- b64url_decode_str s0; utf8_decode b)
                     b64_utf8_exn (MalformedReceipt jws);
      do payload <- catch (do b <- b64url_decode_str s1; utf8_decode b)
                      b64_utf8_exn (MalformedReceipt jws);
      match split_char c_us payload with
      | [e; algzda; registerId; receiptId; dateTime; sumA; sumB; sumC; sumD; sumE;
         encTC; certSerial; previousChain] =>
          check negb (nonempty e) else MalformedReceipt jws;
          do az <- alg_and_zda w jws algzda;
          check str_eqb r1_jwsHeader header else AlgorithmMismatch jws;
          finish_receipt w jws (fst az) (snd az) registerId receiptId dateTime
            sumA sumB sumC sumD sumE encTC certSerial previousChain header s2
      | _ => Err (MalformedReceipt jws)
      end
  | _ => Err (MalformedReceipt jws)
  end.

(** librksv/receipt.py:420-441 toPayloadString *)
Definition payload_segments (r : receipt) (alg : str) : list str :=
  [c_us :: alg ++ [c_dash] ++ r_zda r; r_registerId r; r_receiptId r; r_dateTimeStr r;
   r_sumAStr r; r_sumBStr r; r_sumCStr r; r_sumDStr r; r_sumEStr r;
   r_encTC r; r_certSerial r; r_previousChain r].

Fixpoint mapM {A B} (f : A -> result B) (l : list A) : result (list B) :=
  match l with
  | [] => Ok []
  | x :: r => do y <- f x; do ys <- mapM f r; Ok (y :: ys)
  end.

Definition toPayloadString (r : receipt) (alg : str) : result str :=
  do segs <- mapM utf8_encode (payload_segments r alg);
  utf8_decode (join [c_us] segs).

(** librksv/receipt.py:398-418 toJWSString. Base 64 output is ASCII, so that
    [decode] is the identity on it. *)
Definition toJWSString (r : receipt) (alg : str) : result str :=
  match r_sig r with
  | None => Err PyException
  | Some (header, signature) =>
      do p <- toPayloadString r alg;
      do pb <- utf8_encode p;
      do hb <- utf8_encode header;
      Ok (join [c_dot] [b64url_nopad hb; b64url_nopad pb; signature])
  end.

(** librksv/receipt.py:444-515 fromBasicCode *)
Definition fromBasicCode (w : world) (qr : str) : result (receipt * str) :=
  match split_char c_us qr with
  | [e; algzda; registerId; receiptId; dateTime; sumA; sumB; sumC; sumD; sumE;
     encTC; certSerial; previousChain; sigb64] =>
      check negb (nonempty e) else MalformedReceipt qr;
      do az <- alg_and_zda w qr algzda;
      do sig <- catch (b64decode_str sigb64) b64_exn (MalformedReceipt qr);
      finish_receipt w qr (fst az) (snd az) registerId receiptId dateTime
        sumA sumB sumC sumD sumE encTC certSerial previousChain
        r1_jwsHeader (b64url_nopad sig)
  | _ => Err (MalformedReceipt qr)
  end.

(** librksv/receipt.py:517-533 toBasicCode *)
Definition toBasicCode (r : receipt) (alg : str) : result str :=
  match r_sig r with
  | None => Err PyException
  | Some (_, signature) =>
      do p <- toPayloadString r alg;
      do sig <- b64url_decode_str signature;
      Ok (p ++ [c_us] ++ b64encode sig)
  end.

(** librksv/receipt.py:536-586 fromOCRCode *)
Definition fromOCRCode (w : world) (g : pygen) (ocr : str) : result (receipt * str) :=
  match split_char c_us ocr with
  | [e; algzda; registerId; receiptId; dateTime; sumA; sumB; sumC; sumD; sumE;
     encTC; certSerial; previousChain; sig] =>
      check negb (nonempty e) else MalformedReceipt ocr;
      do tcb <- catch (b32decode g encTC) b64_exn (MalformedReceipt ocr);
      do pcb <- catch (b32decode g previousChain) b64_exn (MalformedReceipt ocr);
      do sb <- catch (b32decode g sig) b64_exn (MalformedReceipt ocr);
      fromBasicCode w (join [c_us]
        [e; algzda; registerId; receiptId; dateTime; sumA; sumB; sumC; sumD; sumE;
         b64encode tcb; certSerial; b64encode pcb; b64encode sb])
  | _ => Err (MalformedReceipt ocr)
  end.

(** librksv/receipt.py:588-622 toOCRCode *)
Definition toOCRCode (r : receipt) (alg : str) : result str :=
  match r_sig r with
  | None => Err PyException
  | Some (_, signature) =>
      do segs <- mapM utf8_encode
                   [c_us :: alg ++ [c_dash] ++ r_zda r; r_registerId r; r_receiptId r;
                    r_dateTimeStr r; r_sumAStr r; r_sumBStr r; r_sumCStr r; r_sumDStr r;
                    r_sumEStr r];
      do tc <- b64decode_str (r_encTC r);
      do cs <- utf8_encode (r_certSerial r);
      do pc <- b64decode_str (r_previousChain r);
      do sig <- b64url_decode_str signature;
      utf8_decode (join [c_us] (segs ++ [b32encode tc; cs; b32encode pc; b32encode sig]))
  end.

(** librksv/receipt.py:641-654 fromCSV *)
Definition fromCSV (w : world) (csv : str) : result (receipt * str) :=
  let segs := map (strip (char_isspace w)) (split_char c_semi csv) in
  fromBasicCode w (c_us :: join [c_us] segs).

(** librksv/receipt.py:656-662 toCSV *)
Definition toCSV (r : receipt) (alg : str) : result str :=
  do qr <- toBasicCode r alg;
  Ok (replace_char c_us c_semi (tl qr)).

(** librksv/receipt.py:624-638 toURLHash *)
Definition toURLHash (w : world) (r : receipt) (alg : str) : result str :=
  do qr <- toBasicCode r alg;
  check known_alg alg else UnknownAlgorithm (r_receiptId r);
  do h <- r1_hash w qr;
  Ok (b64url_nopad (firstn 8 h)).

(** The text that marks a receipt as unsigned, librksv/receipt.py:701-702 *)
Definition fail_marker : bytes := lit "Sicherheitseinrichtung ausgefallen".
Definition failStr : str := b64url_nopad fail_marker.

(** librksv/receipt.py:692-703 isSignedBroken *)
Definition isSignedBroken (r : receipt) : result bool :=
  match r_sig r with
  | None => Err PyException
  | Some (_, signature) => Ok (str_eqb failStr signature)
  end.

(** librksv/receipt.py:721-726 isNull *)
Definition isNull (r : receipt) : bool :=
  feq0 (r_sumA r) && feq0 (r_sumB r) && feq0 (r_sumC r) && feq0 (r_sumD r) && feq0 (r_sumE r).

(** librksv/receipt.py:728-746 decryptTurnoverCounter. [PyException] stands for
    the plain Exception raised for dummy and reversal receipts. *)
Definition decryptTC (w : world) (r : receipt) (key : bytes) : result Z :=
  do dm <- isDummy r;
  check negb dm else PyException;
  do rv <- isReversal r;
  check negb rv else PyException;
  do _x <- raiseForKey key;
  do ct <- b64decode_str (r_encTC r);
  r1_decrypt w (r_registerId r) (r_receiptId r) ct key.
