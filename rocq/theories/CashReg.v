(** librksv/cashreg.py and librksv/sigsys.py: a simple cash register and its
    signature devices. *)
From Coq Require Import Floats.SpecFloat.
From Verif Require Import PyBase World Codec PyFloat PyTime Algo Receipt DepExport.
Open Scope N_scope.
Open Scope py_scope.

(** [("%.2f" % x).replace('.',',')], librksv/cashreg.py:131-135. CPython rounds the
    exact value to hundredths, half to even. The sums are floating point numbers
    here; the code would accept integers, too. *)
Definition cents_text (neg : bool) (n : N) : str :=
  (if neg then [c_dash] else []) ++ digits 10 (n / 100) ++ [c_comma; 48 + n / 10 mod 10; 48 + n mod 10].
Definition fmt_sum (x : float) : str :=
  match x with
  | S754_zero s => cents_text s 0
  | S754_infinity s => (if s then [c_dash] else []) ++ lit "inf"
  | S754_nan => lit "nan"
  | S754_finite s m e => cents_text s (Z.to_N (round_half_even (100 * Zpos m) e))
  end.

(** [dateTime.strftime("%Y-%m-%dT%H:%M:%S")], librksv/cashreg.py:129. With the C
    library of Linux, the year is not padded. *)
Definition two_digits (n : N) : str := [48 + n / 10; 48 + n mod 10].
Definition strftime (d : dt) : str :=
  digits 10 (dt_year d) ++ c_dash :: two_digits (dt_month d) ++ c_dash :: two_digits (dt_day d)
  ++ 84 :: two_digits (dt_hour d) ++ c_colon :: two_digits (dt_min d) ++ c_colon :: two_digits (dt_sec d).

(** ** Signature devices, librksv/sigsys.py:56-120. The device that is reached by
    network (121-178) is not modelled. *)
Inductive sigsys : Type :=
| SignatureSystemBroken (zda serial : str)
| SignatureSystemWorking (zda serial : str) (priv : privkey).
Definition sys_zda (s : sigsys) : str :=
  match s with SignatureSystemBroken z _ => z | SignatureSystemWorking z _ _ => z end.
Definition sys_serial (s : sigsys) : str :=
  match s with SignatureSystemBroken _ n => n | SignatureSystemWorking _ n _ => n end.

(** librksv/sigsys.py:71-81 and 106-115 sign *)
Definition sys_sign (w : world) (s : sigsys) (data : str) : result str :=
  do head <- utf8_encode r1_jwsHeader;
  match s with
  | SignatureSystemBroken _ _ =>
      do p <- utf8_encode data;
      Ok (b64url_nopad head ++ [c_dot] ++ b64url_nopad p ++ [c_dot] ++ b64url_nopad fail_marker)
  | SignatureSystemWorking _ _ priv =>
      do sig <- r1_sign w data priv;
      do p <- utf8_encode data;
      Ok (b64url_nopad head ++ [c_dot] ++ b64url_nopad p ++ [c_dot] ++ sig)
  end.

(** ** The register, librksv/cashreg.py:101-191 *)
Record cashreg : Type := CashReg {
  cr_id : str;               (* registerId *)
  cr_last : option str;      (* lastReceiptSig *)
  cr_counter : Z;            (* turnoverCounter *)
  cr_key : bytes;            (* key *)
  cr_size : nat              (* turnoverCounterSize *)
}.

(** librksv/cashreg.py:106-126 __init__ *)
Definition new_cashreg (registerId : str) (last : option str) (counter : Z) (key : bytes) (size : nat) : result cashreg :=
  check negb ((size <? 5)%nat || (16 <? size)%nat) else PyException;
  Ok (CashReg registerId last counter key size).

Definition set_tc (r : receipt) (tc : str) : receipt :=
  Receipt (r_zda r) (r_registerId r) (r_receiptId r) (r_dateTime r) (r_dateTimeStr r)
    (r_sumA r) (r_sumAStr r) (r_sumB r) (r_sumBStr r) (r_sumC r) (r_sumCStr r)
    (r_sumD r) (r_sumDStr r) (r_sumE r) (r_sumEStr r) tc (r_certSerial r) (r_previousChain r) (r_sig r).
Definition set_previousChain (r : receipt) (pc : str) : receipt :=
  Receipt (r_zda r) (r_registerId r) (r_receiptId r) (r_dateTime r) (r_dateTimeStr r)
    (r_sumA r) (r_sumAStr r) (r_sumB r) (r_sumBStr r) (r_sumC r) (r_sumCStr r)
    (r_sumD r) (r_sumDStr r) (r_sumE r) (r_sumEStr r) (r_encTC r) (r_certSerial r) pc (r_sig r).
Definition with_counter (g : cashreg) (c : Z) : cashreg := CashReg (cr_id g) (cr_last g) c (cr_key g) (cr_size g).
Definition with_last (g : cashreg) (jws : str) : cashreg :=
  CashReg (cr_id g) (Some jws) (cr_counter g) (cr_key g) (cr_size g).

(** The arguments of a call of [receipt] *)
Record request : Type := Request {
  q_id : str;
  q_time : dt;
  q_a : float; q_b : float; q_c : float; q_d : float; q_e : float;
  q_sys : sigsys;
  q_dummy : bool;
  q_reversal : bool
}.

(** [int(round((sumA + sumB + sumC + sumD + sumE) * 100))], librksv/cashreg.py:157 *)
Definition request_cents (q : request) : result Z :=
  py_round (fmul (fadd (fadd (fadd (fadd (q_a q) (q_b q)) (q_c q)) (q_d q)) (q_e q)) f100).

(** The fields turnover counter and chaining value, and the signature,
    librksv/cashreg.py:147-177 *)
Definition complete (w : world) (g : cashreg) (prefix : str) (q : request) (rec : receipt) : result (receipt * str) :=
  do tc <- (if q_dummy q then Ok (lit "TRA")
            else if q_reversal q then Ok (lit "STO")
            else do _x <- raiseForKey (cr_key g);
                 r1_encrypt w (r_registerId rec) (r_receiptId rec) (cr_counter g) (cr_key g) (cr_size g));
  let rec := set_tc rec (b64encode tc) in
  do pc <- r1_chain w (r_registerId rec) (cr_last g);
  let rec := set_previousChain rec (b64encode pc) in
  do payload <- toPayloadString rec prefix;
  do jws <- sys_sign w (q_sys q) payload;
  Ok (rec, jws).

(** librksv/cashreg.py:180-184; the JWS string was just made, so that the base64
    functions of the standard library and those of utils agree on it. *)
Definition sign_parts (rec : receipt) (jws : str) : result receipt :=
  match split_char c_dot jws with
  | [h; _; s] =>
      do hb <- b64url_decode_str h;
      do header <- utf8_decode hb;
      sign_receipt rec header s
  | _ => Err PyValueError
  end.

(** librksv/cashreg.py:126-191 receipt, without overrides, which are there for
    tests with faulty receipts. Returns the state of the register after the call,
    which is changed even if the call fails. *)
Definition issue (w : world) (g : cashreg) (prefix : str) (q : request) : cashreg * result receipt :=
  match (check known_alg prefix else PyKeyError;
         mk_receipt w (sys_zda (q_sys q)) (cr_id g) (q_id q) (strftime (q_time q))
           (fmt_sum (q_a q)) (fmt_sum (q_b q)) (fmt_sum (q_c q)) (fmt_sum (q_d q)) (fmt_sum (q_e q))
           [] (sys_serial (q_sys q)) []) with
  | Err e => (g, Err e)
  | Ok rec =>
      match (if q_dummy q then Ok (cr_counter g)
             else do x <- request_cents q; Ok (cr_counter g + x)%Z) with
      | Err e => (g, Err e)
      | Ok c =>
          let g := with_counter g c in
          match complete w g prefix q rec with
          | Err e => (g, Err e)
          | Ok (rec, jws) => (with_last g jws, sign_parts rec jws)
          end
      end
  end.

(** The generator of demo.py:45-62 for the given requests, librksv/run_test.py:
    150-230 for one group: the receipts, or the first exception. *)
Fixpoint issue_all (w : world) (g : cashreg) (qs : list request) : cashreg * result (list rtuple) :=
  match qs with
  | [] => (g, Ok [])
  | q :: r =>
      match issue w g (lit "R1") q with
      | (g', Err e) => (g', Err e)
      | (g', Ok rec) =>
          let (g'', rest) := issue_all w g' r in
          (g'', do l <- rest; Ok ((rec, lit "R1") :: l))
      end
  end.

(** The groups of librksv/run_test.py:188-196, 241-250: one per signature device. *)
Record batch : Type := Batch { b_cert : option cert; b_chain : list cert; b_requests : list request }.
Fixpoint issue_groups (w : world) (g : cashreg) (bs : list batch) : cashreg * result (list (rgroup rtuple)) :=
  match bs with
  | [] => (g, Ok [])
  | b :: r =>
      match issue_all w g (b_requests b) with
      | (g', Err e) => (g', Err e)
      | (g', Ok l) =>
          let (g'', rest) := issue_groups w g' r in
          (g'', do gs <- rest; Ok (RGroup l (b_cert b) (b_chain b) :: gs))
      end
  end.
