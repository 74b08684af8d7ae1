(** librksv/sigsys.py:121-166: the signature device that is reached by network, and
    demo.py with it. *)
From Coq Require Import Floats.SpecFloat.
From Verif Require Import PyBase World Codec PyFloat PyTime Algo Receipt Json DepParser DepExport CashReg Demo.
Open Scope N_scope.
Open Scope py_scope.

(** What becomes of a call of [requests.get] or [requests.post] with
    [raise_for_status] and [json]: a RequestException, be it that the service cannot
    be reached or that it reports an error; a body that is no JSON text, for which
    versions of requests before 2.27 raise ValueError, and later ones a
    RequestException, which is the first case; or a document. *)
Inductive reply : Type := Refused | NoJson | Answer (j : json).

(** [r.json()[name]] where a text is expected. For values that are no texts Python
    fails later, when they are used. *)
Definition text_member (j : json) (name : str) : result str :=
  match j with
  | JDict d =>
      match dict_get d name with
      | Some (JStr s) => Ok s
      | Some _ => Err PyTypeError
      | None => Err PyKeyError
      end
  | _ => Err PyTypeError
  end.
Definition replied (a : reply) : result json :=
  match a with Refused => Err PyException | NoJson => Err PyValueError | Answer j => Ok j end.

(** librksv/sigsys.py:127-151 __init__; user name and password are left out. *)
Record remote : Type := Remote { rm_zda : str; rm_serial : str; rm_algo : str }.
Definition open_remote (certificate zda : reply) : result remote :=
  do c <- replied certificate;
  do serial <- text_member c (lit "ZertifikatsseriennummerHex");
  do algo <- text_member c (lit "alg");
  do z <- replied zda;
  do id <- text_member z (lit "zdaid");
  Ok (Remote id serial algo).

(** librksv/sigsys.py:153-166 sign; [post] is the reply to a payload. *)
Definition remote_sign (w : world) (d : remote) (post : str -> reply) (data : str) : result str :=
  check str_eqb (lit "ES256") (rm_algo d) else PyException;
  match post data with
  | Refused => sys_sign w (SignatureSystemBroken (rm_zda d) (rm_serial d)) data
  | NoJson => Err PyValueError
  | Answer j => text_member j (lit "result")
  end.

(** librksv/cashreg.py:126-191 receipt, see [issue], for any device: its ZDA, serial
    number and method [sign]. The device of the request is not used. *)
Definition issue_with (w : world) (g : cashreg) (prefix : str) (zda serial : str) (sign : str -> result str) (q : request)
  : cashreg * result receipt :=
  match (check known_alg prefix else PyKeyError;
         mk_receipt w zda (cr_id g) (q_id q) (strftime (q_time q))
           (fmt_sum (q_a q)) (fmt_sum (q_b q)) (fmt_sum (q_c q)) (fmt_sum (q_d q)) (fmt_sum (q_e q))
           [] serial []) with
  | Err e => (g, Err e)
  | Ok rec =>
      match (if q_dummy q then Ok (cr_counter g)
             else do x <- request_cents q; Ok (cr_counter g + x)%Z) with
      | Err e => (g, Err e)
      | Ok c =>
          let g := with_counter g c in
          match (do tc <- (if q_dummy q then Ok (lit "TRA")
                           else if q_reversal q then Ok (lit "STO")
                           else do _x <- raiseForKey (cr_key g);
                                r1_encrypt w (r_registerId rec) (r_receiptId rec) (cr_counter g) (cr_key g) (cr_size g));
                 let rec := set_tc rec (b64encode tc) in
                 do pc <- r1_chain w (r_registerId rec) (cr_last g);
                 let rec := set_previousChain rec (b64encode pc) in
                 do payload <- toPayloadString rec prefix;
                 do jws <- sign payload;
                 Ok (rec, jws)) with
          | Err e => (g, Err e)
          | Ok (rec, jws) => (with_last g jws, sign_parts rec jws)
          end
      end
  end.

Definition remote_issue (w : world) (g : cashreg) (d : remote) (post : str -> reply) (q : request) : cashreg * result receipt :=
  issue_with w g (lit "R1") (rm_zda d) (rm_serial d) (remote_sign w d post) q.

(** The receipts of one register, see [issue_all]; with each request the reply of the
    service at that time *)
Fixpoint remote_all (w : world) (g : cashreg) (d : remote) (qs : list (request * (str -> reply))) : cashreg * result (list rtuple) :=
  match qs with
  | [] => (g, Ok [])
  | (q, post) :: r =>
      match remote_issue w g d post q with
      | (g', Err e) => (g', Err e)
      | (g', Ok rec) =>
          let (g'', rest) := remote_all w g' d r in
          (g'', do l <- rest; Ok ((rec, lit "R1") :: l))
      end
  end.

(** demo.py:72-76, 101-116 with two arguments: the key file and the number. [post i] is
    the reply to the [i]-th receipt. *)
Definition demo_remote (w : world) (certificate zda : reply) (post : nat -> str -> reply) (keyText numText : str) (draws : nat -> draw)
  : result (option json) :=
  do d <- open_remote certificate zda;
  do num <- match py_int w 10 numText with Some n => Ok n | None => Err PyValueError end;
  if (num <? 1)%Z then Ok None
  else
    do kb <- utf8_encode keyText;
    do key <- b64decode kb;
    do g <- new_cashreg (lit "PIGGYBANK-007") None 0 key 8;
    let qs := demo_requests (SignatureSystemBroken (rm_zda d) (rm_serial d)) (Z.to_nat num) draws in
    do l <- snd (remote_all w g d (combine qs (map post (seq 0 (Z.to_nat num)))));
    do dep <- export w (single_group l) [];
    Ok (Some dep).
