(** demo.py: a DEP of random receipts. *)
From Coq Require Import Floats.SpecFloat.
From Verif Require Import PyBase World Codec PyFloat PyTime Algo Receipt Json Pem DepParser DepExport CashReg.
Open Scope N_scope.
Open Scope py_scope.

(** ["%05d" % i] for a number that is not negative, demo.py:52 *)
Definition pad5 (i : N) : str := let d := digits 10 i in repeat 48 (5 - List.length d) ++ d.

(** [round(x, 2)], demo.py:53-57: the floating point number nearest to the exact
    value rounded to hundredths, half to even. Infinite values, for which Python
    does the same, do not occur, nor do values so large that the result overflows. *)
Definition round2 (x : float) : float :=
  match x with
  | S754_finite s m e => float_of_cents s (Z.to_N (round_half_even (100 * Zpos m) e))
  | _ => x
  end.

(** What the clock and the random number generator say for one receipt: the result
    of [datetime.datetime.now()], those of the five calls of
    [random.uniform(-1000, 1000)], and whether those of the two calls of
    [random.uniform(0, 1)] exceed 0.5. *)
Record draw : Type := Draw {
  d_time : dt;
  d_a : float; d_b : float; d_c : float; d_d : float; d_e : float;
  d_dummy : bool; d_reversal : bool
}.

(** The calls of [register.receipt], demo.py:47-48 and 51-61 *)
Definition demo_first (s : sigsys) (d : draw) : request :=
  Request (lit "00000") (d_time d) (S754_zero false) (S754_zero false) (S754_zero false) (S754_zero false) (S754_zero false)
    s false false.
Definition demo_next (s : sigsys) (i : N) (d : draw) : request :=
  Request (pad5 i) (d_time d) (round2 (d_a d)) (round2 (d_b d)) (round2 (d_c d)) (round2 (d_d d)) (round2 (d_e d))
    s (d_dummy d) (d_reversal d).
Definition demo_requests (s : sigsys) (num : nat) (draws : nat -> draw) : list request :=
  demo_first s (draws O) :: map (fun i => demo_next s (N.of_nat i) (draws i)) (seq 1 (num - 1)).

(** Command lines: the contents of the files they name. The one with the signature
    device that is reached by network (demo.py:72-76) is not modelled. The file
    with the public key is not opened. *)
Inductive demo_mode : Type :=
| DemoOpen (priv : privkey) (certText : str)
| DemoClosed (priv : privkey) (keyId : str).
Record demo_args : Type := DemoArgs { da_mode : demo_mode; da_key : str; da_num : str }.

(** demo.py:77-99: the signature device *)
Definition demo_device (w : world) (m : demo_mode) : result sigsys :=
  match m with
  | DemoOpen priv certText =>
      do c <- loadCert w certText;
      Ok (SignatureSystemWorking (lit "AT77") (fmt_x (Z.abs (w_serial w c))) priv)
  | DemoClosed priv keyId => Ok (SignatureSystemWorking (lit "AT0") keyId priv)
  end.

(** librksv/depexport.py:154-161 fromSingleGroup, as called by the demo *)
Definition single_group (l : list rtuple) : stream (rgroup rtuple) := ([RGroup l None []], None).

(** demo.py:64-116 main: the DEP that is printed, or [None] if there is but a
    message. If making a receipt fails, the exception is the result; Python has
    printed the beginning of the DEP by then. *)
Definition demo (w : world) (a : demo_args) (draws : nat -> draw) : result (option json) :=
  do s <- demo_device w (da_mode a);
  do num <- match py_int w 10 (da_num a) with Some n => Ok n | None => Err PyValueError end;
  if (num <? 1)%Z then Ok None
  else
    do kb <- utf8_encode (da_key a);
    do key <- b64decode kb;
    do g <- new_cashreg (lit "PIGGYBANK-007") None 0 key 8;
    do l <- snd (issue_all w g (demo_requests s (Z.to_nat num) draws));
    do dep <- export w (single_group l) [];
    Ok (Some dep).
