(** Amounts of money as the code computes with them: IEEE 754 binary64 numbers.

    The numbers and their operations are those of Coq's standard
    [SpecFloat] (computable, no axioms), instantiated at binary64 with rounding
    to nearest, ties to even. *)
From Coq Require Import Floats.SpecFloat.
From Verif Require Import PyBase World Regex Codec.
Open Scope Z_scope.
Open Scope py_scope.

Definition fprec : Z := 53.
Definition femax : Z := 1024.
Definition float := spec_float.

Definition fadd (x y : float) : float := SFadd fprec femax x y.
Definition fmul (x y : float) : float := SFmul fprec femax x y.

(** The binary64 number nearest to (-1)^neg * num / den. *)
Definition float_of_ratio (neg : bool) (num den : positive) : float :=
  let '(m, e, l) := SFdiv_core_binary fprec femax (Zpos num) 0 (Zpos den) 0 in
  binary_round_aux fprec femax neg m e l.

(** [float(text)] for a text that denotes (-1)^neg * n / 100. *)
Definition float_of_cents (neg : bool) (n : N) : float :=
  match n with
  | N0 => S754_zero neg
  | Npos p => float_of_ratio neg p 100
  end.

(** The number 100.0 *)
Definition f100 : float := S754_finite false 7036874417766400 (-46).

(** [x == 0.0] *)
Definition feq0 (x : float) : bool :=
  match x with S754_zero _ => true | _ => false end.

(** Rounds m * 2^e (m >= 0) to an integer, half to even. *)
Definition round_half_even (m e : Z) : Z :=
  if 0 <=? e then m * 2 ^ e
  else
    let d := 2 ^ (- e) in
    let q := m / d in
    let r := m mod d in
    match (2 * r) ?= d with
    | Lt => q
    | Gt => q + 1
    | Eq => if Z.even q then q else q + 1
    end.

(** [int(round(x))] of Python 3. *)
Definition py_round (x : float) : result Z :=
  match x with
  | S754_zero _ => Ok 0
  | S754_infinity _ => Err PyOverflowError
  | S754_nan => Err PyValueError
  | S754_finite s m e =>
      let z := round_half_even (Zpos m) e in
      Ok (if s then - z else z)
  end.

(** Value of a text of decimal digits, ignoring everything else. *)
Fixpoint digits_val (w : world) (acc : N) (s : str) : N :=
  match s with
  | [] => acc
  | c :: r =>
      match decimal w c with
      | Some d => digits_val w (acc * 10 + d)%N r
      | None => digits_val w acc r
      end
  end.

(** librksv/utils.py:330-338 getReceiptFloat. The text matches the pattern, so
    it is an optional minus sign, digits, a comma, two digits and possibly a
    newline, and [float] of the text with the comma replaced by a dot is the
    number of cents that its digits denote, divided by 100 and correctly
    rounded. [float] accepts all Unicode decimal digits and ignores white space
    around the number. *)
Definition getReceiptFloat (w : world) (s : str) : option float :=
  if re_match (receiptFloatRegex w) s then
    let neg := match s with c :: _ => (c =? c_dash)%N | [] => false end in
    Some (float_of_cents neg (digits_val w 0 s))
  else None.
