(** Text and binary encodings of the Python standard library as used by
    librksv/utils.py and librksv/receipt.py. *)
From Verif Require Import PyBase World Regex.
Open Scope N_scope.
Open Scope py_scope.

(** ** UTF-8 *)

(** One code point; surrogates cannot be encoded. *)
Definition utf8_char (c : N) : option bytes :=
  if c <? 128 then Some [c]
  else if c <? 2048 then Some [192 + c / 64; 128 + c mod 64]
  else if c <? 65536 then
    if (55296 <=? c) && (c <? 57344) then None
    else Some [224 + c / 4096; 128 + (c / 64) mod 64; 128 + c mod 64]
  else if c <? 1114112 then
    Some [240 + c / 262144; 128 + (c / 4096) mod 64; 128 + (c / 64) mod 64; 128 + c mod 64]
  else None.

(** [s.encode('utf-8')] *)
Fixpoint utf8_encode (s : str) : result bytes :=
  match s with
  | [] => Ok []
  | c :: r =>
      match utf8_char c with
      | None => Err PyUnicodeEncodeError
      | Some b => match utf8_encode r with
                  | Ok bs => Ok (b ++ bs)
                  | Err e => Err e
                  end
      end
  end.

Definition is_cont (b : N) : bool := (128 <=? b) && (b <? 192).

(** [b.decode('utf-8')] in strict mode: shortest forms only, no surrogates. *)
Fixpoint utf8_decode (b : bytes) : result str :=
  match b with
  | [] => Ok []
  | b0 :: r0 =>
      if b0 <? 128 then
        do s <- utf8_decode r0; Ok (b0 :: s)
      else if b0 <? 194 then Err PyUnicodeDecodeError
      else
        match r0 with
        | [] => Err PyUnicodeDecodeError
        | b1 :: r1 =>
            if negb (is_cont b1) then Err PyUnicodeDecodeError
            else if b0 <? 224 then
              do s <- utf8_decode r1; Ok ((b0 - 192) * 64 + (b1 - 128) :: s)
            else
              match r1 with
              | [] => Err PyUnicodeDecodeError
              | b2 :: r2 =>
                  if negb (is_cont b2) then Err PyUnicodeDecodeError
                  else if b0 <? 240 then
                    let c := (b0 - 224) * 4096 + (b1 - 128) * 64 + (b2 - 128) in
                    if (c <? 2048) || ((55296 <=? c) && (c <? 57344))
                    then Err PyUnicodeDecodeError
                    else do s <- utf8_decode r2; Ok (c :: s)
                  else
                    match r2 with
                    | [] => Err PyUnicodeDecodeError
                    | b3 :: r3 =>
                        if negb (is_cont b3) || negb (b0 <? 245) then Err PyUnicodeDecodeError
                        else
                          let c := (b0 - 240) * 262144 + (b1 - 128) * 4096
                                   + (b2 - 128) * 64 + (b3 - 128) in
                          if (c <? 65536) || negb (c <? 1114112)
                          then Err PyUnicodeDecodeError
                          else do s <- utf8_decode r3; Ok (c :: s)
                    end
              end
        end
  end.

(** ** Base 64 *)

Definition b64_char (v : N) : N :=
  if v <? 26 then v + 65
  else if v <? 52 then v + 71
  else if v <? 62 then v - 4
  else if v =? 62 then c_plus
  else c_slash.

Definition b64_val (c : N) : option N :=
  if is_AZ c then Some (c - 65)
  else if is_az c then Some (c - 71)
  else if is_09 c then Some (c + 4)
  else if c =? c_plus then Some 62
  else if c =? c_slash then Some 63
  else None.

(** [base64.b64encode] *)
Fixpoint b64encode (l : bytes) : bytes :=
  match l with
  | [] => []
  | [a] => [b64_char (a / 4); b64_char ((a mod 4) * 16); c_eq; c_eq]
  | [a; b] => [b64_char (a / 4); b64_char ((a mod 4) * 16 + b / 16);
               b64_char ((b mod 16) * 4); c_eq]
  | a :: b :: c :: r =>
      b64_char (a / 4) :: b64_char ((a mod 4) * 16 + b / 16)
      :: b64_char ((b mod 16) * 4 + c / 64) :: b64_char (c mod 64) :: b64encode r
  end.

(** [binascii.a2b_base64] in non-strict mode (CPython 3.7-3.12,
    Modules/binascii.c): [qp] is the position in the current quadruple,
    [left] its pending bits, [pads] the pad characters seen in it. Characters
    outside of the alphabet are skipped. *)
Fixpoint a2b (qp : nat) (left pads : N) (s : bytes) : result bytes :=
  match s with
  | [] => match qp with O => Ok [] | _ => Err PyBinasciiError end
  | c :: r =>
      if c =? c_eq then
        match qp with
        | O | S O => a2b qp left pads r
        | _ => if 4 <=? N.of_nat qp + (pads + 1) then Ok []
               else a2b qp left (pads + 1) r
        end
      else
        match b64_val c with
        | None => a2b qp left pads r
        | Some v =>
            match qp with
            | O => a2b 1 v 0 r
            | S O => do t <- a2b 2 (v mod 16) 0 r; Ok ((left * 4) mod 256 + v / 16 :: t)
            | S (S O) => do t <- a2b 3 (v mod 4) 0 r; Ok ((left * 16) mod 256 + v / 4 :: t)
            | _ => do t <- a2b 0 0 0 r; Ok ((left * 64) mod 256 + v :: t)
            end
        end
  end.

Definition a2b_base64 (s : bytes) : result bytes := a2b 0 0 0 s.

(** The character translations of [base64.urlsafe_b64encode] and
    [base64.urlsafe_b64decode]. *)
Definition to_urlsafe (c : N) : N :=
  if c =? c_plus then c_dash else if c =? c_slash then c_us else c.
Definition from_urlsafe (c : N) : N :=
  if c =? c_dash then c_plus else if c =? c_us then c_slash else c.

Definition urlsafe_b64encode (b : bytes) : bytes := map to_urlsafe (b64encode b).

(** [base64.urlsafe_b64encode(b).replace(b'=', b'')] *)
Definition b64url_nopad (b : bytes) : bytes := remove_char c_eq (urlsafe_b64encode b).

(** librksv/utils.py:261-265 b64decode *)
Definition b64decode (data : bytes) : result bytes :=
  do t <- utf8_decode data;
  check re_match b64Regex t else PyTypeError;
  a2b_base64 data.

(** librksv/utils.py:255-259 urlsafe_b64decode *)
Definition urlsafe_b64decode (data : bytes) : result bytes :=
  do t <- utf8_decode data;
  check re_match urlsafe_b64Regex t else PyTypeError;
  a2b_base64 (map from_urlsafe data).

(** librksv/utils.py:243-252 restoreb64padding *)
Definition restoreb64padding (data : str) : str :=
  let needed := (4 - List.length data mod 4)%nat in
  if (needed <? 4)%nat then data ++ repeat c_eq needed else data.

(** ** Base 32 *)

Definition b32_char (v : N) : N := if v <? 26 then v + 65 else v + 24.
Definition b32_val (c : N) : option N :=
  if is_AZ c then Some (c - 65)
  else if (50 <=? c) && (c <=? 55) then Some (c - 24)
  else None.

(** [base64.b32encode] *)
Fixpoint b32encode (l : bytes) : bytes :=
  match l with
  | [] => []
  | [a] => [b32_char (a / 8); b32_char ((a mod 8) * 4);
            c_eq; c_eq; c_eq; c_eq; c_eq; c_eq]
  | [a; b] => [b32_char (a / 8); b32_char ((a mod 8) * 4 + b / 64); b32_char ((b / 2) mod 32);
               b32_char ((b mod 2) * 16); c_eq; c_eq; c_eq; c_eq]
  | [a; b; c] => [b32_char (a / 8); b32_char ((a mod 8) * 4 + b / 64); b32_char ((b / 2) mod 32);
                  b32_char ((b mod 2) * 16 + c / 16); b32_char ((c mod 16) * 2);
                  c_eq; c_eq; c_eq]
  | [a; b; c; d] => [b32_char (a / 8); b32_char ((a mod 8) * 4 + b / 64); b32_char ((b / 2) mod 32);
                     b32_char ((b mod 2) * 16 + c / 16); b32_char ((c mod 16) * 2 + d / 128);
                     b32_char ((d / 4) mod 32); b32_char ((d mod 4) * 8); c_eq]
  | a :: b :: c :: d :: e :: r =>
      b32_char (a / 8) :: b32_char ((a mod 8) * 4 + b / 64) :: b32_char ((b / 2) mod 32)
      :: b32_char ((b mod 2) * 16 + c / 16) :: b32_char ((c mod 16) * 2 + d / 128)
      :: b32_char ((d / 4) mod 32) :: b32_char ((d mod 4) * 8 + e / 32) :: b32_char (e mod 32)
      :: b32encode r
  end.

(** The five bytes of a 40 bit number. *)
Definition bytes5 (v : N) : bytes :=
  [v / 4294967296; (v / 16777216) mod 256; (v / 65536) mod 256; (v / 256) mod 256; v mod 256].

(** Number denoted by base 32 digits, most significant first. *)
Fixpoint b32_acc (acc : N) (s : bytes) : option N :=
  match s with
  | [] => Some acc
  | c :: r => match b32_val c with
              | None => None
              | Some v => b32_acc (acc * 32 + v) r
              end
  end.

Fixpoint rstrip_eq_len (s : bytes) : nat * bytes :=   (* number of '=' at the end, rest *)
  match s with
  | [] => (0%nat, [])
  | c :: r =>
      let '(n, t) := rstrip_eq_len r in
      match t with
      | [] => if c =? c_eq then (S n, []) else (n, [c])
      | _ => (n, c :: t)
      end
  end.

(** Full groups of eight digits, then the last partial one. [pad] is the number
    of pad characters that were removed. *)
Fixpoint b32_quanta (pad : nat) (s : bytes) : result bytes :=
  match s with
  | [] => Ok []
  | a :: b :: c :: d :: e :: f :: g :: h :: r =>
      match b32_acc 0 [a; b; c; d; e; f; g; h] with
      | None => Err PyBinasciiError
      | Some v => do t <- b32_quanta pad r; Ok (bytes5 v ++ t)
      end
  | _ =>
      match b32_acc 0 s with
      | None => Err PyBinasciiError
      | Some v =>
          let last := bytes5 (v * 32 ^ N.of_nat pad) in
          Ok (firstn ((43 - 5 * pad) / 8) last)
      end
  end.

(** [base64.b32decode(s)] without case folding. The length is a multiple of
    eight, the pad characters are counted, and the digits are decoded. *)
Definition py_b32decode (s : bytes) : result bytes :=
  check (List.length s mod 8 =? 0)%nat else PyBinasciiError;
  let '(pad, body) := rstrip_eq_len s in
  do t <- b32_quanta pad body;
  check existsb (Nat.eqb pad) [0; 1; 3; 4; 6]%nat else PyBinasciiError;
  Ok t.

(** librksv/utils.py:267-271 b32decode applied to a text. On Python 3 a [str]
    has no [decode] method; on Python 2 an (ASCII) text can be decoded, a
    non-ASCII one raises UnicodeEncodeError. *)
Inductive pygen := Py2 | Py3.

Definition b32decode (g : pygen) (data : str) : result bytes :=
  match g with
  | Py3 => Err PyAttributeError
  | Py2 =>
      check is_ascii data else PyUnicodeEncodeError;
      check re_match b32Regex data else PyTypeError;
      py_b32decode data
  end.

(** ** Integers as text *)

(** [int(s, base)] for bases 10 and 16 (CPython PyLong_FromString after
    _PyUnicode_TransformDecimalAndSpaceToASCII); [None] is ValueError. The
    limit on the length of decimal strings of recent CPython versions is not
    modelled. *)
Definition ascii_space (c : N) : bool := ((9 <=? c) && (c <=? 13)) || (c =? 32).

Definition int_transform (w : world) (s : str) : str :=
  if is_ascii s then s
  else map (fun c =>
              if c <? 127 then c
              else if char_isspace w c then 32
              else match decimal w c with
                   | Some d => d + 48
                   | None => 63
                   end) s.

Definition hex_digit (c : N) : option N :=
  if is_09 c then Some (c - 48)
  else if (97 <=? c) && (c <=? 102) then Some (c - 87)
  else if (65 <=? c) && (c <=? 70) then Some (c - 55)
  else None.

Definition digit_val (base : N) (c : N) : option N :=
  match hex_digit c with
  | Some d => if d <? base then Some d else None
  | None => None
  end.

(** Digits with single underscores in between; [prev] tells whether the
    previous character was a digit. Returns the value and the rest. *)
Fixpoint int_digits (base acc : N) (prev : bool) (s : str) : option (N * str) :=
  match s with
  | [] => if prev then Some (acc, []) else None
  | c :: r =>
      match digit_val base c with
      | Some d => int_digits base (acc * base + d) true r
      | None =>
          if c =? c_us then
            if prev then int_digits base acc false r else None
          else if prev then Some (acc, s) else None
      end
  end.

(** An optional "0x" (with an optional underscore) in front of hexadecimal
    digits. *)
Definition int_prefix (base : N) (s : str) : str :=
  if base =? 16 then
    match s with
    | z :: x :: r =>
        if (z =? 48) && ((x =? 120) || (x =? 88)) then
          match r with
          | u :: r' => if u =? c_us then r' else r
          | [] => r
          end
        else s
    | _ => s
    end
  else s.

Definition int_sign (s : str) : bool * str :=
  match s with
  | c :: r => if c =? c_plus then (false, r) else if c =? c_dash then (true, r) else (false, s)
  | [] => (false, s)
  end.

Definition py_int (w : world) (base : N) (s : str) : option Z :=
  let '(neg, s) := int_sign (lstrip ascii_space (int_transform w s)) in
  match int_digits base 0 false (int_prefix base s) with
  | None => None
  | Some (v, rest) =>
      if forallb ascii_space rest
      then Some (if neg then (- Z.of_N v)%Z else Z.of_N v)
      else None
  end.

(** Digits of a number, most significant first. *)
Definition hex_char (d : N) : N := if d <? 10 then d + 48 else d + 87.

Fixpoint digits_fuel (fuel : nat) (base n : N) (acc : str) : str :=
  match fuel with
  | O => acc
  | S f =>
      let acc' := hex_char (n mod base) :: acc in
      if n / base =? 0 then acc' else digits_fuel f base (n / base) acc'
  end.

(** Every number has at most as many digits as bits. *)
Definition digits (base n : N) : str := digits_fuel (S (N.to_nat (N.size n))) base n [].

(** ['%x' % z] and [str(z)] *)
Definition fmt_base (base : N) (z : Z) : str :=
  if (z <? 0)%Z then c_dash :: digits base (Z.abs_N z) else digits base (Z.abs_N z).
Definition fmt_x (z : Z) : str := fmt_base 16 z.
Definition fmt_d (z : Z) : str := fmt_base 10 z.
