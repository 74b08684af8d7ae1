(** JSON texts: Python's [json] module as the programs use it, and
    librksv/utils.py:340-367. *)
From Coq Require Import Floats.SpecFloat.
From Verif Require Import PyBase World Codec PyFloat Json DepBase DepParser.
Open Scope N_scope.

(** ** Reading: json/decoder.py and the C scanner. [None] is JSONDecodeError, a
    ValueError. Limits of recursion and of the size of integers are left out. *)

Definition is_ws (c : N) : bool := (c =? 32) || (c =? 9) || (c =? 10) || (c =? 13).
Fixpoint skip_ws (s : str) : str :=
  match s with
  | c :: r => if is_ws c then skip_ws r else s
  | [] => []
  end.

(** The text after a prefix *)
Fixpoint after (p s : str) : option str :=
  match p, s with
  | [], _ => Some s
  | c :: p', d :: s' => if c =? d then after p' s' else None
  | _, [] => None
  end.

(** Four hexadecimal digits *)
Definition hex4 (a b c d : N) : option N :=
  match hex_digit a, hex_digit b, hex_digit c, hex_digit d with
  | Some x, Some y, Some z, Some u => Some (x * 4096 + y * 256 + z * 16 + u)
  | _, _, _, _ => None
  end.
Definition high (u : N) : bool := (0xD800 <=? u) && (u <=? 0xDBFF).
Definition low (u : N) : bool := (0xDC00 <=? u) && (u <=? 0xDFFF).
Definition pair_code (u v : N) : N := 0x10000 + (u - 0xD800) * 1024 + (v - 0xDC00).

(** Escapes of one character *)
Definition simple_escape (c : N) : option N :=
  if c =? 34 then Some 34 else if c =? 92 then Some 92 else if c =? 47 then Some 47
  else if c =? 98 then Some 8 else if c =? 102 then Some 12 else if c =? 110 then Some 10
  else if c =? 114 then Some 13 else if c =? 116 then Some 9 else None.

Definition cons_fst (c : N) (x : option (str * str)) : option (str * str) :=
  match x with Some (t, r) => Some (c :: t, r) | None => None end.

(** The rest of a string after the quotation mark *)
Fixpoint scan_string (s : str) : option (str * str) :=
  match s with
  | [] => None
  | c :: r =>
      if c =? 34 then Some ([], r)
      else if c =? 92 then
        match r with
        | [] => None
        | e :: r1 =>
            if e =? 117 then
              match r1 with
              | a1 :: a2 :: a3 :: a4 :: r2 =>
                  match hex4 a1 a2 a3 a4 with
                  | None => None
                  | Some u =>
                      if high u then
                        match r2 with
                        | b :: x :: b1 :: b2 :: b3 :: b4 :: r3 =>
                            if (b =? 92) && (x =? 117) then
                              match hex4 b1 b2 b3 b4 with
                              | None => None
                              | Some v => if low v then cons_fst (pair_code u v) (scan_string r3) else cons_fst u (scan_string r2)
                              end
                            else cons_fst u (scan_string r2)
                        | _ => cons_fst u (scan_string r2)
                        end
                      else cons_fst u (scan_string r2)
                  end
              | _ => None
              end
            else
              match simple_escape e with
              | Some x => cons_fst x (scan_string r1)
              | None => None
              end
        end
      else if c <? 32 then None
      else cons_fst c (scan_string r)
  end.

(** Numbers *)
Fixpoint take_digits (s : str) : str * str :=
  match s with
  | c :: r => if is_09 c then let (d, r') := take_digits r in (c :: d, r') else ([], s)
  | [] => ([], [])
  end.
Definition dec (s : str) : N := fold_left (fun a c => a * 10 + (c - 48)) s 0.
Definition scan_int (s : str) : option (bool * str * str) :=
  let '(neg, s1) := match s with c :: r => if c =? 45 then (true, r) else (false, s) | [] => (false, s) end in
  match s1 with
  | c :: r =>
      if c =? 48 then Some (neg, [c], r)
      else if is_09 c then let (d, r') := take_digits s1 in Some (neg, d, r') else None
  | [] => None
  end.
Definition scan_frac (s : str) : option (str * str) :=
  match s with
  | p :: c :: r => if (p =? 46) && is_09 c then Some (take_digits (c :: r)) else None
  | _ => None
  end.
Definition scan_exp (s : str) : option (Z * str) :=
  match s with
  | c :: r =>
      if (c =? 101) || (c =? 69) then
        let '(neg, r1) := match r with
                          | x :: r' => if x =? 45 then (true, r') else if x =? 43 then (false, r') else (false, r)
                          | [] => (false, r)
                          end in
        match take_digits r1 with
        | ([], _) => None
        | (d, r') => Some ((if neg then - Z.of_N (dec d) else Z.of_N (dec d))%Z, r')
        end
      else None
  | [] => None
  end.
(** [float(…)] of a number with decimal fraction and exponent: correctly rounded *)
Definition float_of_decimal (neg : bool) (m : N) (e : Z) : float :=
  match m with
  | N0 => S754_zero neg
  | Npos p =>
      match e with
      | Zneg q => float_of_ratio neg p (10 ^ q)
      | Z0 => float_of_ratio neg p 1
      | Zpos q => float_of_ratio neg (p * 10 ^ q) 1
      end
  end.
Definition scan_number (s : str) : option (json * str) :=
  match scan_int s with
  | None => None
  | Some (neg, ds, r) =>
      match scan_frac r with
      | Some (fs, r1) =>
          let k := Z.of_nat (List.length fs) in
          match scan_exp r1 with
          | Some (x, r2) => Some (JFloat (float_of_decimal neg (dec (ds ++ fs)) (x - k)), r2)
          | None => Some (JFloat (float_of_decimal neg (dec (ds ++ fs)) (- k)), r1)
          end
      | None =>
          match scan_exp r with
          | Some (x, r2) => Some (JFloat (float_of_decimal neg (dec ds) x), r2)
          | None => Some (JInt (if neg then - Z.of_N (dec ds) else Z.of_N (dec ds))%Z, r)
          end
      end
  end.

(** Literals; the last three are extensions of Python's. *)
Definition literals : list (str * json) :=
  [(lit "null", JNull); (lit "true", JBool true); (lit "false", JBool false);
   (lit "NaN", JFloat S754_nan); (lit "Infinity", JFloat (S754_infinity false)); (lit "-Infinity", JFloat (S754_infinity true))].
Fixpoint scan_literal (l : list (str * json)) (s : str) : option (json * str) :=
  match l with
  | [] => scan_number s
  | (t, v) :: l' => match after t s with Some r => Some (v, r) | None => scan_literal l' s end
  end.

(** A value, the members of an object after the brace, the elements of an array
    after the bracket *)
Fixpoint scan_value (fuel : nat) (s : str) : option (json * str) :=
  match fuel with
  | O => None
  | S f =>
      match s with
      | [] => None
      | c :: r =>
          if c =? 34 then
            match scan_string r with Some (t, r') => Some (JStr t, r') | None => None end
          else if c =? 123 then
            match skip_ws r with
            | d :: r' => if d =? 125 then Some (JDict [], r')
                         else match scan_members f (d :: r') with Some (m, r2) => Some (JDict m, r2) | None => None end
            | [] => None
            end
          else if c =? 91 then
            match skip_ws r with
            | d :: r' => if d =? 93 then Some (JList [], r')
                         else match scan_items f (d :: r') with Some (m, r2) => Some (JList m, r2) | None => None end
            | [] => None
            end
          else scan_literal literals s
      end
  end
with scan_items (fuel : nat) (s : str) : option (list json * str) :=
  match fuel with
  | O => None
  | S f =>
      match scan_value f s with
      | None => None
      | Some (v, r) =>
          match skip_ws r with
          | c :: r' =>
              if c =? 93 then Some ([v], r')
              else if c =? 44 then
                match scan_items f (skip_ws r') with Some (l, r2) => Some (v :: l, r2) | None => None end
              else None
          | [] => None
          end
      end
  end
with scan_members (fuel : nat) (s : str) : option (list (str * json) * str) :=
  match fuel with
  | O => None
  | S f =>
      match s with
      | q :: s1 =>
          if q =? 34 then
            match scan_string s1 with
            | None => None
            | Some (k, r0) =>
                match skip_ws r0 with
                | c0 :: r1 =>
                    if c0 =? 58 then
                      match scan_value f (skip_ws r1) with
                      | None => None
                      | Some (v, r) =>
                          match skip_ws r with
                          | c :: r' =>
                              if c =? 125 then Some ([(k, v)], r')
                              else if c =? 44 then
                                match scan_members f (skip_ws r') with Some (l, r2) => Some ((k, v) :: l, r2) | None => None end
                              else None
                          | [] => None
                          end
                      end
                    else None
                | [] => None
                end
            end
          else None
      | [] => None
      end
  end.

(** The document in a text *)
Definition loads (s : str) : option json :=
  match scan_value (2 * List.length s + 2) (skip_ws s) with
  | Some (v, r) => match skip_ws r with [] => Some v | _ => None end
  | None => None
  end.

(** librksv/utils.py:340-360 skipBOM for a file in text mode that is positioned at
    its start *)
Definition skipBOM (s : str) : str :=
  match s with c :: r => if c =? 0xFEFF then r else s | [] => [] end.
(** librksv/utils.py:362-367 readJsonStream *)
Definition readJsonStream (s : str) : option json := option_map load (loads (skipBOM s)).

(** librksv/depparser.py:680-702 FullFileDEPParser.parse: any ValueError becomes a
    DEPParseException. *)
Definition parse_full (w : world) (nparts : nat) (text : str) (chunksize : nat) : stream chunk :=
  match readJsonStream text with
  | Some dep => parse_dict w nparts dep chunksize
  | None => ([], Some DEPParseError)
  end.

(** ** Writing: json/encoder.py, [ensure_ascii] *)

Definition hex_escape (u : N) : str :=
  92 :: 117 :: map hex_char [u / 4096; (u / 256) mod 16; (u / 16) mod 16; u mod 16].
Definition escape (c : N) : str :=
  if c =? 34 then [92; 34] else if c =? 92 then [92; 92]
  else if c =? 10 then lit "\n" else if c =? 13 then lit "\r" else if c =? 9 then lit "\t"
  else if c =? 12 then lit "\f" else if c =? 8 then lit "\b"
  else if (32 <=? c) && (c <=? 126) then [c]
  else if c <? 0x10000 then hex_escape c
  else hex_escape (0xD800 + (c - 0x10000) / 1024) ++ hex_escape (0xDC00 + (c - 0x10000) mod 1024).
Definition quote (s : str) : str := 34 :: flat_map escape s ++ [34].

(** [float.__repr__] of finite numbers is a parameter. *)
Definition float_text (fr : float -> str) (x : float) : str :=
  match x with
  | S754_nan => lit "NaN"
  | S754_infinity false => lit "Infinity"
  | S754_infinity true => lit "-Infinity"
  | _ => fr x
  end.

(** With [indent=2] or without *)
Definition new_line (ind : bool) (lvl : nat) : str := if ind then 10 :: repeat 32 (2 * lvl) else [].
Definition separator (ind : bool) (lvl : nat) : str := 44 :: if ind then new_line ind lvl else [32].
Fixpoint dump (fr : float -> str) (ind : bool) (lvl : nat) (v : json) : str :=
  match v with
  | JNull => lit "null"
  | JBool true => lit "true"
  | JBool false => lit "false"
  | JInt z => fmt_d z
  | JFloat x => float_text fr x
  | JStr s => quote s
  | JList [] => lit "[]"
  | JList l => 91 :: new_line ind (S lvl) ++ join (separator ind (S lvl)) (map (dump fr ind (S lvl)) l) ++ new_line ind lvl ++ [93]
  | JDict [] => lit "{}"
  | JDict d => 123 :: new_line ind (S lvl)
      ++ join (separator ind (S lvl)) (map (fun kv => quote (fst kv) ++ 58 :: 32 :: dump fr ind (S lvl) (snd kv)) d)
      ++ new_line ind lvl ++ [125]
  end.
Definition dumps (fr : float -> str) (ind : bool) (v : json) : str := dump fr ind 0 v.
