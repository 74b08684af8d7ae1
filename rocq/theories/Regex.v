(** Regular expressions, so that the patterns of the code can be transcribed
    literally. Matching is by (simplified) Brzozowski derivatives; [lang] is the
    usual declarative meaning, [RegexFacts.v] proves that they agree. *)
From Verif Require Import PyBase World.
Open Scope N_scope.

Inductive re : Type :=
| REmp                       (* matches nothing *)
| REps                       (* matches the empty text *)
| RCls (f : N -> bool)       (* one character of a class *)
| RSeq (a b : re)
| RAlt (a b : re)
| RStar (a : re).

Definition RChr (c : N) : re := RCls (N.eqb c).
Definition ROpt (r : re) : re := RAlt r REps.
Definition RPlus (r : re) : re := RSeq r (RStar r).
Fixpoint RUpTo (n : nat) (r : re) : re :=     (* r{0,n} *)
  match n with
  | O => REps
  | S n' => ROpt (RSeq r (RUpTo n' r))
  end.
Fixpoint RStr (s : str) : re :=
  match s with
  | [] => REps
  | c :: r => RSeq (RChr c) (RStr r)
  end.

Fixpoint nullable (r : re) : bool :=
  match r with
  | REmp => false
  | REps => true
  | RCls _ => false
  | RSeq a b => nullable a && nullable b
  | RAlt a b => nullable a || nullable b
  | RStar _ => true
  end.

Definition seq (a b : re) : re :=
  match a with
  | REmp => REmp
  | REps => b
  | _ => RSeq a b
  end.
Definition alt (a b : re) : re :=
  match a with
  | REmp => b
  | _ => match b with REmp => a | _ => RAlt a b end
  end.

Fixpoint deriv (c : N) (r : re) : re :=
  match r with
  | REmp => REmp
  | REps => REmp
  | RCls f => if f c then REps else REmp
  | RSeq a b =>
      if nullable a then alt (seq (deriv c a) b) (deriv c b)
      else seq (deriv c a) b
  | RAlt a b => alt (deriv c a) (deriv c b)
  | RStar a => seq (deriv c a) (RStar a)
  end.

Fixpoint matches (r : re) (s : str) : bool :=
  match s with
  | [] => nullable r
  | c :: s' => matches (deriv c r) s'
  end.

(** [re.compile('^' + r + '$').match(s)]: without the MULTILINE flag, [$] also
    matches just before a newline at the very end of the text. *)
Definition re_match (r : re) (s : str) : bool :=
  matches (RSeq r (ROpt (RChr c_nl))) s.

Inductive lang : re -> str -> Prop :=
| LEps : lang REps []
| LCls f c : f c = true -> lang (RCls f) [c]
| LSeq a b s t : lang a s -> lang b t -> lang (RSeq a b) (s ++ t)
| LAltL a b s : lang a s -> lang (RAlt a b) s
| LAltR a b s : lang b s -> lang (RAlt a b) s
| LStar0 a : lang (RStar a) []
| LStarS a s t : lang a s -> lang (RStar a) t -> lang (RStar a) (s ++ t).

(** ** The patterns of the code *)

(** [\d] *)
Definition Rd (w : world) : re := RCls (is_decimal w).
Definition R19 : re := RCls (fun c => (49 <=? c) && (c <=? 57)).
Definition RAZ : re := RCls is_AZ.

(** librksv/receipt.py:162 algRegex [^R[1-9]\d*$] *)
Definition algRegex (w : world) : re :=
  RSeq (RChr 82) (RSeq R19 (RStar (Rd w))).

(** librksv/receipt.py:163 zdaRegex [^([A-Z][A-Z][1-9]\d*|AT0)$] *)
Definition zdaRegex (w : world) : re :=
  RAlt (RSeq RAZ (RSeq RAZ (RSeq R19 (RStar (Rd w))))) (RStr (lit "AT0")).

(** librksv/utils.py:254 urlsafe_b64Regex [^[a-zA-Z0-9_-]*={0,3}$] *)
Definition is_b64url_char (c : N) : bool :=
  is_az c || is_AZ c || is_09 c || (c =? c_us) || (c =? c_dash).
Definition urlsafe_b64Regex : re :=
  RSeq (RStar (RCls is_b64url_char)) (RUpTo 3 (RChr c_eq)).

(** librksv/utils.py:260 b64Regex [^[a-zA-Z0-9/+]*={0,3}$] *)
Definition is_b64_char (c : N) : bool :=
  is_az c || is_AZ c || is_09 c || (c =? c_slash) || (c =? c_plus).
Definition b64Regex : re :=
  RSeq (RStar (RCls is_b64_char)) (RUpTo 3 (RChr c_eq)).

(** librksv/utils.py:266 b32Regex [^[A-Z2-7/+]*={0,7}$] *)
Definition is_b32_re_char (c : N) : bool :=
  is_AZ c || ((50 <=? c) && (c <=? 55)) || (c =? c_slash) || (c =? c_plus).
Definition b32Regex : re :=
  RSeq (RStar (RCls is_b32_re_char)) (RUpTo 7 (RChr c_eq)).

(** librksv/utils.py:330 receiptFloatRegex [^-?([1-9]\d+|\d)\,\d\d$] *)
Definition receiptFloatRegex (w : world) : re :=
  RSeq (ROpt (RChr c_dash))
    (RSeq (RAlt (RSeq R19 (RPlus (Rd w))) (Rd w))
       (RSeq (RChr c_comma) (RSeq (Rd w) (Rd w)))).
