(** Common ground of the model: texts, byte strings, exceptions as values and
    the Python built-ins on texts which the modelled code uses.

    A Python 3 [str] is the list of its Unicode code points, a Python [bytes]
    object the list of its byte values; both are [list N]. *)
From Coq Require Export Ascii String.
From Coq Require Export List NArith ZArith Bool.
Export ListNotations.
Open Scope N_scope.
Open Scope list_scope.

Definition str := list N.
Definition bytes := list N.

(** Literals. *)
Definition lit (s : string) : str := map N_of_ascii (list_ascii_of_string s).
Arguments lit s%string.

(** ** Exceptions

    One constructor per exception class. The texts of the messages are not
    modelled; the attribute [receipt] (the receipt or its label that an
    exception names) is kept where the class has one. *)
Inductive exn : Type :=
(* librksv/receipt.py:38-111 *)
| MalformedReceipt (rec : str)
| UnknownAlgorithm (rec : str)
| AlgorithmMismatch (rec : str)
| CertSerialInvalid (rec : str)
| InvalidCertificateProvider (rec : str)
(* librksv/verify_receipt.py:35-96 *)
| NoPublicKey (rec : str)
| InvalidSignature (rec : str)
| CertSerialMismatch (rec : str)
| SignatureSystemFailed (rec : str)
| UnsignedNullReceipt (rec : str)
| InvalidURLHash (rec : str)
(* librksv/verify.py:42-236 *)
| ClusterInOpenSystem
| ChainingError (rec : str)
| NoRestoreReceipt (rec : str)
| InvalidTurnoverCounter (rec : str)
| CertSerialCollision (ser : str) (fp1 fp2 : str)
| UntrustedCertificate (ser : str)
| CertificateChainBroken (ser1 ser2 : str)
| SignatureSystemFailedOnInitial (rec : str)
| NonzeroTurnoverOnInitial (rec : str)
| NonstandardTypeOnInitial (rec : str)
| InvalidChainingOnInitial (rec : str)
| InvalidChainingOnClusterInitial (rec : str)
| NoCertificateGiven
| ChangingRegisterId (rec : str)
| ChangingSystemType (rec : str)
| DecreasingDate (rec : str)
(* librksv/verification_state.py:38-122 *)
| DuplicateReceiptId (rec : str)
| NoStartReceiptForLastCashRegister
| InvalidCashRegisterIndex
| StateParseError
(* librksv/depparser.py:36-115 *)
| MalformedDEP
| DEPParseError
| MalformedDEPElement
| MissingDEPElement
| DuplicateDEPElement
| MalformedDEPCertificate
(* librksv/utils.py:47-72 *)
| InvalidKey
(* librksv/sigsys.py, librksv/cashreg.py, librksv/key_store.py *)
| SignatureSystemError
| KeyStoreError
(* Exceptions of Python itself. *)
| PyTypeError
| PyStopIteration
| PyAttributeError
| PyValueError
| PyOverflowError
| PyIndexError
| PyKeyError
| PyBinasciiError
| PyUnicodeEncodeError
| PyUnicodeDecodeError
| PyException.

Inductive result (A : Type) : Type :=
| Ok (a : A)
| Err (e : exn).
Arguments Ok {A} a.
Arguments Err {A} e.

Definition bind {A B} (m : result A) (f : A -> result B) : result B :=
  match m with
  | Ok a => f a
  | Err e => Err e
  end.

Declare Scope py_scope.
Delimit Scope py_scope with py.
Notation "'do' x <- m ; f" := (bind m (fun x => f))
  (at level 200, x pattern, m at level 100, f at level 200, right associativity) : py_scope.
Notation "'check' b 'else' e ; f" := (if (b : bool) then f else Err e)
  (at level 200, b at level 100, e at level 100, f at level 200, right associativity) : py_scope.
Open Scope py_scope.

(** [try m except (classes): raise e]: exceptions in [p] are replaced. *)
Definition catch {A} (m : result A) (p : exn -> bool) (e : exn) : result A :=
  match m with
  | Ok a => Ok a
  | Err x => if p x then Err e else Err x
  end.

(** ** Texts *)

Fixpoint str_eqb (a b : str) : bool :=
  match a, b with
  | [], [] => true
  | x :: a', y :: b' => (x =? y) && str_eqb a' b'
  | _, _ => false
  end.

(** [c in s] for a one-character [c]. *)
Definition has_char (c : N) (s : str) : bool := existsb (N.eqb c) s.

(** [s.split(c)] for a one-character separator: never empty. *)
Fixpoint split_char (c : N) (s : str) : list str :=
  match s with
  | [] => [[]]
  | x :: r =>
      if x =? c then [] :: split_char c r
      else match split_char c r with
           | [] => [[x]]
           | seg :: segs => (x :: seg) :: segs
           end
  end.

(** [sep.join(l)]. *)
Fixpoint join (sep : str) (l : list str) : str :=
  match l with
  | [] => []
  | [s] => s
  | s :: r => s ++ sep ++ join sep r
  end.

(** [s.endswith(c)] for a one-character [c]. *)
Fixpoint ends_with_char (c : N) (s : str) : bool :=
  match s with
  | [] => false
  | [x] => x =? c
  | _ :: r => ends_with_char c r
  end.

(** [s.replace(c, '')] for a one-character [c]. *)
Definition remove_char (c : N) (s : str) : str := filter (fun x => negb (x =? c)) s.

(** [s.replace(c, d)] for one-character [c] and [d]. *)
Definition replace_char (c d : N) (s : str) : str :=
  map (fun x => if x =? c then d else x) s.

(** [s.strip()] given the white-space predicate. *)
Fixpoint lstrip (sp : N -> bool) (s : str) : str :=
  match s with
  | [] => []
  | x :: r => if sp x then lstrip sp r else s
  end.
Definition strip (sp : N -> bool) (s : str) : str :=
  rev (lstrip sp (rev (lstrip sp s))).

(** Code points used below. *)
Definition c_us : N := 95.    (* '_' *)
Definition c_dot : N := 46.   (* '.' *)
Definition c_dash : N := 45.  (* '-' *)
Definition c_eq : N := 61.    (* '=' *)
Definition c_semi : N := 59.  (* ';' *)
Definition c_comma : N := 44. (* ',' *)
Definition c_nl : N := 10.    (* '\n' *)
Definition c_hash : N := 35.  (* '#' *)
Definition c_colon : N := 58. (* ':' *)
Definition c_slash : N := 47. (* '/' *)
Definition c_plus : N := 43.  (* '+' *)

Definition is_ascii (s : str) : bool := forallb (fun c => c <? 128) s.

(** Optional values with Python's truth test: [None] and [''] are false. *)
Definition truthy (o : option str) : option str :=
  match o with
  | Some [] => None
  | _ => o
  end.
