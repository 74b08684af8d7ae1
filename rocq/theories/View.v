(** rktool.py:256-419: the view of a receipt in the graphical program. *)
From Coq Require Import Floats.SpecFloat.
From Verif Require Import PyBase World Codec PyFloat PyTime Algo Receipt Json KeyStore VerifyReceipt CashReg JsonText Gui.
Open Scope N_scope.

(** [float(z)] of an integer: rounded to the nearest number, to an even mantissa if
    there are two; OverflowError if the result is not finite. *)
Definition float_of_int (z : Z) : result float :=
  match binary_normalize fprec femax z 0 false with
  | S754_infinity _ => Err PyOverflowError
  | x => Ok x
  end.
(** Division of floating point numbers *)
Definition fdiv (x y : float) : float := SFdiv fprec femax x y.

(** rktool.py:315-323, the turnover counter that is displayed. [fr] is Python's
    [str] of a floating point number. A key is never empty here because of its
    length (rktool.py:411). *)
Definition counter_text (w : world) (fr : float -> str) (r : receipt) (alg : str) (key : option bytes) : result str :=
  do dummy <- isDummy r;
  if dummy then Ok (lit "TRA") else
  do reversal <- isReversal r;
  if reversal then Ok (lit "STO") else
  match key with
  | Some k =>
      if nonempty k && known_alg alg then
        do z <- decryptTC w r k; do x <- float_of_int z; Ok (fr (fdiv x f100))
      else Ok (r_encTC r)
  | None => Ok (r_encTC r)
  end.

(** rktool.py:310-343 updateView: the values in the rows 1 to 13. Their names, and the
    translation of "Signature system broken", are left out. *)
Definition view_rows (w : world) (fr : float -> str) (r : receipt) (alg : str) (key : option bytes) : result (list str) :=
  do counter <- counter_text w fr r alg key;
  do broken <- isSignedBroken r;
  let signature := match r_sig r with Some (_, s) => s | None => [] end in
  Ok [alg ++ c_dash :: r_zda r; r_registerId r; r_receiptId r; strftime (r_dateTime r);
      fr (r_sumA r); fr (r_sumB r); fr (r_sumC r); fr (r_sumD r); fr (r_sumE r);
      counter; r_certSerial r; r_previousChain r;
      if broken then lit "Signature system broken" else signature].

(** The button for the verification: "Verify", "Valid Signature" or "No Signature" *)
Inductive button : Type := B_verify | B_valid | B_none.

(** What is seen of a receipt, and the key *)
Record rview : Type := View {
  v_rows : list str; v_key : option bytes; v_input : str; v_decrypt : bool; v_button : button }.

(** rktool.py:266-305 __init__: the view, and an exception that is displayed when it
    opens *)
Definition open_view (w : world) (fr : float -> str) (r : receipt) (alg : str) (valid : bool) : result (rview * option exn) :=
  do dummy <- isDummy r;
  do reversal <- isReversal r;
  do broken <- isSignedBroken r;
  do rows <- view_rows w fr r alg None;
  Ok (View rows None [] (negb (dummy || reversal)) (if broken then B_none else if valid then B_valid else B_verify),
      if broken && (negb dummy && negb reversal && isNull r) then Some (UnsignedNullReceipt (r_receiptId r)) else None).

(** rktool.py:401-419 setKey. All exceptions are caught but those of updateView. *)
Definition set_key (w : world) (fr : float -> str) (r : receipt) (alg : str) (st : rview) (key : option str) : rview * shown unit :=
  match key with
  | None => (View (v_rows st) None (v_input st) (v_decrypt st) (v_button st), Done tt)
  | Some t =>
      match (do b <- utf8_encode t; do k <- b64decode b;
             check known_alg alg else UnknownAlgorithm (r_receiptId r);
             do _x <- raiseForKey k; Ok k) with
      | Err e => (View (v_rows st) None [] (v_decrypt st) (v_button st), Displayed e)
      | Ok k =>
          match view_rows w fr r alg (Some k) with
          | Ok rows => (View rows (Some k) t false (v_button st), Done tt)
          | Err e => (View (v_rows st) (Some k) t false (v_button st), Lost e)
          end
      end
  end.

(** rktool.py:307-308 firstDisplay: the key of the DEP *)
Definition first_display (w : world) (fr : float -> str) (r : receipt) (alg : str) (st : rview) (text : str) : rview * shown unit :=
  set_key w fr r alg st (match text with [] => None | _ => Some text end).

(** The file chosen for a key: it cannot be read, or it is a text file, or its name
    ends with ".json" and it has the given text *)
Inductive key_file : Type := K_unreadable | K_text (s : str) | K_json (s : str).

(** rktool.py:378-399 loadAESCb. [PyException] stands for the IOError, and for
    kivy's exception for a key that is no text. *)
Definition load_aes (w : world) (fr : float -> str) (r : receipt) (alg : str) (st : rview) (f : key_file) : rview * shown unit :=
  match f with
  | K_unreadable => (fst (set_key w fr r alg st None), Displayed PyException)
  | K_text s => set_key w fr r alg st (Some s)
  | K_json s =>
      match readJsonStream s with
      | None => (fst (set_key w fr r alg st None), Displayed PyValueError)
      | Some (JDict d) =>
          match dict_get d (lit "base64AESKey") with
          | None => (fst (set_key w fr r alg st None), Displayed PyKeyError)
          | Some JNull => set_key w fr r alg st None
          | Some (JStr k) => set_key w fr r alg st (Some k)
          | Some _ => (View (v_rows st) None [] (v_decrypt st) (v_button st), Displayed PyException)
          end
      | Some _ => (st, Lost PyTypeError)
      end
  end.

(** What a user can do: type a key and press "Decrypt"; press it with nothing typed
    and choose a file; press "Verify". Buttons that are disabled do nothing. *)
Inductive view_action : Type := V_type (t : str) | V_load (f : key_file) | V_verify (ks : keystore).

(** rktool.py:345-364 verify and verifyCb, 366-370 decrypt *)
Definition view_act (w : world) (fr : float -> str) (r : receipt) (alg : str) (st : rview) (a : view_action) : rview * shown unit :=
  match a with
  | V_type [] => (st, Done tt)
  | V_type t => if v_decrypt st then set_key w fr r alg st (Some t) else (st, Done tt)
  | V_load f => if v_decrypt st then load_aes w fr r alg st f else (st, Done tt)
  | V_verify ks =>
      match v_button st with
      | B_verify =>
          match verify_receipt_task w ks (r, alg) with
          | Done _ => (View (v_rows st) (v_key st) (v_input st) (v_decrypt st) B_valid, Done tt)
          | Displayed e => (st, Displayed e)
          | Lost e => (st, Lost e)
          end
      | _ => (st, Done tt)
      end
  end.

(** One action after the other, as long as the program runs *)
Fixpoint view_acts (w : world) (fr : float -> str) (r : receipt) (alg : str) (st : rview) (l : list view_action) : rview * shown unit :=
  match l with
  | [] => (st, Done tt)
  | a :: l' =>
      match view_act w fr r alg st a with
      | (st', Lost e) => (st', Lost e)
      | (st', _) => view_acts w fr r alg st' l'
      end
  end.
