(** librksv/depparser.py:333-380: receipts and certificates as they are kept in
    memory. *)
From Verif Require Import PyBase World Codec.
Open Scope N_scope.
Open Scope py_scope.

(** librksv/depparser.py:333-347 shrinkDEPReceipt applied to a text. The
    handler only catches TypeError, so that the UnicodeEncodeError of a text
    with lone surrogates passes. *)
Definition shrinkDEPReceipt (rec : str) : result bytes := utf8_encode rec.

(** librksv/depparser.py:349-364 expandDEPReceipt *)
Definition expandDEPReceipt (rec : bytes) : result str :=
  catch (utf8_decode rec)
    (fun e => match e with PyUnicodeDecodeError => true | _ => false end) MalformedDEPElement.
