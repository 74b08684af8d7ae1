(** Concrete receipts for the examples, in the toy world. *)
From Verif Require Import PyBase World Regex Codec Algo Receipt SpecReceipt ReceiptFacts ExampleWorld.
Open Scope N_scope.
Open Scope py_scope.

(** A closed-system receipt over one euro. *)
Definition ex_fields : fields := Fields (lit "AT0") (lit "REG-1") (lit "Beleg 7") (lit "2016-02-29T12:00:59")
  (lit "1,00") (lit "0,00") (lit "-0,50") (lit "0,00") (lit "0,00")
  (lit "AAECAwQFBgc=") (lit "U:ATU12345678-K1") (lit "CAkKCwwNDg8=").

(** The compact serialisation of fields and signature bytes. *)
Definition ex_jws_of (f : fields) (sg : bytes) : str :=
  match utf8_encode (payload_text f) with
  | Ok p => join [c_dot] [b64url_nopad es256_header; b64url_nopad p; b64url_nopad sg]
  | Err _ => []
  end.
Definition ex_qr_of (f : fields) (sg : bytes) : str := payload_text f ++ [c_us] ++ b64encode sg.

Definition ex_sig : bytes := lit "not a real signature, but 64 octets long, as a real one would be".
Definition ex_jws : str := Eval vm_compute in ex_jws_of ex_fields ex_sig.
Definition ex_qr : str := Eval vm_compute in ex_qr_of ex_fields ex_sig.

(** An open-system receipt with a serial number and Unicode IDs. *)
Definition ex_open : fields := Fields (lit "AT1") [82; 233; 8364] [128512; 59; 49] (lit "2020-12-31T23:59:59")
  (lit "0,00") (lit "0,00") (lit "0,00") (lit "0,00") (lit "0,00")
  (lit "U1RP") (lit "-5a") (lit "CAkKCwwNDg8=").
Definition ex_open_jws : str := Eval vm_compute in ex_jws_of ex_open ex_sig.

(** Results of computations that succeed; the defaults are never used. *)
Definition blank : receipt :=
  Receipt [] [] [] (PyTime.Dt 0 0 0 0 0 0) [] (SpecFloat.S754_nan) [] (SpecFloat.S754_nan) []
    (SpecFloat.S754_nan) [] (SpecFloat.S754_nan) [] (SpecFloat.S754_nan) [] [] [] [] None.
Definition rec_of (m : result (receipt * str)) : receipt :=
  match m with Ok (r, _) => r | Err _ => blank end.
Definition text_of (m : result str) : str := match m with Ok s => s | Err _ => [] end.
Definition exn_of {A} (m : result A) : exn := match m with Ok _ => PyException | Err e => e end.

Definition ex_receipt : receipt := Eval vm_compute in rec_of (fromJWSString toy_world ex_jws).
