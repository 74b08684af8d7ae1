(** Specification of the view of a receipt: what is displayed, as texts. *)
From Coq Require Import Floats.SpecFloat.
From Verif Require Import PyBase World Codec PyFloat PyTime Receipt Json SpecKeys SpecReceipt ReceiptFacts SpecDep SpecAmount SpecCounter SpecGui SpecJsonText JsonText Gui View.
Open Scope Z_scope.

(** A number in decimal notation, perhaps with an exponent, as a fraction *)
Definition decimal_text (s : str) (num den : Z) : Prop :=
  exists (neg : bool) ds fs ft e et m, integer_digits ds /\ (exists n, numeral 10 ds n) /\ fraction fs ft /\ exponent e et
    /\ s = sign neg ++ ds ++ ft ++ et /\ numeral 10 (ds ++ fs) m
    /\ let k := e - Z.of_nat (List.length fs) in
       num = (if neg then - Z.of_N m else Z.of_N m) * 10 ^ Z.max k 0 /\ den = 10 ^ Z.max (- k) 0.

(** A text that is rounded to [z] cents: the number of euros is closer to them than
    half a cent. *)
Definition shown_cents (s : str) (z : Z) : Prop :=
  exists num den, decimal_text s num den /\ 2 * Z.abs (100 * num - z * den) < den.

(** Python's [str] of a finite number: any decimal notation of a number to which it is
    the nearest one of 64 bits. *)
Definition prints (fr : float -> str) : Prop :=
  forall x, finite_float x -> valid_binary fprec femax x = true -> float_number x (fr x).

(** The time, for years of four digits *)
Definition shown_time (w : world) (s : str) (d : dt) : Prop := (1000 <= dt_year d)%N -> time_text w s d.

(** The signature, or that there is none *)
Definition shown_signature (r : receipt) (s : str) : Prop :=
  (unsigned r /\ s = lit "Signature system broken") \/ (~ unsigned r /\ r_signature r = Some s).

(** The turnover counter: the kind of the receipt instead, or the encrypted counter,
    or the amount if there is a key *)
Definition shown_counter (w : world) (r : receipt) (key : option bytes) (s : str) : Prop :=
  (training r -> s = lit "TRA") /\ (cancellation r -> s = lit "STO")
  /\ (standard r -> key = None -> s = r_encTC r)
  /\ (forall k z, key = Some k -> shows_counter w k r z -> moderate z -> shown_cents s z).

(** The rows of the view *)
Definition rows_show (w : world) (r : receipt) (key : option bytes) (rows : list str) : Prop :=
  exists time a b c d e counter sig,
    rows = [lit "R1-" ++ r_zda r; r_registerId r; r_receiptId r; time; a; b; c; d; e;
            counter; r_certSerial r; r_previousChain r; sig]
    /\ shown_time w time (r_dateTime r)
    /\ (forall zs, printed_amounts w r zs -> Forall2 (fun s z => moderate z -> shown_cents s z) [a; b; c; d; e] zs)
    /\ shown_counter w r key counter
    /\ shown_signature r sig.

(** A text for a key that can be used *)
Definition key_text (t : str) (k : bytes) : Prop := typed_key t (Some k) /\ List.length k = 32%nat.

(** What is true of the view at any time *)
Definition faithful (w : world) (r : receipt) (st : rview) : Prop :=
  rows_show w r (v_key st) (v_rows st)
  /\ (forall k, v_key st = Some k -> List.length k = 32%nat)
  /\ (v_decrypt st = true <-> standard r /\ v_key st = None)
  /\ (v_button st = B_none <-> unsigned r).

(** The receipt is signed with its key in the key store. *)
Definition signed_in (w : world) (ks : KeyStore.keystore) (r : receipt) : Prop :=
  ~ unsigned r /\ exists k, key_of w (VerifyReceipt.fromKeyStore ks) r k /\ signed_by w k r.

(** The action gives a usable key. *)
Definition gives_key (a : view_action) (k : bytes) : Prop :=
  match a with
  | V_type t | V_load (K_text t) => key_text t k
  | V_load (K_json s) => exists d t, readJsonStream s = Some (JDict d) /\ dict_get d (lit "base64AESKey") = Some (JStr t) /\ key_text t k
  | _ => False
  end.

(** The file says that there is no key. *)
Definition gives_none (f : key_file) : Prop :=
  match f with K_json s => exists d, readJsonStream s = Some (JDict d) /\ dict_get d (lit "base64AESKey") = Some JNull | _ => False end.

(** No file with a JSON text other than an object is chosen. *)
Definition object_file (a : view_action) : Prop :=
  match a with V_load (K_json s) => forall v, readJsonStream s = Some v -> exists d, v = JDict d | _ => True end.
