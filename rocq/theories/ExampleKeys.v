(** Concrete keys, stores, URLs and forms of receipts for the examples. *)
From Verif Require Import PyBase World Regex Codec Algo Receipt SpecReceipt DepBase Json Pem KeyStore VerifyReceipt
  ReceiptFacts SpecKeys SpecStore SpecUrl Url FormFacts ExampleWorld ExampleReceipts ExampleDep.
Open Scope N_scope.
Open Scope py_scope.

(** ** Two certificates: the decimal notation of one serial number is the
    hexadecimal notation of the other. *)
Definition ex_cert16 : cert := [16; 7; 7].
Definition ex_cert22 : cert := [22; 9; 9].
Definition ex_pem (c : cert) : str := pem_text cert_label [b64encode c] [].
Definition ex_ops : list store_op :=
  [SPEMCert (ex_pem ex_cert16); SPEMKey (lit "U:ATU12345678-K1") (pem_text key_label [b64encode [8]] [])].
Definition ex_ops2 : list store_op := ex_ops ++ [SPEMCert (ex_pem ex_cert22)].

Definition ex_serial (s : str) : fields :=
  Fields (lit "AT1") (lit "REG-1") (lit "9") (lit "2017-01-01T08:00:00") (lit "1,00") (lit "0,00") (lit "0,00") (lit "0,00")
    (lit "0,00") (lit "VFJB") s (lit "CAkKCwwNDg8=").
Definition ex_dec_jws : str := Eval vm_compute in ex_signed (ex_serial (lit "16")).
Definition ex_hex_jws : str := Eval vm_compute in ex_signed (ex_serial (lit "-10")).
Definition ex_dec_rec : receipt := Eval vm_compute in rec_of (fromJWSString toy_world ex_dec_jws).
Definition ex_hex_rec : receipt := Eval vm_compute in rec_of (fromJWSString toy_world ex_hex_jws).

Lemma ex_dec_read : fromJWSString toy_world ex_dec_jws = Ok (ex_dec_rec, lit "R1").
Proof. vm_compute. reflexivity. Qed.
Lemma ex_hex_read : fromJWSString toy_world ex_hex_jws = Ok (ex_hex_rec, lit "R1").
Proof. vm_compute. reflexivity. Qed.

Lemma digit_lit base c v : ((48 <= c <= 57 /\ c = v + 48) \/ (97 <= c <= 102 /\ c = v + 87) \/ (65 <= c <= 70 /\ c = v + 55))
  -> v < base -> numeral_digit base c v.
Proof. intros A B. exact (conj A B). Qed.

Lemma two_digits base x y v v' : numeral_digit base x v -> numeral_digit base y v' -> numeral base [x; y] (v * base + v').
Proof. intros A B. exact (numeral_more base [x] v y v' (numeral_one base x v A) B). Qed.

Lemma ex_16 : serial_notation 10 (lit "16") 16.
Proof.
  exists (lit "16"). split; [|now left].
  apply (two_digits 10 49 54 1 6); apply digit_lit; (left; split; [split; discriminate|reflexivity]) || reflexivity.
Qed.
Lemma ex_16_hex : serial_notation 16 (lit "16") 22.
Proof.
  exists (lit "16"). split; [|now left].
  apply (two_digits 16 49 54 1 6); apply digit_lit; (left; split; [split; discriminate|reflexivity]) || reflexivity.
Qed.
Lemma ex_10 : serial_notation 16 (lit "-10") 16.
Proof.
  exists (lit "10"). split; [|now right].
  apply (two_digits 16 49 48 1 0); apply digit_lit; (left; split; [split; discriminate|reflexivity]) || reflexivity.
Qed.

(** ** Other encodings of the same octets: unused bits of the last character set *)
Definition relast (s : str) (c : N) : str := removelast s ++ [c].
Definition ex_t2_other : str := Eval vm_compute in relast ex_t2 (last ex_t2 0 + 1).

Definition ex_marker_rec : fields :=
  Fields (lit "AT1") (lit "REG-1") (lit "3") (lit "2017-01-01T08:00:01") (lit "0,50") (lit "0,00") (lit "0,00") (lit "0,00")
    (lit "0,00") (lit "VFJB") (lit "5a") (lit "CAkKCwwNDg8=").
Definition ex_marker_jws : str := Eval vm_compute in
  relast (ex_unsigned ex_marker_rec) (last (ex_unsigned ex_marker_rec) 0 + 1).
Definition ex_marker_read : receipt := Eval vm_compute in rec_of (fromJWSString toy_world ex_marker_jws).
Definition ex_marker_qr : str := Eval vm_compute in text_of (toBasicCode ex_marker_read (lit "R1")).

(** Segments of a JWS text and what they decode to. *)
Definition part (s : str) (n : nat) : str := nth n (split_char c_dot s) [].
Definition decoded (s : str) : bytes :=
  match urlsafe_b64decode (restoreb64padding s) with Ok b => b | Err _ => [] end.

(** ** URLs *)
Definition ex_hash : str := Eval vm_compute in text_of (toURLHash toy_world ex_t2_receipt (lit "R1")).
Definition ex_code : str := Eval vm_compute in text_of (toBasicCode ex_t2_receipt (lit "R1")).
