(** Properties C08 and C09: encodings and turnover counter encryption. *)
From Verif Require Import PyBase World Regex Codec Algo ListFacts RegexFacts CodecFacts CodecFacts2
  AlgoFacts SpecCodec BitFacts ExampleWorld.
Open Scope N_scope.

(** *** C08 *)

(** UTF-8: decoding inverts encoding and the other way round. *)
Theorem C08_utf8 :
  (forall s b, utf8_encode s = Ok b -> utf8_decode b = Ok s) /\
  (forall b s, utf8_decode b = Ok s -> utf8_encode s = Ok b).
Proof. exact (conj utf8_decode_encode utf8_encode_decode). Qed.
Print Assumptions C08_utf8.

Example C08_utf8_ex : utf8_encode [228; 8364; 128512] = Ok [195; 164; 226; 130; 172; 240; 159; 152; 128].
Proof. vm_compute. reflexivity. Qed.

(** Base 64: both decoders invert the encoders on all byte strings. *)
Theorem C08_b64 :
  forall b, is_bytes b ->
    b64decode (b64encode b) = Ok b /\ urlsafe_b64decode (urlsafe_b64encode b) = Ok b.
Proof. exact (fun b H => conj (b64decode_encode b H) (urlsafe_decode_encode b H)). Qed.
Print Assumptions C08_b64.

Example C08_b64_ex : b64encode (lit "TRA!") = lit "VFJBIQ==" /\ is_bytes (lit "TRA!").
Proof. split; [vm_compute; reflexivity|repeat constructor]. Qed.

(** Re-encoding what was decoded gives the same text exactly if it was
    canonical, and canonical texts are accepted. *)
Theorem C08_b64_canonical :
  (forall s b, b64decode s = Ok b -> (b64encode b = s <-> canon64 s)) /\
  (forall s, canon64 s -> exists b, b64decode s = Ok b).
Proof. exact (conj b64_reencode canon64_decodes). Qed.
Print Assumptions C08_b64_canonical.

Example C08_b64_canonical_ex :
  b64decode (lit "VFJBIR==") = Ok (lit "TRA!") /\ b64decode (lit "AAAA=") = Ok [0; 0; 0].
Proof. split; vm_compute; reflexivity. Qed.

(** Exactly which texts the base 64 decoder accepts. *)
Theorem C08_b64_accepts : forall s, (exists b, b64decode s = Ok b) <-> b64_text s.
Proof. exact b64decode_accepts. Qed.
Print Assumptions C08_b64_accepts.

(** Restoring padding: the identity on padded encodings, the inverse of removing
    it on unpadded ones; the decoded value is the encoded one in both cases. *)
Theorem C08_padding :
  forall b, is_bytes b ->
    restoreb64padding (urlsafe_b64encode b) = urlsafe_b64encode b /\
    restoreb64padding (remove_char c_eq (urlsafe_b64encode b)) = urlsafe_b64encode b /\
    urlsafe_b64decode (restoreb64padding (remove_char c_eq (urlsafe_b64encode b))) = Ok b.
Proof.
  exact (fun b H => conj (restore_padding_padded b) (conj (restore_padding b)
    (eq_trans (f_equal urlsafe_b64decode (restore_padding b)) (urlsafe_decode_encode b H)))).
Qed.
Print Assumptions C08_padding.

(** Base 32: the standard decoder inverts the encoder; librksv's wrapper does so
    on Python 2. *)
Theorem C08_b32 :
  forall b, is_bytes b -> py_b32decode (b32encode b) = Ok b /\ b32decode Py2 (b32encode b) = Ok b.
Proof. exact (fun b H => conj (py_b32decode_encode b H) (b32decode_encode_py2 b H)). Qed.
Print Assumptions C08_b32.

Example C08_b32_ex : b32encode (lit "STO") = lit "KNKE6===".
Proof. vm_compute. reflexivity. Qed.

(** On Python 3 librksv's base 32 decoder does not decode anything. *)
Theorem C08_b32_py3_refuted :
  exists b, is_bytes b /\ b32decode Py3 (b32encode b) <> Ok b.
Proof. exact (ex_intro _ [] (conj (Forall_nil _) (fun H : Err PyAttributeError = Ok [] =>
  match H in _ = y return match y with Ok _ => False | Err _ => True end with eq_refl => I end))). Qed.
Print Assumptions C08_b32_py3_refuted.

(** The encodings are those of the standards, which determine them. *)
Theorem C08_rfc4648 : forall b, is_bytes b ->
  rfc4648 6 4 alphabet64 b (b64encode b)
  /\ rfc4648 6 4 alphabet64url b (urlsafe_b64encode b)
  /\ rfc4648 5 8 alphabet32 b (b32encode b)
  /\ (forall k q al t t', (0 < k)%nat -> (0 < q)%nat -> rfc4648 k q al b t -> rfc4648 k q al b t' -> t = t').
Proof. exact (fun b H => conj (rfc_b64 b H) (conj (rfc_b64url b H) (conj (rfc_b32 b H) (fun k q al => rfc_unique k q al b)))). Qed.
Print Assumptions C08_rfc4648.

Theorem C08_rfc3629 :
  (forall s b, utf8_encode s = Ok b <-> exists pieces, Forall2 utf8_octets s pieces /\ b = concat pieces)
  /\ (forall b s, utf8_decode b = Ok s <-> exists pieces, Forall2 utf8_octets s pieces /\ b = concat pieces)
  /\ (forall c b b', utf8_octets c b -> utf8_octets c b' -> b = b').
Proof. exact (conj utf8_encode_iff (conj utf8_decode_iff utf8_octets_unique)). Qed.
Print Assumptions C08_rfc3629.

(** The euro sign: 0010 000010 101100 *)
Example C08_rfc_ex : is_bytes [255; 239] /\ b64encode [255; 239] = lit "/+8=" /\ utf8_octets 8364 [226; 130; 172].
Proof. split; [repeat constructor|]. split; [reflexivity|]. apply utf8_char_octets. reflexivity. Qed.

(** *** C09 *)

Theorem C09_counter_roundtrip :
  forall w registerId receiptId counter key size ct,
    aes_ok w ->
    r1_encrypt w registerId receiptId counter key size = Ok ct ->
    r1_decrypt w registerId receiptId ct key = Ok counter /\ List.length ct = size /\ is_bytes ct.
Proof. exact decrypt_encrypt. Qed.
Print Assumptions C09_counter_roundtrip.

(** Encryption succeeds exactly for the integers that fit into the given number
    of bytes in two's complement, and raises OverflowError otherwise. *)
Theorem C09_encryption_domain :
  forall w registerId receiptId counter key size a b,
    utf8_encode registerId = Ok a -> utf8_encode receiptId = Ok b ->
    ((- 256 ^ Z.of_nat size <= 2 * counter < 256 ^ Z.of_nat size)%Z ->
       exists ct, r1_encrypt w registerId receiptId counter key size = Ok ct) /\
    (~ (- 256 ^ Z.of_nat size <= 2 * counter < 256 ^ Z.of_nat size)%Z ->
       r1_encrypt w registerId receiptId counter key size = Err PyOverflowError).
Proof. exact encrypt_ok_iff. Qed.
Print Assumptions C09_encryption_domain.

(** Every change of a ciphertext changes the decrypted counter. *)
Theorem C09_decrypt_injective :
  forall w registerId receiptId ct ct' key z,
    aes_ok w -> is_bytes ct -> is_bytes ct' -> List.length ct = List.length ct' ->
    r1_decrypt w registerId receiptId ct key = Ok z ->
    r1_decrypt w registerId receiptId ct' key = Ok z -> ct = ct'.
Proof. exact decrypt_inj. Qed.
Print Assumptions C09_decrypt_injective.

Example C09_ex :
  aes_ok toy_world /\
  exists ct, r1_encrypt toy_world (lit "REG") (lit "17") (-123456)%Z (repeat 5 32) 5 = Ok ct.
Proof. split; [exact toy_aes_ok|eexists; vm_compute; reflexivity]. Qed.
