(** Property C09, octet by octet. *)
From Verif Require Import PyBase World Codec Algo Receipt SpecDep SpecCounter CounterFacts ExampleWorld ExampleReceipts ExampleDep ExampleCounter.
Open Scope N_scope.

(** The encryption of a counter is the one RKSV prescribes: two's complement, big
    endian, AES in counter mode with the first half of the hash value of register ID
    and receipt ID as initial counter block. *)
Theorem C09_encryption : forall w registerId receiptId counter key size ct, hash_ok w -> aes_ok w ->
  r1_encrypt w registerId receiptId counter key size = Ok ct <->
  exists iv plain, initial_vector w registerId receiptId iv
    /\ List.length plain = size /\ is_bytes plain /\ stands_for plain counter
    /\ counter_mode w key iv plain ct.
Proof. exact encrypt_spec. Qed.
Print Assumptions C09_encryption.

(** The counter of a receipt can be decrypted exactly if the receipt is a standard
    one and the key has 32 octets. *)
Theorem C09_receipt : forall w s r key, hash_ok w -> aes_ok w -> reads w s r ->
  (standard r -> List.length key = 32%nat -> exists z, shows_counter w key r z)
  /\ (forall z, decryptTC w r key = Ok z <-> shows_counter w key r z)
  /\ (~ standard r -> decryptTC w r key = Err PyException)
  /\ (standard r -> List.length key <> 32%nat -> decryptTC w r key = Err InvalidKey).
Proof. exact decryptTC_total. Qed.
Print Assumptions C09_receipt.

Theorem C09_determined : forall w s r key z z', hash_ok w -> aes_ok w -> reads w s r ->
  shows_counter w key r z -> shows_counter w key r z' -> z = z'.
Proof. exact shows_counter_unique. Qed.
Print Assumptions C09_determined.

(** Counters that need several blocks, and a receipt *)
Example C09_blocks : exists b, r1_encrypt toy_world (lit "REG") (lit "17") (-5)%Z ex_key 40 = Ok b /\ List.length b = 40%nat.
Proof. exact ex_blocks. Qed.
Example C09_receipt_case : exists s r, reads toy_world s r /\ shows_counter toy_world ex_key r 350%Z.
Proof. exact ex_shows. Qed.
