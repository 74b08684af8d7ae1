(** Encrypted turnover counters, octet by octet. *)
From Verif Require Import PyBase World Codec Algo Receipt SpecDep.
Open Scope N_scope.

(** Octets as a number, most significant octet first *)
Fixpoint octets_value (b : bytes) : N :=
  match b with
  | [] => 0
  | x :: r => x * 256 ^ N.of_nat (List.length r) + octets_value r
  end.

(** Two's complement: a number whose first bit is set stands for a negative one. *)
Definition stands_for (b : bytes) (z : Z) : Prop :=
  let v := Z.of_N (octets_value b) in
  let m := (256 ^ Z.of_nat (List.length b))%Z in
  (2 * v < m /\ z = v)%Z \/ (2 * v >= m /\ z = v - m)%Z.

(** The [n]-th block that is encrypted: 128 bits with the number that follows the
    initialisation vector after [n] steps *)
Definition counter_block (iv : bytes) (n : N) (block : bytes) : Prop :=
  List.length block = 16%nat /\ is_bytes block
  /\ octets_value block = (octets_value iv + n) mod 2 ^ 128.

(** Counter mode: each octet is combined with the one in the same position of the
    encrypted blocks. *)
Definition counter_mode (w : world) (key iv data out : bytes) : Prop :=
  List.length out = List.length data
  /\ forall i x block, nth_error data i = Some x -> counter_block iv (N.of_nat (i / 16)) block ->
     nth_error out i = Some (N.lxor x (nth (i mod 16) (w_aes w key block) 0)).

(** The initialisation vector: the first half of the hash value of register ID and
    receipt ID *)
Definition initial_vector (w : world) (registerId receiptId : str) (iv : bytes) : Prop :=
  exists a b h, utf8_encode registerId = Ok a /\ utf8_encode receiptId = Ok b
    /\ w_sha256 w (a ++ b) = iv ++ h /\ List.length iv = 16%nat.

(** The turnover counter in a receipt *)
Definition shows_counter (w : world) (key : bytes) (r : receipt) (z : Z) : Prop :=
  standard r /\ List.length key = 32%nat
  /\ exists ct iv plain, b64decode (r_encTC r) = Ok ct
     /\ initial_vector w (r_registerId r) (r_receiptId r) iv
     /\ counter_mode w key iv ct plain /\ stands_for plain z.
