(** librksv/algorithms.py: the algorithm suite R1. *)
From Verif Require Import PyBase World Regex Codec.
Open Scope N_scope.
Open Scope py_scope.

(** ** Byte strings as numbers *)

(** [int.from_bytes(b, byteorder='big')] *)
Definition be_val (b : bytes) : N := fold_left (fun acc x => acc * 256 + x) b 0.

(** The [n] low order bytes of a number, most significant first. *)
Fixpoint be_bytes (n : nat) (v : N) : bytes :=
  match n with
  | O => []
  | S n' => be_bytes n' (v / 256) ++ [v mod 256]
  end.

Definition pow256 (n : nat) : Z := (256 ^ Z.of_nat n)%Z.

(** [z.to_bytes(size, byteorder='big', signed=True)] *)
Definition to_bytes (z : Z) (size : nat) : result bytes :=
  check ((- pow256 size <=? 2 * z) && (2 * z <? pow256 size))%Z else PyOverflowError;
  Ok (be_bytes size (Z.to_N (z mod pow256 size))).

(** [int.from_bytes(b, byteorder='big', signed=True)] *)
Definition from_bytes (b : bytes) : Z :=
  let v := Z.of_N (be_val b) in
  let m := pow256 (List.length b) in
  if (m <=? 2 * v)%Z then (v - m)%Z else v.

(** ** AES-256 in CTR mode, librksv/utils.py:116-127

    The block function is the world's; the mode is spelled out: the counter
    block is a 128 bit big endian number that is incremented per block, and the
    key stream is xor-ed to the data. *)
Fixpoint xor_bytes (a b : bytes) : bytes :=
  match a, b with
  | x :: a', y :: b' => N.lxor x y :: xor_bytes a' b'
  | _, _ => []
  end.

Definition ctr_inc (iv : bytes) : bytes :=
  be_bytes 16 ((be_val iv + 1) mod 340282366920938463463374607431768211456).

Fixpoint ctr_stream (w : world) (key iv : bytes) (blocks : nat) : bytes :=
  match blocks with
  | O => []
  | S n => w_aes w key iv ++ ctr_stream w key (ctr_inc iv) n
  end.

(** Enough key stream for the data: one block per started 16 bytes. *)
Definition aes256ctr (w : world) (iv key data : bytes) : bytes :=
  xor_bytes data (ctr_stream w key iv (S (List.length data / 16))).

(** ** R1, librksv/algorithms.py:145-219 *)

(** ALGORITHMS, librksv/algorithms.py:221: R1 is the only suite. *)
Definition known_alg (prefix : str) : bool := str_eqb prefix (lit "R1").

(** librksv/algorithms.py:149-150 *)
Definition r1_id : str := lit "R1".

(** The double quote. *)
Definition c_quot : N := 34.

(** librksv/algorithms.py:152-156 jwsHeader, sigAlgo *)
Definition r1_jwsHeader : str :=
  lit "{" ++ [c_quot] ++ lit "alg" ++ [c_quot] ++ lit ":" ++ [c_quot] ++ lit "ES256"
  ++ [c_quot] ++ lit "}".

(** librksv/algorithms.py:158-159 *)
Definition r1_chainBytes : nat := 8.

(** librksv/algorithms.py:161-162 *)
Definition r1_hash (w : world) (data : str) : result bytes :=
  do b <- utf8_encode data; Ok (w_sha256 w b).

(** librksv/algorithms.py:164-170. The previous receipt is an optional text
    of which the empty one counts as missing. *)
Definition r1_chain (w : world) (registerId : str) (previous : option str) : result bytes :=
  do h <- r1_hash w (match truthy previous with Some p => p | None => registerId end);
  Ok (firstn 8 h).

(** The signing input of a JWS. *)
Definition jws_input (header payload : str) : result bytes :=
  do h <- utf8_encode header;
  do p <- utf8_encode payload;
  Ok (b64url_nopad h ++ [c_dot] ++ b64url_nopad p).

(** librksv/algorithms.py:172-186 sign. Returns the signature segment. *)
Definition r1_sign (w : world) (payload : str) (priv : privkey) : result bytes :=
  do i <- jws_input r1_jwsHeader payload;
  Ok (b64url_nopad (w_es256_sign w priv i)).

(** librksv/algorithms.py:199-204 *)
Definition r1_verifyKey (key : bytes) : bool := (List.length key =? 32)%nat.

(** The initialisation vector, librksv/algorithms.py:207-208 and 215-216. *)
Definition r1_iv (w : world) (registerId receiptId : str) : result bytes :=
  do a <- utf8_encode registerId;
  do b <- utf8_encode receiptId;
  Ok (firstn 16 (w_sha256 w (a ++ b))).

(** librksv/algorithms.py:206-212 *)
Definition r1_encrypt (w : world) (registerId receiptId : str) (counter : Z)
    (key : bytes) (size : nat) : result bytes :=
  do iv <- r1_iv w registerId receiptId;
  do pt <- to_bytes counter size;
  Ok (aes256ctr w iv key pt).

(** librksv/algorithms.py:214-219 *)
Definition r1_decrypt (w : world) (registerId receiptId : str) (ct key : bytes) : result Z :=
  do iv <- r1_iv w registerId receiptId;
  Ok (from_bytes (aes256ctr w iv key ct)).

(** librksv/utils.py:84-86 raiseForKey *)
Definition raiseForKey (key : bytes) : result unit :=
  check r1_verifyKey key else InvalidKey;
  Ok tt.
