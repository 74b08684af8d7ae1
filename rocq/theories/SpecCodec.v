(** The encodings as their standards define them, bit by bit. *)
From Verif Require Import PyBase World.
Open Scope N_scope.

(** The [n] low order bits, most significant first *)
Fixpoint bits (n : nat) (v : N) : list bool :=
  match n with
  | O => []
  | S n' => bits n' (v / 2) ++ [N.odd v]
  end.

(** RFC 4648: the bits of the octets, filled up with zeros, are taken [k] at a time;
    each group selects a character of the alphabet. Pad characters follow until the
    length is a multiple of [q]. *)
Definition rfc4648 (k q : nat) (alphabet : str) (octets : bytes) (text : str) : Prop :=
  exists digits fill pads,
    text = map (fun d => nth (N.to_nat d) alphabet 0) digits ++ repeat c_eq pads
    /\ Forall (fun d => d < 2 ^ N.of_nat k) digits
    /\ flat_map (bits k) digits = flat_map (bits 8) octets ++ repeat false fill /\ (fill < k)%nat
    /\ Nat.modulo (List.length text) q = 0%nat /\ (pads < q)%nat.

Definition alphabet64 : str := lit "ABCDEFGHIJKLMNOPQRSTUVWXYZabcdefghijklmnopqrstuvwxyz0123456789+/".
Definition alphabet64url : str := lit "ABCDEFGHIJKLMNOPQRSTUVWXYZabcdefghijklmnopqrstuvwxyz0123456789-_".
Definition alphabet32 : str := lit "ABCDEFGHIJKLMNOPQRSTUVWXYZ234567".

(** RFC 3629: the octets for a code point. Surrogates have none. *)
Definition utf8_octets (c : N) (b : bytes) : Prop :=
  let i := true in let o := false in
  is_bytes b /\
  ((c < 128 /\ b = [c])
   \/ (128 <= c < 2048 /\ exists x y, bits 11 c = x ++ y /\ List.length y = 6%nat
         /\ map (bits 8) b = [[i; i; o] ++ x; [i; o] ++ y])
   \/ (2048 <= c < 65536 /\ ~ (55296 <= c < 57344) /\ exists x y z, bits 16 c = x ++ y ++ z
         /\ List.length y = 6%nat /\ List.length z = 6%nat
         /\ map (bits 8) b = [[i; i; i; o] ++ x; [i; o] ++ y; [i; o] ++ z])
   \/ (65536 <= c < 1114112 /\ exists x y z u, bits 21 c = x ++ y ++ z ++ u
         /\ List.length y = 6%nat /\ List.length z = 6%nat /\ List.length u = 6%nat
         /\ map (bits 8) b = [[i; i; i; i; o] ++ x; [i; o] ++ y; [i; o] ++ z; [i; o] ++ u])).
