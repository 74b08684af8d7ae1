(** What is said about initialisation vectors and about verification without key. *)
From Verif Require Import PyBase World Codec Receipt State SpecReceipt SpecDep SpecCluster SpecCounter.
Open Scope N_scope.

(** Two different messages whose hash values have the same first half *)
Definition half_collision (w : world) : Prop :=
  exists x y, x <> y /\ firstn 16 (w_sha256 w x) = firstn 16 (w_sha256 w y).

(** A register with another value of the turnover counter *)
Definition with_counter (r : regstate) (z : Z) : regstate :=
  RegState (s_start r) (s_last r) z (s_restore r) (s_chain r).
