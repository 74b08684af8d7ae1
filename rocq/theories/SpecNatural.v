(** Natural order of receipt IDs and the order of points in time. *)
From Verif Require Import PyBase World PyTime.
Open Scope N_scope.

(** The first difference decides; a proper prefix comes first. *)
Definition first_difference {A} (before : A -> A -> Prop) (a b : list A) : Prop :=
  exists p, (a = p /\ exists y r, b = p ++ y :: r)
    \/ exists x y r r', a = p ++ x :: r /\ b = p ++ y :: r' /\ before x y.

(** ** IDs: a text, and numbers each followed by a text. Only the first and the last
    of these texts may be empty. *)
Definition ascii_digit (c : N) : Prop := 48 <= c <= 57.
Definition no_digits (t : str) : Prop := Forall (fun c => ~ ascii_digit c) t.
Definition pieces (id t0 : str) (rest : list (str * str)) : Prop :=
  id = t0 ++ flat_map (fun nt => fst nt ++ snd nt) rest
  /\ no_digits t0
  /\ Forall (fun nt => fst nt <> [] /\ Forall ascii_digit (fst nt) /\ no_digits (snd nt)) rest
  /\ (forall l nt nt' l', rest = l ++ nt :: nt' :: l' -> snd nt <> []).

Definition number (n : str) : N := fold_left (fun v c => 10 * v + (c - 48)) n 0.

Inductive value := VText (t : str) | VNumber (n : N).
(** Texts are compared in lower case. *)
Definition values (w : world) (t0 : str) (rest : list (str * str)) : list value :=
  VText (lower w t0) :: flat_map (fun nt => [VNumber (number (fst nt)); VText (lower w (snd nt))]) rest.
Definition value_before (x y : value) : Prop :=
  match x, y with
  | VNumber a, VNumber b => a < b
  | VText a, VText b => first_difference N.lt a b
  | _, _ => False
  end.

(** No text consists of digits of other scripts only. *)
Definition plain_texts (w : world) (t0 : str) (rest : list (str * str)) : Prop :=
  Forall (fun t => isdigit w t = false) (t0 :: map snd rest).

(** ** Time *)
Definition earlier (a b : dt) : Prop :=
  dt_year a < dt_year b \/ (dt_year a = dt_year b /\
  (dt_month a < dt_month b \/ (dt_month a = dt_month b /\
  (dt_day a < dt_day b \/ (dt_day a = dt_day b /\
  (dt_hour a < dt_hour b \/ (dt_hour a = dt_hour b /\
  (dt_min a < dt_min b \/ (dt_min a = dt_min b /\ dt_sec a < dt_sec b))))))))).
