(** The grammar of JSON texts (RFC 8259, with Python's NaN and Infinity). *)
From Coq Require Import Floats.SpecFloat.
From Verif Require Import PyBase PyFloat Json SpecKeys.
Open Scope N_scope.

Definition blank (s : str) : Prop := Forall (fun c => c = 32 \/ c = 9 \/ c = 10 \/ c = 13) s.

(** Strings *)
Definition hex_text (h : str) (u : N) : Prop := List.length h = 4%nat /\ numeral 16 h u.
Definition is_high (u : N) : Prop := 0xD800 <= u <= 0xDBFF.
Definition is_low (u : N) : Prop := 0xDC00 <= u <= 0xDFFF.
(** Another escape for the second half of a pair *)
Definition second_half (t : str) : Prop := exists h u r, t = lit "\u" ++ h ++ r /\ hex_text h u /\ is_low u.
Definition escapes : list (N * N) :=
  [(34, 34); (92, 92); (47, 47); (98, 8); (102, 12); (110, 10); (114, 13); (116, 9)].

Inductive chars : str -> str -> Prop :=
| chars_nil : chars [] []
| chars_plain c s t : 32 <= c -> c <> 34 -> c <> 92 -> chars s t -> chars (c :: s) (c :: t)
| chars_escape e c s t : In (e, c) escapes -> chars s t -> chars (c :: s) (92 :: e :: t)
| chars_code h u s t : hex_text h u -> ~ (is_high u /\ second_half t) -> chars s t -> chars (u :: s) (lit "\u" ++ h ++ t)
| chars_pair h u g v s t : hex_text h u -> is_high u -> hex_text g v -> is_low v -> chars s t ->
    chars (0x10000 + (u - 0xD800) * 0x400 + (v - 0xDC00) :: s) (lit "\u" ++ h ++ lit "\u" ++ g ++ t).
Definition quoted (s t : str) : Prop := exists b, t = [34] ++ b ++ [34] /\ chars s b.

(** Numbers *)
Definition sign (neg : bool) : str := if neg then [45] else [].
Definition integer_digits (ds : str) : Prop := ds = [48] \/ exists c r, ds = c :: r /\ c <> 48.
Definition fraction (fs t : str) : Prop := (fs = [] /\ t = []) \/ ((exists n, numeral 10 fs n) /\ t = 46 :: fs).
Definition exponent (x : Z) (t : str) : Prop :=
  (x = 0%Z /\ t = []) \/
  exists e p ds n, (e = 101 \/ e = 69) /\ t = e :: p ++ ds /\ numeral 10 ds n
    /\ ((p = [] /\ x = Z.of_N n) \/ (p = [43] /\ x = Z.of_N n) \/ (p = [45] /\ x = (- Z.of_N n)%Z)).
(** The nearest floating point number to (-1)^neg * m * 10^e *)
Definition decimal (neg : bool) (m : N) (e : Z) (x : float) : Prop :=
  (m = 0 /\ x = S754_zero neg)
  \/ exists num den, x = float_of_ratio neg num den
      /\ Zpos num = (Z.of_N m * 10 ^ Z.max e 0)%Z /\ Zpos den = (10 ^ Z.max (- e) 0)%Z.
Definition float_number (x : float) (t : str) : Prop :=
  exists neg ds fs ft e et m, integer_digits ds /\ (exists n, numeral 10 ds n) /\ fraction fs ft /\ exponent e et
    /\ (ft <> [] \/ et <> []) /\ t = sign neg ++ ds ++ ft ++ et
    /\ numeral 10 (ds ++ fs) m /\ decimal neg m (e - Z.of_nat (List.length fs)) x.

Inductive text : json -> str -> Prop :=
| text_null : text JNull (lit "null")
| text_true : text (JBool true) (lit "true")
| text_false : text (JBool false) (lit "false")
| text_nan : text (JFloat S754_nan) (lit "NaN")
| text_inf : text (JFloat (S754_infinity false)) (lit "Infinity")
| text_neg_inf : text (JFloat (S754_infinity true)) (lit "-Infinity")
| text_int (neg : bool) ds n : integer_digits ds -> numeral 10 ds n ->
    text (JInt (if neg then - Z.of_N n else Z.of_N n)%Z) (sign neg ++ ds)
| text_float x t : float_number x t -> text (JFloat x) t
| text_string s t : quoted s t -> text (JStr s) t
| text_list_nil b : blank b -> text (JList []) ([91] ++ b ++ [93])
| text_list l t : items l t -> text (JList l) ([91] ++ t ++ [93])
| text_dict_nil b : blank b -> text (JDict []) ([123] ++ b ++ [125])
| text_dict l t : members l t -> text (JDict l) ([123] ++ t ++ [125])
with items : list json -> str -> Prop :=
| items_one v a t b : blank a -> text v t -> blank b -> items [v] (a ++ t ++ b)
| items_more v a t b l r : blank a -> text v t -> blank b -> items l r -> items (v :: l) ((a ++ t ++ b) ++ [44] ++ r)
with members : list (str * json) -> str -> Prop :=
| members_one k v m : member_text k v m -> members [(k, v)] m
| members_more k v m l r : member_text k v m -> members l r -> members ((k, v) :: l) (m ++ [44] ++ r)
with member_text : str -> json -> str -> Prop :=
| member_of k v a q b c t d : blank a -> quoted k q -> blank b -> blank c -> text v t -> blank d ->
    member_text k v (a ++ q ++ b ++ [58] ++ c ++ t ++ d).

Definition document (v : json) (t : str) : Prop := exists a b c, t = a ++ b ++ c /\ blank a /\ text v b /\ blank c.

(** A text in which no halves of pairs are neighbours, as there are none in texts
    without lone surrogates *)
Definition no_pairs (s : str) : Prop :=
  Forall (fun c => c < 0x110000) s /\ forall a u v b, s = a ++ u :: v :: b -> ~ (is_high u /\ is_low v).

Definition finite_float (x : float) : Prop := x <> S754_nan /\ forall b, x <> S754_infinity b.

(** What can be written: the texts in it have no such neighbours, and finite
    numbers are printed so that they can be read. *)
Inductive writable (fr : float -> str) : json -> Prop :=
| writable_null : writable fr JNull
| writable_bool b : writable fr (JBool b)
| writable_int z : writable fr (JInt z)
| writable_float x : (finite_float x -> float_number x (fr x)) -> writable fr (JFloat x)
| writable_str s : no_pairs s -> writable fr (JStr s)
| writable_list l : Forall (writable fr) l -> writable fr (JList l)
| writable_dict d : Forall (fun kv => no_pairs (fst kv) /\ writable fr (snd kv)) d -> writable fr (JDict d).

(** Texts and names of members *)
Inductive occurs : json -> str -> Prop :=
| occurs_self s : occurs (JStr s) s
| occurs_list l x s : In x l -> occurs x s -> occurs (JList l) s
| occurs_name d k x : In (k, x) d -> occurs (JDict d) k
| occurs_dict d k x s : In (k, x) d -> occurs x s -> occurs (JDict d) s.
(** No fractions *)
Inductive no_floats : json -> Prop :=
| nf_null : no_floats JNull
| nf_bool b : no_floats (JBool b)
| nf_int z : no_floats (JInt z)
| nf_str s : no_floats (JStr s)
| nf_list l : Forall no_floats l -> no_floats (JList l)
| nf_dict d : Forall (fun kv => no_floats (snd kv)) d -> no_floats (JDict d).
