(** JSON values and Python dictionaries. *)
From Verif Require Import PyBase PyFloat.
Open Scope N_scope.

(** A JSON document. Objects keep the order of their members and may contain a
    key more than once; after [json.load] no key is repeated. *)
Inductive json : Type :=
| JNull
| JBool (b : bool)
| JInt (z : Z)
| JFloat (f : float)
| JStr (s : str)
| JList (l : list json)
| JDict (d : list (str * json)).

(** ** Dictionaries: association lists in insertion order *)

Section Dict.
Context {A : Type}.

(** [d.get(k)] *)
Fixpoint dict_get (d : list (str * A)) (k : str) : option A :=
  match d with
  | [] => None
  | (k', v) :: r => if str_eqb k' k then Some v else dict_get r k
  end.

(** [d[k] = v]: an existing key keeps its place. *)
Fixpoint dict_set (d : list (str * A)) (k : str) (v : A) : list (str * A) :=
  match d with
  | [] => [(k, v)]
  | (k', v') :: r => if str_eqb k' k then (k', v) :: r else (k', v') :: dict_set r k v
  end.

(** [del d[k]] for a key that is present, otherwise nothing. *)
Fixpoint dict_del (d : list (str * A)) (k : str) : list (str * A) :=
  match d with
  | [] => []
  | (k', v') :: r => if str_eqb k' k then r else (k', v') :: dict_del r k
  end.

Definition dict_has (d : list (str * A)) (k : str) : bool :=
  match dict_get d k with Some _ => true | None => false end.

End Dict.

(** What [json.load] makes of a document: the last of several members with the
    same key wins, at the place of the first. *)
Fixpoint load (j : json) : json :=
  match j with
  | JList l => JList (map load l)
  | JDict d => JDict (fold_left (fun acc kv => dict_set acc (fst kv) (snd kv))
                        (map (fun kv => (fst kv, load (snd kv))) d) [])
  | _ => j
  end.
