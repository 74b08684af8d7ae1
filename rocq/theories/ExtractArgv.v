(** The command line of cert_extract.py, from sys.argv to the files of the directory. *)
From Verif Require Import PyBase World Json KeyStoreCli.
Open Scope N_scope.

(** How the program ends: with the usage message and status 0; otherwise with the directory it
    entered, if any, and its files afterwards, and with an exception and status 1, or with status 0. *)
Inductive x_end : Type :=
| X_usage
| X_end (raised : bool) (dir : option (str * list (str * str))).

(** cert_extract.py:38-60. [args] is sys.argv without the name of the program, [doc] what is read from
    standard input. [enter] gives the files of a directory once it exists, or an error if it
    cannot be made or entered. Writing files does not fail here. *)
Definition extract_program (w : world) (chunksize : nat) (enter : str -> result (list (str * str))) (doc : json) (args : list str) : x_end :=
  match args with
  | [out] =>
      match enter out with
      | Err _ => X_end true None
      | Ok dir => let (dir', e) := cert_extract w chunksize doc dir in X_end (match e with Some _ => true | None => false end) (Some (out, dir'))
      end
  | _ => X_usage
  end.
