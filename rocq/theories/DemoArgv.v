(** The command line of demo.py, from sys.argv to what is printed. *)
From Verif Require Import PyBase World Codec Json DepExport CashReg Demo Remote StateArgv.
Open Scope N_scope.
Open Scope py_scope.

(** How the program ends: with the usage message or the one about the number of receipts and status 0, with an
    exception and status 1, or with a DEP and status 0. *)
Inductive d_end : Type :=
| D_usage
| D_number
| D_raised
| D_printed (dep : json).

(** What the signature service replies: to the questions for its certificate and its provider, and to the receipts. *)
Record network : Type := Network { n_certificate : reply; n_zda : reply; n_post : nat -> str -> reply }.

(** demo.py:101-107: the key file is read after the number was looked at. [run] is what is done with its text;
    for numbers below one this is nothing, with any text. *)
Definition with_key_file (t : result str) (run : str -> result (option json)) : result (option json) :=
  match t with
  | Ok s => run (universal_newlines s)
  | Err e => do o <- run []; match o with None => Ok None | Some _ => Err e end
  end.

(** demo.py:64-116. [args] is sys.argv without the name of the program. Exceptions are not told apart. *)
Definition demo_program (w : world) (net : network) (fs : files) (draws : nat -> draw) (args : list str) : d_end :=
  let outcome (r : result (option json)) := match r with Err _ => D_raised | Ok None => D_number | Ok (Some dep) => D_printed dep end in
  match args with
  | [keyf; num] => outcome (with_key_file (f_text fs keyf) (fun k => demo_remote w (n_certificate net) (n_zda net) (n_post net) k num draws))
  | [priv; cert; keyf; num] =>
      outcome (do p <- f_text fs priv;
               do c <- f_text fs cert;
               with_key_file (f_text fs keyf) (fun k => demo w (DemoArgs (DemoOpen (universal_newlines p) (universal_newlines c)) k num) draws))
  | [priv; _; keyId; keyf; num] =>
      outcome (do p <- f_text fs priv;
               with_key_file (f_text fs keyf) (fun k => demo w (DemoArgs (DemoClosed (universal_newlines p) keyId) k num) draws))
  | _ => D_usage
  end.
