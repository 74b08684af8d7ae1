(** The command line of verify.py. The JSON files are given by the documents they
    contain; the DEP is a regular file. *)
From Verif Require Import PyBase World Codec Json KeyStore VerifyReceipt State DepParser Verify.
Open Scope N_scope.
Open Scope py_scope.

(** verify.py:43-111: the arguments after parsing. Numbers below one for par and
    below zero for chunksize end with the usage message. *)
Inductive register_arg := A_none | A_continue | A_index (i : Z).
Record verify_args : Type := VerifyArgs {
  va_state : bool;              (* state *)
  va_register : register_arg;   (* continue, or a number *)
  va_par : nat;                 (* par *)
  va_chunksize : nat            (* chunksize *)
}.

(** verify.py:119-124 *)
Definition read_state (b : backend) (a : verify_args) (stdin : json) : result cluster :=
  if va_state a then cluster_of_json (load stdin) else Ok (new_cluster b).
Definition register_index (a : verify_args) (c : cluster) : option Z :=
  match va_register a with
  | A_none => None
  | A_continue => if va_state a then Some (Z.of_nat (List.length (c_regs c)) - 1)%Z else None
  | A_index i => Some i
  end.

(** verify.py:126-150: the four ways to verify. The pool has as many workers as there
    are processes; [pick] chooses the exception that is reported. *)
Definition verify_mode (w : world) (pick : list exn -> nat) (a : verify_args) (dep : json)
    (ks : keystore) (key : option bytes) (c : cluster) (idx : option Z) : cluster * option exn :=
  if (1 <? va_par a)%nat then
    verifyParsedDEP w (Schedule (Some (va_par a)) (va_par a) pick)
      (if (va_chunksize a =? 0)%nat then parse_dict w (va_par a) (load dep) (va_chunksize a)
       else parse_inc w P_file dep (va_chunksize a)) ks key c idx
  else if (va_chunksize a =? 0)%nat then verifyDEP w (load dep) ks key c idx
  else verifyParsedDEP w (Schedule None (va_par a) pick) (parse_inc w P_file dep (va_chunksize a)) ks key c idx.

(** verify.py:112-154: what is written to standard output, if anything, or the
    exception the program ends with. [b] is the configured backend. *)
Definition verify_py (w : world) (b : backend) (pick : list exn -> nat) (a : verify_args)
    (store stdin dep : json) : result (option json) :=
  do key <- loadKeyFromJson (load store);
  do ks <- readStoreFromJson w (load store);
  do c <- read_state b a stdin;
  match verify_mode w pick a dep ks key c (register_index a c) with
  | (_, Some e) => Err e
  | (c', None) => Ok (if va_state a then Some (cluster_to_json c') else None)
  end.

(** verify.py:56-60: without further arguments the new state is written. *)
Definition verify_py_new (b : backend) : json := cluster_to_json (new_cluster b).
