(** The command line of verify.py, from sys.argv to the exit status. *)
From Verif Require Import PyBase World Codec Json KeyStore State Cli.
Open Scope N_scope.
Open Scope py_scope.

(** What the arguments ask for: the usage message, a new state, an exception, or
    verification with the names of the key store and the DEP *)
Inductive v_call : Type :=
| V_usage
| V_new
| V_raised (e : exn)
| V_run (a : verify_args) (store dep : str).

(** librksv/utils.py:72-79 depParserChunkSize. [env] is RKSV_DEP_CHUNKSIZE, if set. *)
Definition depParserChunkSize (w : world) (env : option str) : result Z :=
  match env with
  | None => Ok 100000%Z
  | Some s => match py_int w 10 s with Some z => Ok z | None => Err PyValueError end
  end.

(** verify.py:76-83 and 91-97: an option with a number. [k] goes on with the number and
    the remaining arguments. *)
Definition number_option (w : world) (name : str) (default : Z) (args : list str) (k : Z -> list str -> v_call) : v_call :=
  match args with
  | [] => V_raised PyIndexError
  | a :: r =>
      if str_eqb a name then
        match r with
        | [] => V_raised PyIndexError
        | x :: r => match py_int w 10 x with Some z => k z r | None => V_usage end
        end
      else k default args
  end.

(** [len(sys.argv) < lo + 1 or len(sys.argv) > hi + 1] *)
Definition outside (lo hi : nat) (args : list str) : bool := (List.length args <? lo)%nat || (hi <? List.length args)%nat.

(** verify.py:102-110 *)
Definition verify_files (a : verify_args) (args : list str) : v_call :=
  match args with
  | [] => V_raised PyIndexError
  | x :: r => match (if str_eqb x (lit "json") then r else args) with [store; dep] => V_run a store dep | _ => V_usage end
  end.

(** verify.py:43-110. [args] is sys.argv without the name of the program. *)
Definition verify_argv (w : world) (env : option str) (args : list str) : v_call :=
  if outside 1 9 args then V_usage else
  let (state, args) := match args with a :: r => if str_eqb a (lit "state") then (true, r) else (false, args) | [] => (false, args) end in
  match args with
  | [] => if state then V_new else V_raised PyIndexError
  | a :: r =>
      let (register, args) :=
        if str_eqb a (lit "continue") then (A_continue, r) else match py_int w 10 a with Some i => (A_index i, r) | None => (A_none, args) end in
      if outside 2 7 args then V_usage else
      number_option w (lit "par") 1 args (fun par args =>
        if (par <? 1)%Z then V_usage else
        if outside 2 5 args then V_usage else
        match depParserChunkSize w env with
        | Err e => V_raised e
        | Ok default =>
            number_option w (lit "chunksize") default args (fun size args =>
              if (size <? 0)%Z then V_usage else
              if outside 2 3 args then V_usage else
              verify_files (VerifyArgs state register (Z.to_nat par) (Z.to_nat size)) args)
        end)
  end.

(** How the program ends: what is written to standard output, whether it reports
    success, and the status. Exceptions are not told apart. *)
Record v_end : Type := VEnd { ve_out : option json; ve_success : bool; ve_status : N }.

(** verify.py:43-154. [read] opens and reads a JSON file, [stdin] is the document on
    standard input, which is read only with the option state. *)
Definition verify_program (w : world) (b : backend) (pick : list exn -> nat) (env : option str) (read : str -> result json)
    (stdin : result json) (args : list str) : v_end :=
  match verify_argv w env args with
  | V_usage => VEnd None false 0
  | V_new => VEnd (Some (verify_py_new b)) false 0
  | V_raised _ => VEnd None false 1
  | V_run a store dep =>
      match (do s <- read store; do i <- (if va_state a then stdin else Ok JNull); do d <- read dep; verify_py w b pick a s i d) with
      | Err _ => VEnd None false 1
      | Ok o => VEnd o true 0
      end
  end.
