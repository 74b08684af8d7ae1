(** The command line of run_test.py. *)
From Verif Require Import PyBase World Codec Json KeyStore State RunTest TestSetup.
Open Scope N_scope.
Open Scope py_scope.

(** How the program ends: with files in a directory of its own, with a message, or with
    an exception *)
Inductive test_end : Type :=
| E_wrote (files : list (str * json))
| E_stopped (status : N)
| E_raised (e : exn).

(** run_test.py:85-94 *)
Definition container_name : str := lit "cryptographicMaterialContainer.json".
Fixpoint numbered (i : nat) (deps : list json) : list (str * json) :=
  match deps with
  | [] => []
  | d :: r => (lit "dep-export" ++ fmt_d (Z.of_nat i) ++ lit ".json", d) :: numbered (S i) r
  end.
Definition dep_files (deps : list json) : list (str * json) :=
  match deps with [d] => [(lit "dep-export.json", d)] | _ => numbered 0 deps end.

(** run_test.py:71-79: the private key comes first on the command line, but is read
    last. [read] opens and reads a file. *)
Fixpoint read_material (read : str -> result str) (n : nat) (args : list str) : result (list (str * str)) :=
  match n with
  | O => Ok []
  | S n =>
      match args with
      | a :: b :: r => do pub <- read b; do priv <- read a; do l <- read_material read n r; Ok ((pub, priv) :: l)
      | _ => Err PyIndexError
      end
  end.

(** run_test.py:40-94. [args] is sys.argv without the name of the program, [spec] reads
    a test specification. The file with the specification has all required elements;
    making the directory (60-62) is not modelled. *)
Definition run_test_py (w : world) (m : maker) (spec : str -> result tspec) (read : str -> result str) (args : list str) : test_end :=
  match args with
  | mode :: file :: rest =>
      if (List.length args <? 4)%nat then E_stopped 0 else
      if negb (str_eqb mode (lit "closed")) && negb (str_eqb mode (lit "open")) then E_stopped 0 else
      let closed := str_eqb mode (lit "closed") in
      match spec file with
      | Err e => E_raised e
      | Ok sp =>
          let argc := (1 + Z.of_nat (List.length args))%Z in
          if negb (argc =? ts_number sp * 2 + 3)%Z && negb (argc =? ts_number sp * 2 + 3 + 1)%Z then E_stopped 0 else
          let finish (size : option nat) :=
            match (do mats <- read_material read (Z.to_nat (ts_number sp)) rest; runTest_full w m sp mats closed size) with
            | Err e => E_raised e
            | Ok (deps, ks) => E_wrote ((container_name, ks) :: dep_files deps)
            end in
          if (argc mod 2 =? 1)%Z then finish None else
          match py_int w 10 (last rest []) with
          | None => E_raised PyValueError
          | Some z => if (z <? 5)%Z || (16 <? z)%Z then E_stopped 0 else finish (Some (Z.to_nat z))
          end
      end
  | _ => E_stopped 0
  end.
