(** The files of run_test.py and how they are verified. *)
From Verif Require Import PyBase World Codec Json KeyStore State VerifyReceipt DepExport Cli RunTest TestSetup.
Open Scope N_scope.

(** A command: the kind of system, the file with the specification, pairs of files with
    private keys and certificates or public keys, and the size of counters *)
Definition command (w : world) (spec : str -> result tspec) (read : str -> result str) (args : list str)
    (closed : bool) (sp : tspec) (mats : list (str * str)) (size : option nat) : Prop :=
  exists file pairs tail,
    args = (if closed then lit "closed" else lit "open") :: file :: List.concat (map (fun f : str * str => [fst f; snd f]) pairs) ++ tail
    /\ spec file = Ok sp /\ ts_number sp = Z.of_nat (List.length pairs) /\ pairs <> []
    /\ Forall2 (fun f mat => read (fst f) = Ok (snd mat) /\ read (snd f) = Ok (fst mat)) pairs mats
    /\ match size with
       | None => tail = []
       | Some n => exists t, tail = [t] /\ py_int w 10 t = Some (Z.of_nat n) /\ (5 <= n <= 16)%nat
       end.

(** The register of DEP number [k]: that of the previous DEP if it is continued,
    otherwise a new one *)
Definition continued (dep : json) : Prop := exists d, dep = JDict d /\ dict_get d (lit "Fortgesetztes-DEP") = Some (JBool true).
Inductive register_of (deps : list json) : nat -> nat -> Prop :=
| ro_new k dep l : nth_error deps k = Some dep -> ~ continued dep ->
    (* the new registers before *)
    NoDup l -> (forall j, In j l <-> (j < k)%nat /\ exists d, nth_error deps j = Some d /\ ~ continued d) ->
    register_of deps k (List.length l)
| ro_continued k d j r : nth_error deps k = Some (JDict d) -> continued (JDict d) ->
    dict_get d (lit "Vorheriges-DEP") = Some (JInt (Z.of_nat j)) -> (j < k)%nat -> register_of deps j r -> register_of deps k r.

(** Calls of verify.py with the state passed on: for each DEP the register, the number
    of processes and the chunk size *)
Fixpoint verified_each (w : world) (b : backend) (pick : list exn -> nat) (store : json) (runs : list (nat * nat * nat * json)) (s s' : json) : Prop :=
  match runs with
  | [] => s' = s
  | (r, par, size, file) :: rest => exists s1,
      verify_py w b pick (VerifyArgs true (A_index (Z.of_nat r)) par size) store s file = Ok (Some s1)
      /\ verified_each w b pick store rest s1 s'
  end.

(** Calls for the given DEPs: each with the register of the DEP, any number of
    processes and any chunk size *)
Definition calls_for (deps : list json) (runs : list (nat * nat * nat * json)) : Prop :=
  map snd runs = deps
  /\ forall k r par size file, nth_error runs k = Some (r, par, size, file) -> register_of deps k r /\ (1 <= par)%nat.
