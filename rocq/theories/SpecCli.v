(** What is said about the command line of verify.py. *)
From Verif Require Import PyBase World Codec Json KeyStore State DepBase DepParser Verify Cli SpecDep SpecCluster SpecState SpecChunks SpecDoc.
Open Scope N_scope.

Definition legal_args (a : verify_args) : Prop := (1 <= va_par a)%nat.

(** The same verification task: the options par and chunksize may differ. *)
Definition same_task (a a' : verify_args) : Prop := va_state a = va_state a' /\ va_register a = va_register a'.

(** The state verification starts from *)
Definition starts_from (b : backend) (a : verify_args) (stdin : json) (c : cluster) : Prop :=
  (va_state a = true -> cluster_of_json (load stdin) = Ok c) /\ (va_state a = false -> c = new_cluster b).

(** The register that is chosen: a new one, the one with that number, or the last one. *)
Inductive chosen (a : verify_args) (c : cluster) : option Z -> Prop :=
| chosen_new : va_register a = A_none \/ va_register a = A_continue /\ va_state a = false -> chosen a c None
| chosen_index i : va_register a = A_index i -> chosen a c (Some i)
| chosen_last before reg : va_register a = A_continue -> va_state a = true -> c_regs c = before ++ [reg] ->
    chosen a c (Some (Z.of_nat (List.length before))).

(** A DEP whose contents do not depend on how it is read: no element occurs twice,
    no names contain dots, and certificates are given for all groups or there is
    only one. *)
Definition regular_file (w : world) (dep : json) : Prop :=
  plain_names dep /\ exists gs, dep_doc w dep gs /\ certs_or_one gs.

(** States as they are written by verify.py *)
Inductive state_written (w : world) : json -> Prop :=
| written_new b : state_written w (verify_py_new b)
| written_by b pick a store stdin dep s : va_state a = true -> legal_args a -> regular_file w dep -> state_written w stdin ->
    verify_py w b pick a store stdin dep = Ok (Some s) -> state_written w s.

(** States that stand for usual clusters *)
Definition usual_state (s : json) : Prop := forall c, cluster_of_json (load s) = Ok c -> usual_cluster c.

(** The argument for verifying the next part of the same register: a number stays,
    otherwise the last register is continued. *)
Definition next_part (r : register_arg) : register_arg :=
  match r with A_index i => A_index i | _ => A_continue end.

(** Calls one after the other with the state passed on. For every file the number of
    processes and the chunk size are given. *)
Fixpoint verified_in_turn (w : world) (b : backend) (pick : list exn -> nat) (store : json) (r : register_arg)
    (runs : list (nat * nat * json)) (s s' : json) : Prop :=
  match runs with
  | [] => s' = s
  | (par, size, file) :: rest => exists s1,
      verify_py w b pick (VerifyArgs true r par size) store s file = Ok (Some s1)
      /\ verified_in_turn w b pick store (next_part r) rest s1 s'
  end.
