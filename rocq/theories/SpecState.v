(** Vocabulary for properties of the state of registers and of used receipt IDs. *)
From Coq Require Import Permutation.
From Verif Require Import PyBase World State Verify SpecDep.
Open Scope N_scope.
Open Scope py_scope.

(** A register records either both or none of start and last receipt. Nothing is
    to be chained to the empty text. *)
Definition usual (reg : regstate) : Prop :=
  (absent (s_start reg) <-> absent (s_last reg)) /\ s_chain reg <> Some [].

(** Using IDs one by one: each is checked and then recorded. *)
Fixpoint use_ids (w : world) (u : used) (l : list str) : result used :=
  match l with
  | [] => Ok u
  | i :: r => do _x <- used_check w u i; use_ids w (used_add u i) r
  end.

(** The same recorded IDs, in possibly another order *)
Definition same_used (u v : used) : Prop :=
  match u, v with
  | Unique a, Unique b => Permutation a b
  | _, _ => u = v
  end.

(** The list that stands for a set has no repetitions. *)
Definition wf_used (u : used) : Prop := match u with Unique a => NoDup a | Natural _ _ => True end.

(** Nothing is recorded as used before the first receipt of all. *)
Definition fresh_used (u : used) : used := used_new (backend_of u).
Definition guarded (ps : option str) (reg : regstate) (u : used) : Prop :=
  absent (s_last reg) -> absent ps -> u = fresh_used u.

(** The usual states of clusters: of every register either both or none of start and
    last receipt are recorded, all registers but the last have a start receipt,
    and no IDs are recorded as used before the first start receipt. *)
Definition usual_cluster (c : cluster) : Prop :=
  Forall usual (c_regs c)
  /\ Forall (fun r => ~ absent (s_start r)) (removelast (c_regs c))
  /\ (Forall (fun r => absent (s_start r)) (c_regs c) -> c_used c = fresh_used (c_used c)).

(** How packages are run: there is a number of processes; every package of a batch
    is a task of its own. This is so if there is no pool and one process, and if
    there is a pool and at most four packages per worker. *)
Definition isolated (sch : schedule) : Prop :=
  (1 <= sch_nprocs sch)%nat /\
  match sch_pool sch with
  | None => sch_nprocs sch = 1%nat
  | Some workers => (1 <= workers)%nat /\ (sch_nprocs sch <= 4 * workers)%nat
  end.
