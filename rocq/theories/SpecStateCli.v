(** What is said about the command line of verification_state.py. *)
From Verif Require Import PyBase World Codec Json State StateCli SpecDep SpecCluster.
Open Scope N_scope.

(** A number that stands for the register between two lists of others *)
Definition at_index (n : Z) (before after : list regstate) : Prop :=
  n = Z.of_nat (List.length before) \/ n = (- 1 - Z.of_nat (List.length after))%Z.

(** The change of one register *)
Inductive edits : state_cmd -> Z -> regstate -> regstate -> Prop :=
| ed_last n r l : l <> lit "None" -> edits (S_setLast n l) n r (RegState (s_start r) (Some l) (s_counter r) (s_restore r) (s_chain r))
| ed_no_last n r : edits (S_setLast n (lit "None")) n r (RegState (s_start r) None (s_counter r) (s_restore r) (s_chain r))
| ed_counter n r z : edits (S_setCounter n z) n r (RegState (s_start r) (s_last r) z (s_restore r) (s_chain r))
| ed_chain n r l : l <> lit "None" -> edits (S_setChain n l) n r (RegState (s_start r) (s_last r) (s_counter r) (s_restore r) (Some l))
| ed_no_chain n r : edits (S_setChain n (lit "None")) n r (RegState (s_start r) (s_last r) (s_counter r) (s_restore r) None)
| ed_toggle n r : edits (S_toggle n) n r (RegState (s_start r) (s_last r) (s_counter r) (negb (s_restore r)) (s_chain r))
| ed_start n r l : l <> lit "None" -> edits (S_setStart n l) n r (RegState (Some l) (s_last r) (s_counter r) (s_restore r) (s_chain r))
| ed_no_start n r : edits (S_setStart n (lit "None")) n r (RegState None (s_last r) (s_counter r) (s_restore r) (s_chain r))
| ed_copy n r source m src x y z : cluster_of_json (load source) = Ok src -> c_regs src = x ++ z :: y -> at_index m x y ->
    edits (S_copy n source m) n r z.

(** The change of a state *)
Inductive changes (w : world) (b : backend) : state_cmd -> cluster -> cluster -> Prop :=
| ch_show c : changes w b S_show c c
| ch_first u : changes w b S_add (Cluster [] u) (Cluster [new_register] u)
| ch_add l r s u : s_start r = Some s -> s <> [] -> changes w b S_add (Cluster (l ++ [r]) u) (Cluster (l ++ [r; new_register]) u)
| ch_reset n before r after u : n = Z.of_nat (List.length before) ->
    changes w b (S_reset n) (Cluster (before ++ r :: after) u) (Cluster (before ++ new_register :: after) (used_new b))
| ch_delete n before r after u : at_index n before after ->
    changes w b (S_delete n) (Cluster (before ++ r :: after) u) (Cluster (before ++ after) u)
| ch_edit cmd n before r r' after u : edits cmd n r r' -> at_index n before after ->
    changes w b cmd (Cluster (before ++ r :: after) u) (Cluster (before ++ r' :: after) u)
| ch_ids file l u : changes w b (S_readIds file) (Cluster l u) (Cluster l (fold_left used_add (ids_of_file w file) (used_new b))).

(** Commands that edit the state without looking at receipts *)
Definition edit_cmd (cmd : state_cmd) : bool :=
  match cmd with S_create | S_update _ _ _ | S_from _ _ _ | S_fromStart _ _ => false | _ => true end.

(** A file with one ID per line *)
Definition id_file (ids : list str) : str := List.concat (map (fun i => i ++ [c_nl]) ids).
