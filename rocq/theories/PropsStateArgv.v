(** The command line of verification_state.py. *)
From Verif Require Import PyBase World Codec Receipt Json KeyStore State Verify DepExport StateCli SpecArgv StateArgv SpecStateArgv StateArgvFacts
  ExampleWorld ExampleReceipts ExampleDep ExampleInc ExampleExport ExampleConvert ExampleStateCli ExampleStateArgv.
Open Scope N_scope.
Import State.

(** ** C84 Calls of verification_state.py *)

(** A call succeeds exactly if its words are one of the lines of the usage message, the files named can be
    read and the command succeeds; it then writes the new state to the state file and nothing else. *)
Theorem C84_command w py b k fs args written out : state_program w py b k fs args = P_done written out <->
  exists file words cmd j j', args = file :: words /\ asks w fs words cmd
    /\ (cmd = S_create \/ (exists f a key, cmd = S_from f a key) \/ (exists f a, cmd = S_fromStart f a) \/ f_json fs file = Ok j)
    /\ state_py w py b k cmd j = Ok j' /\ written = Some (file, j')
    /\ (cmd = S_show -> exists c, cluster_of_json (load j) = Ok c /\ out = cluster_text c) /\ (cmd <> S_show -> out = []).
Proof. exact (program_done w py b k fs args written out). Qed.
Print Assumptions C84_command.

(** The usage message is for other commands, wrong numbers of words and unknown formats. *)
Theorem C84_usage w py b k fs args : state_program w py b k fs args = P_usage <-> ~ shaped args.
Proof. exact (program_usage w py b k fs args). Qed.
Print Assumptions C84_usage.

(** Whatever calls are made, a file that holds a state goes on to hold one. *)
Theorem C84_session w py b k calls fs fs' : session w py b k calls fs fs' -> forall name c, holds fs name c -> exists c', holds fs' name c'.
Proof. exact (session_holds w py b k calls fs fs'). Qed.
Print Assumptions C84_session.

(** Files that are never named as the state file stay as they are. *)
Theorem C84_others w py b k calls fs fs' : session w py b k calls fs fs' ->
  forall name, ~ In name (map (hd []) (filter (fun args => match args with [] => false | _ => true end) calls)) ->
  f_json fs' name = f_json fs name /\ f_text fs' name = f_text fs name.
Proof. exact (session_others w py b k calls fs fs'). Qed.
Print Assumptions C84_others.

Example C84_example : session toy_world Py3 B_unique 2 ex_calls ex_files ex_ended /\ holds ex_ended (lit "s.json") ex_end_state /\ f_json ex_ended (lit "dep.json") = Ok ex_dep1
  /\ map (fun n => ex_call (ex_session ex_files (firstn n ex_calls)) (nth n ex_calls [])) [4; 5]%nat = [P_raised; P_usage].
Proof. split; [apply ex_session_ok|]. exact ex_ended_holds. Qed.

(** show leaves the state as it is. *)
Theorem C84_show w py b k fs file c : holds fs file c ->
  exists out, state_program w py b k fs [file; lit "show"] = P_done (Some (file, cluster_to_json c)) out /\ out = cluster_text c.
Proof. exact (shown_spec w py b k fs file c). Qed.
Print Assumptions C84_show.

(** show tells of every register under its number, in six lines each, and of how the used IDs are kept. *)
Theorem C84_told w py b k fs file c : holds fs file c ->
  exists lines last, state_program w py b k fs [file; lit "show"] = P_done (Some (file, cluster_to_json c)) (List.concat (map (fun l => l ++ [c_nl]) (lines ++ [last])))
    /\ List.length lines = (6 * List.length (c_regs c))%nat /\ (forall n r, nth_error (c_regs c) n = Some r -> told lines n r)
    /\ named (lit "Used Receipt IDs Backend") (match backend_of (c_used c) with B_unique => lit "USED_RECEIPT_IDS_UNIQUE" | B_natural => lit "USED_RECEIPT_IDS_SORTED_NATURAL" end) last.
Proof. exact (shown_told w py b k fs file c). Qed.
Print Assumptions C84_told.

Example C84_told_example : holds ex_pair_files (lit "p") ex_pair
  /\ ex_call ex_pair_files [lit "p"; lit "show"] = P_done (Some (lit "p", cluster_to_json ex_pair)) (List.concat (map (fun l => l ++ [c_nl]) ex_pair_shown)).
Proof. exact ex_pair_is. Qed.

(** Two states that are shown alike have the same registers but for the chaining value; a missing
    receipt is shown like the text None. *)
Theorem C84_shown w py b k fs file c fs2 file2 c2 out wr wr2 : holds fs file c -> holds fs2 file2 c2 -> lined c -> lined c2 ->
  state_program w py b k fs [file; lit "show"] = P_done wr out -> state_program w py b k fs2 [file2; lit "show"] = P_done wr2 out ->
  Forall2 shown_alike (c_regs c) (c_regs c2) /\ backend_of (c_used c) = backend_of (c_used c2).
Proof. exact (shown_same w py b k fs file c fs2 file2 c2 out wr wr2). Qed.
Print Assumptions C84_shown.

Example C84_shown_example : holds ex_ended (lit "s.json") ex_end_state /\ lined ex_end_state
  /\ exists wr, ex_call ex_ended [lit "s.json"; lit "show"] = P_done wr (List.concat (map (fun l => l ++ [c_nl]) ex_shown)).
Proof. split; [apply ex_ended_holds|]. split; [exact ex_end_lined|exact ex_shown_is]. Qed.

(** The used receipt IDs are not shown. *)
Theorem C84_shown_refuted : exists w py b k fs wr wr' out c c' doc key ks, holds fs (lit "a") c /\ holds fs (lit "b") c'
  /\ state_program w py b k fs [lit "a"; lit "show"] = P_done wr out /\ state_program w py b k fs [lit "b"; lit "show"] = P_done wr' out
  /\ snd (verifyDEP w (load doc) ks key c (Some 0%Z)) = Some (DuplicateReceiptId (lit "1")) /\ snd (verifyDEP w (load doc) ks key c' (Some 0%Z)) = None.
Proof. exact shown_two. Qed.
Print Assumptions C84_shown_refuted.

(** show writes the file and drops what it does not know. *)
Theorem C84_show_refuted : exists w py b k fs file j j' out, f_json fs file = Ok j /\ state_program w py b k fs [file; lit "show"] = P_done (Some (file, j')) out /\ j' <> j.
Proof. exact show_changes. Qed.
Print Assumptions C84_show_refuted.
