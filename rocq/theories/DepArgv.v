(** The command lines of split.py, merge.py and convert.py. *)
From Verif Require Import PyBase World Codec Receipt Json KeyStore VerifyReceipt DepBase DepParser DepExport StateArgv.
Open Scope N_scope.
Open Scope py_scope.

(** How these programs end: with a message about their usage and status 0; otherwise with the files
    that were written completely, what was printed, and possibly an exception. What is printed or
    written of a document before an exception is left out. *)
Inductive printed : Type := O_none | O_json (j : json) | O_text (t : str).
Inductive d_end : Type :=
| D_usage
| D_end (raised : bool) (written : list (str * json)) (out : printed).

(** split.py:56, ['dep-export{}.json'.format(i)] in the directory [dir] *)
Definition part_name (dir : str) (i : nat) : str := dir ++ lit "/dep-export" ++ fmt_d (Z.of_nat i) ++ lit ".json".
Fixpoint name_parts (dir : str) (i : nat) (l : list json) : list (str * json) :=
  match l with [] => [] | j :: r => (part_name dir i, j) :: name_parts dir (S i) r end.

(** split.py:36-61. [args] is sys.argv without the name of the program, [stdin] the document on
    standard input, [kind] as for split_py. The directory is there or can be made. *)
Definition split_program (w : world) (kind : parser_kind) (stdin : json) (args : list str) : d_end :=
  match args with
  | [a; dir] =>
      match number_arg w a with
      | Err _ => D_end true [] O_none
      | Ok z =>
          if (z <? 1)%Z then D_usage else
          let s := split_py w kind stdin (Z.to_nat z) in
          D_end (match snd s with Some _ => true | None => false end) (name_parts dir 0 (fst s)) O_none
      end
  | _ => D_usage
  end.

(** merge.py:37-78. [k] is the chunk size, which is not negative. *)
Definition merge_program (w : world) (k : nat) (fs : files) (args : list str) : d_end :=
  if (List.length args <? 2)%nat then D_usage else
  let (merge, names) := match args with a :: r => if str_eqb a (lit "nomerge") then (false, r) else (true, args) | [] => (true, args) end in
  if (List.length names <? 2)%nat then D_usage else
  match mapM (f_json fs) names with
  | Err _ => D_end true [] O_none
  | Ok docs => match merge_py w merge k docs with Some (Ok d) => D_end false [] (O_json d) | _ => D_end true [] O_none end
  end.

(** convert.py:39-59. Standard input is given as document or as text. *)
Definition convert_program (w : world) (k : nat) (doc : json) (text : str) (args : list str) : d_end :=
  match args with
  | [a] =>
      if str_eqb a (lit "json2csv") then
        match json2csv w k doc with Ok t => D_end false [] (O_text t) | Err _ => D_end true [] O_none end
      else if str_eqb a (lit "csv2json") then
        match csv2json w text with Ok d => D_end false [] (O_json d) | Err _ => D_end true [] O_none end
      else D_usage
  | _ => D_usage
  end.
