(** The command line of verification_state.py, from sys.argv to the files afterwards. *)
From Verif Require Import PyBase World Codec Receipt Json State DepExport StateCli TestSetup.
Open Scope N_scope.
Open Scope py_scope.

(** The files: the JSON documents and the texts that are read from them, or the exception
    if that fails *)
Record files : Type := Files { f_json : str -> result json; f_text : str -> result str }.

(** How a program ends: with a message about its usage and status 0, with an exception and
    status 1, or with status 0 after having written a file and a text to standard output.
    Exceptions are not told apart. *)
Inductive p_end : Type :=
| P_usage
| P_raised
| P_done (written : option (str * json)) (out : str).

(** [int(s)] *)
Definition number_arg (w : world) (s : str) : result Z :=
  match py_int w 10 s with Some z => Ok z | None => Err PyValueError end.

(** verification_state.py:56-63 INPUT_FORMATS *)
Definition format_arg (s : str) : option format :=
  if str_eqb s (lit "jws") then Some F_jws
  else if str_eqb s (lit "qr") then Some F_qr
  else if str_eqb s (lit "ocr") then Some F_ocr
  else if str_eqb s (lit "url") then Some F_url
  else if str_eqb s (lit "csv") then Some F_csv
  else None.

(** verification_state.py:207-210 and 232-235: the optional file with the AES key. None
    if there are further arguments. *)
Definition key_arg (fs : files) (rest : list str) : option (result (option bytes)) :=
  match rest with
  | [] => Some (Ok None)
  | [f] => Some (do t <- f_text fs f; do k <- loadB64Key (universal_newlines t); Ok (Some k))
  | _ => None
  end.

(** verification_state.py:100-251: the command, if the words are one. [words] are the arguments after
    the name of the state file. None is for the message about the usage (also that
    about the format). An argument that should be a number and is not leads to an
    exception. The code looks at the numbers after it has read the state, and at that for
    updateCashRegister with every group of the DEP; a DEP without groups is refused by the parser. *)
Definition state_argv (w : world) (fs : files) (words : list str) : option (result state_cmd) :=
  match words with
  | [] => None
  | cmd :: rest =>
      if str_eqb cmd (lit "create") then match rest with [] => Some (Ok S_create) | _ => None end
      else if str_eqb cmd (lit "show") then match rest with [] => Some (Ok S_show) | _ => None end
      else if str_eqb cmd (lit "addCashRegister") then match rest with [] => Some (Ok S_add) | _ => None end
      else if str_eqb cmd (lit "resetCashRegister") then
        match rest with [n] => Some (do z <- number_arg w n; Ok (S_reset z)) | _ => None end
      else if str_eqb cmd (lit "deleteCashRegister") then
        match rest with [n] => Some (do z <- number_arg w n; Ok (S_delete z)) | _ => None end
      else if str_eqb cmd (lit "setLastReceiptJWS") then
        match rest with [n; a] => Some (do z <- number_arg w n; Ok (S_setLast z a)) | _ => None end
      else if str_eqb cmd (lit "setLastTurnoverCounter") then
        match rest with [n; a] => Some (do z <- number_arg w n; do c <- number_arg w a; Ok (S_setCounter z c)) | _ => None end
      else if str_eqb cmd (lit "setChainNextTo") then
        match rest with [n; a] => Some (do z <- number_arg w n; Ok (S_setChain z a)) | _ => None end
      else if str_eqb cmd (lit "toggleNeedRestoreReceipt") then
        match rest with [n] => Some (do z <- number_arg w n; Ok (S_toggle z)) | _ => None end
      else if str_eqb cmd (lit "setStartReceiptJWS") then
        match rest with [n; a] => Some (do z <- number_arg w n; Ok (S_setStart z a)) | _ => None end
      else if str_eqb cmd (lit "readUsedReceiptIds") then
        match rest with
        | [a] => Some (if str_eqb a (lit "None") then Ok (S_readIds None) else do t <- f_text fs a; Ok (S_readIds (Some t)))
        | _ => None
        end
      else if str_eqb cmd (lit "copyCashRegister") then
        match rest with
        | [n; a; m] => Some (do src <- f_json fs a; do z <- number_arg w n; do y <- number_arg w m; Ok (S_copy z src y))
        | _ => None
        end
      else if str_eqb cmd (lit "updateCashRegister") then
        match rest with
        | n :: a :: rest =>
            option_map (fun k => do key <- k; do dep <- f_json fs a; do z <- number_arg w n; Ok (S_update z dep key)) (key_arg fs rest)
        | _ => None
        end
      else if str_eqb cmd (lit "fromArbitraryReceipt") then
        match rest with
        | f :: a :: rest =>
            match key_arg fs rest, format_arg f with
            | Some k, Some f => Some (do key <- k; Ok (S_from f a key))
            | _, _ => None
            end
        | _ => None
        end
      else if str_eqb cmd (lit "fromArbitraryStartReceipt") then
        match rest with
        | [f; a] => option_map (fun f => Ok (S_fromStart f a)) (format_arg f)
        | _ => None
        end
      else None
  end.

(** verification_state.py:38-39 printStateField: the name is filled up with blanks on the
    left to 25 characters. *)
Definition state_field (name value : str) : str := repeat 32 (25 - List.length name) ++ name ++ lit ": " ++ value.

(** [u'{}'.format(x)] for texts, None and booleans *)
Definition text_or_none (x : option str) : str := match x with Some s => s | None => lit "None" end.
Definition bool_text (x : bool) : str := if x then lit "True" else lit "False".

(** verification_state.py:41-45 printCashRegisterState, the lines *)
Definition register_lines (r : regstate) : list str :=
  [state_field (lit "Start Receipt") (text_or_none (s_start r));
   state_field (lit "Last Receipt") (text_or_none (s_last r));
   state_field (lit "Last Turnover Counter") (fmt_d (s_counter r));
   state_field (lit "Need Restore Receipt") (bool_text (s_restore r))].

(** verification_state.py:47-54 printClusterState, without translations. *)
Fixpoint registers_lines (i : Z) (l : list regstate) : list str :=
  match l with
  | [] => []
  | r :: l => (lit "Cash Register " ++ fmt_d i ++ lit ":") :: register_lines r ++ [] :: registers_lines (i + 1) l
  end.
Definition cluster_lines (c : cluster) : list str :=
  registers_lines 0 (c_regs c)
  ++ [state_field (lit "Used Receipt IDs Backend") (match backend_of (c_used c) with B_unique => k_unique | B_natural => k_natural end)].
Definition cluster_text (c : cluster) : str := List.concat (map (fun l => l ++ [c_nl]) (cluster_lines c)).

(** Whether the state file is not read, verification_state.py:107-111 and 224-251 *)
Definition fresh (cmd : state_cmd) : bool :=
  match cmd with S_create | S_from _ _ _ | S_fromStart _ _ => true | _ => false end.

(** verification_state.py:84-258. [args] is sys.argv without the name of the program. The
    state file is opened for writing only after the new state is known. Writing it and
    printing do not fail here. *)
Definition state_program (w : world) (py : pygen) (b : backend) (chunksize : nat) (fs : files) (args : list str) : p_end :=
  match args with
  | [] => P_usage
  | file :: words =>
      match state_argv w fs words with
      | None => P_usage
      | Some c =>
          match (do cmd <- c;
                 do j <- (if fresh cmd then Ok JNull else f_json fs file);
                 do out <- match cmd with S_show => do x <- cluster_of_json (load j); Ok (cluster_text x) | _ => Ok [] end;
                 do j' <- state_py w py b chunksize cmd j;
                 Ok (j', out)) with
          | Err _ => P_raised
          | Ok (j', out) => P_done (Some (file, j')) out
          end
      end
  end.
