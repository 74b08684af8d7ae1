(** The command line of key_store.py, from sys.argv to the files afterwards. *)
From Verif Require Import PyBase World Codec Json KeyStore DepExport KeyStoreCli StateArgv.
Open Scope N_scope.
Open Scope py_scope.

(** key_store.py:46-59 and 78-110: the command, if the words after the name of the key store are one.
    None is for the usage message. [stdin] is the text on standard input. *)
Definition store_argv (fs : files) (stdin : str) (words : list str) : option (result store_cmd) :=
  match words with
  | [c] =>
      if str_eqb c (lit "create") then Some (Ok K_create)
      else if str_eqb c (lit "list") then Some (Ok K_list)
      else if str_eqb c (lit "showSymmetricKey") then Some (Ok K_showKey)
      else if str_eqb c (lit "setSymmetricKey") then Some (Ok (K_setKey stdin))
      else if str_eqb c (lit "delSymmetricKey") then Some (Ok K_delKey)
      else if str_eqb c (lit "toLegacyIni") then Some (Ok K_toIni)
      else if str_eqb c (lit "fromLegacyIni") then Some (Ok (K_fromIni stdin))
      else None
  | [c; a] =>
      if str_eqb c (lit "add") then Some (do t <- f_text fs a; Ok (K_addCert (universal_newlines t)))
      else if str_eqb c (lit "del") then Some (Ok (K_del a))
      else None
  | [c; a; i] =>
      if str_eqb c (lit "add") then Some (do t <- f_text fs a; Ok (K_addKey (universal_newlines t) i)) else None
  | _ => None
  end.

(** Whether the key store is not read, key_store.py:61-63 *)
Definition anew (cmd : store_cmd) : bool := match cmd with K_create | K_fromIni _ => true | _ => false end.

(** key_store.py:44-132. [args] is sys.argv without the name of the program. Exceptions are
    not told apart. Writing does not fail here. *)
Definition store_program (w : world) (fs : files) (stdin : str) (args : list str) : p_end :=
  match args with
  | [] => P_usage
  | file :: words =>
      match store_argv fs stdin words with
      | None => P_usage
      | Some c =>
          match (do cmd <- c; do j <- (if anew cmd then Ok JNull else f_json fs file); key_store_py w cmd j) with
          | Err _ => P_raised
          | Ok (j', out) => P_done (option_map (fun x => (file, x)) j') out
          end
      end
  end.
