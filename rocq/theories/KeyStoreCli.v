(** The command line of key_store.py with the INI files of older versions, and
    cert_extract.py. Files are given by the documents or texts they contain. *)
From Verif Require Import PyBase World Codec PyFloat Json Pem KeyStore DepBase DepParser DepExport.
Open Scope N_scope.
Open Scope py_scope.

(** ** INI files *)

(** A config parser: the sections in order, with their options and values. The
    section DEFAULT is kept apart. *)
Definition section := list (str * str).
Record ini : Type := Ini { ini_defaults : section; ini_sections : list (str * section) }.

Definition s_certificates : str := lit "certificates".
Definition s_public_keys : str := lit "public_keys".
Definition s_default : str := lit "DEFAULT".

(** [s.replace(ab, cd)] for texts of two different characters *)
Fixpoint replace_pair (a b c d : N) (s : str) : str :=
  match s with
  | x :: r =>
      match r with
      | y :: r' => if (x =? a) && (y =? b) then c :: d :: replace_pair a b c d r' else x :: replace_pair a b c d r
      | [] => [x]
      end
  | [] => []
  end.

(** librksv/key_store.py:328-330: S:, U: and G: become s;, u; and g; *)
Definition id_to_ini (i : str) : str :=
  replace_pair 71 c_colon 103 c_semi (replace_pair 85 c_colon 117 c_semi (replace_pair 83 c_colon 115 c_semi i)).
(** librksv/key_store.py:357-359 and 365-367: the reverse *)
Definition id_of_ini (i : str) : str :=
  replace_pair 103 c_semi 71 c_colon (replace_pair 117 c_semi 85 c_colon (replace_pair 115 c_semi 83 c_colon i)).

(** [config.set(section, option, value)] *)
Definition ini_set (sections : list (str * section)) (name option_ value : str) : list (str * section) :=
  map (fun s => if str_eqb (fst s) name then (fst s, dict_set (snd s) option_ value) else s) sections.

(** librksv/key_store.py:310-336 writeStore, applied to a new config parser *)
Definition writeStore (w : world) (ks : keystore) : ini :=
  Ini [] (fold_left
    (fun sections e =>
       match kt_cert (snd e) with
       | Some c => ini_set sections s_certificates (id_to_ini (fst e)) (exportCertToPEM w c)
       | None => ini_set sections s_public_keys (id_to_ini (fst e)) (exportKeyToPEM w (kt_key (snd e)))
       end) ks [(s_certificates, []); (s_public_keys, [])]).

(** [config.items(section)]: the options of the section DEFAULT and those of the
    section; none if there is no such section. *)
Definition ini_items (c : ini) (name : str) : section :=
  match dict_get (ini_sections c) name with
  | Some s => fold_left (fun d kv => dict_set d (fst kv) (snd kv)) s (ini_defaults c)
  | None => []
  end.

(** librksv/key_store.py:338-371 readStore *)
Fixpoint read_ini_certs (w : world) (ks : keystore) (items : section) : result keystore :=
  match items with
  | [] => Ok ks
  | (i, v) :: r =>
      do c <- parseKeyStoreCert w (JStr v);
      read_ini_certs w (putKey ks (id_of_ini i) (w_cert_pubkey w c) (Some c)) r
  end.
Fixpoint read_ini_keys (w : world) (ks : keystore) (items : section) : result keystore :=
  match items with
  | [] => Ok ks
  | (i, v) :: r =>
      do k <- parseKeyStorePubkey w (JStr v);
      read_ini_keys w (putKey ks (id_of_ini i) k None) r
  end.
Definition readStore (w : world) (c : ini) : result keystore :=
  do ks <- read_ini_certs w [] (ini_items c s_certificates);
  read_ini_keys w ks (ini_items c s_public_keys).

(** RawConfigParser.write of the Python library. Line feeds in values are followed by
    tabulators; the section DEFAULT is written only if it has options. *)
Definition ini_value (v : str) : str := List.concat (map (fun c => if c =? c_nl then [c_nl; 9] else [c]) v).
Definition section_text (name : str) (s : section) : str :=
  91 :: name ++ [93; c_nl]
  ++ List.concat (map (fun kv => fst kv ++ lit " = " ++ ini_value (snd kv) ++ [c_nl]) s) ++ [c_nl].
Definition ini_text (c : ini) : str :=
  (match ini_defaults c with [] => [] | d => section_text s_default d end)
  ++ List.concat (map (fun s => section_text (fst s) (snd s)) (ini_sections c)).

(** RawConfigParser.read_file of the Python library with default parameters: its state
    after some lines. Values are lists of lines until the end. *)
Record ini_state : Type := IniState {
  is_defaults : list (str * list str);
  is_sections : list (str * list (str * list str));
  is_sect : option str;         (* name of the current section *)
  is_opt : str;                 (* the current option; empty for none *)
  is_indent : nat;
  is_error : bool               (* a line was not understood *)
}.

Definition current (s : ini_state) (name : str) : list (str * list str) :=
  if str_eqb name s_default then is_defaults s
  else match dict_get (is_sections s) name with Some x => x | None => [] end.
Definition set_current (s : ini_state) (name : str) (x : list (str * list str)) (opt : str) (indent : nat) (err : bool)
  : ini_state :=
  if str_eqb name s_default then IniState x (is_sections s) (is_sect s) opt indent err
  else IniState (is_defaults s) (dict_set (is_sections s) name x) (is_sect s) opt indent err.

(** [cursect[optname].append(value)] *)
Definition append_line (s : ini_state) (name value : str) : ini_state :=
  match dict_get (current s name) (is_opt s) with
  | Some ls => set_current s name (dict_set (current s name) (is_opt s) (ls ++ [value])) (is_opt s) (is_indent s) (is_error s)
  | None => s
  end.

(** A section header: the text from the bracket at the start to the last closing one,
    not empty. *)
Definition section_header (value : str) : option str :=
  match value with
  | b :: r =>
      if b =? 91 then
        match rev (tl (lstrip (fun c => negb (c =? 93)) (rev r))) with
        | [] => None
        | name => Some name
        end
      else None
  | [] => None
  end.

(** An option and its value: the text before and after the first delimiter *)
Fixpoint option_line (value : str) : option (str * str) :=
  match value with
  | [] => None
  | c :: r =>
      if (c =? c_eq) || (c =? c_colon) then Some ([], r)
      else match option_line r with Some (o, v) => Some (c :: o, v) | None => None end
  end.

Definition rstrip (sp : N -> bool) (s : str) : str := rev (lstrip sp (rev s)).

Definition ini_line (w : world) (s : ini_state) (line : str) : result ini_state :=
  let sp := char_isspace w in
  let text := strip sp line in
  let comment := match text with c :: _ => (c =? c_hash) || (c =? c_semi) | [] => false end in
  if comment then Ok s
  else match text, is_sect s with
  | [], Some name => Ok (match is_opt s with [] => s | _ => append_line s name [] end)
  | [], None => Ok s
  | _, _ =>
      let indent := (List.length line - List.length (lstrip sp line))%nat in
      match is_sect s, (is_indent s <? indent)%nat && nonempty (is_opt s) with
      | Some name, true => Ok (append_line s name text)
      | _, _ =>
          match section_header text with
          | Some name =>
              if str_eqb name s_default then
                Ok (IniState (is_defaults s) (is_sections s) (Some name) [] indent (is_error s))
              else
                check match dict_get (is_sections s) name with None => true | Some _ => false end else PyException;
                Ok (IniState (is_defaults s) (is_sections s ++ [(name, [])]) (Some name) [] indent (is_error s))
          | None =>
              match is_sect s with
              | None => Err PyException
              | Some name =>
                  match option_line text with
                  | None => Ok (IniState (is_defaults s) (is_sections s) (is_sect s) (is_opt s) indent true)
                  | Some (o, v) =>
                      let o := rstrip sp o in
                      check match dict_get (current s name) o with None => true | Some _ => false end else PyException;
                      Ok (set_current s name (dict_set (current s name) o [strip sp v]) o indent
                            (is_error s || negb (nonempty o)))
                  end
              end
          end
      end
  end.

Fixpoint ini_lines (w : world) (s : ini_state) (lines : list str) : result ini_state :=
  match lines with
  | [] => Ok s
  | l :: r => do s' <- ini_line w s l; ini_lines w s' r
  end.

(** Values are joined at the end. All exceptions of the library's configparser are
    one here. *)
Definition joined (w : world) (x : list (str * list str)) : section :=
  map (fun kv => (fst kv, rstrip (char_isspace w) (join [c_nl] (snd kv)))) x.
Definition ini_read (w : world) (text : str) : result ini :=
  do s <- ini_lines w (IniState [] [] None [] 0 false) (file_lines (universal_newlines text));
  check negb (is_error s) else PyException;
  Ok (Ini (joined w (is_defaults s)) (map (fun x => (fst x, joined w (snd x))) (is_sections s))).

(** ** key_store.py *)

(** key_store.py:33-59: the commands. Files to be read are given by the texts in
    them, as is the standard input. *)
Inductive store_cmd :=
| K_create
| K_list
| K_addCert (pem : str)
| K_addKey (pem keyId : str)
| K_del (keyId : str)
| K_showKey
| K_setKey (stdin : str)
| K_delKey
| K_toIni
| K_fromIni (stdin : str).

(** key_store.py:95-105: None if there is nothing to be set. *)
Definition new_symmetric_key (w : world) (stdin : str) : result (option bytes) :=
  match file_lines (universal_newlines stdin) with
  | [] => Ok None
  | l :: _ =>
      do b <- utf8_encode (strip (char_isspace w) l);
      match b with [] => Ok None | _ => do k <- b64decode b; Ok (Some k) end
  end.

(** key_store.py:125-132 *)
Definition written_store (w : world) (ks : keystore) (key : option bytes) : json :=
  writeStoreToJson w ks (option_map b64encode key).

(** key_store.py:46-132: the new content of the key store file, unless it is not
    written, and the output. *)
Definition key_store_py (w : world) (cmd : store_cmd) (file : json) : result (option json * str) :=
  match cmd with
  | K_create => Ok (Some (written_store w [] None), [])
  | K_fromIni stdin =>
      do c <- ini_read w stdin;
      do ks <- readStore w c;
      Ok (Some (written_store w ks None), [])
  | _ =>
      do ks <- readStoreFromJson w (load file);
      do key <- loadKeyFromJson (load file);
      match cmd with
      | K_list => Ok (None, List.concat (map (fun e => fst e ++ [c_nl]) ks))
      | K_addCert pem => do ks' <- putPEMCert w ks pem; Ok (Some (written_store w ks' key), [])
      | K_addKey pem i => do ks' <- putPEMKey w ks i pem; Ok (Some (written_store w ks' key), [])
      | K_del i => Ok (Some (written_store w (delKey ks i) key), [])
      | K_showKey =>
          Ok (None, match key with
                    | None => lit "No symmetric key present." ++ [c_nl]
                    | Some k => b64encode k ++ [c_nl]
                    end)
      | K_setKey stdin =>
          do k <- new_symmetric_key w stdin;
          match k with
          | None => Ok (None, [])
          | Some k => Ok (Some (written_store w ks (Some k)), [])
          end
      | K_delKey => Ok (Some (written_store w ks None), [])
      | K_toIni => Ok (None, ini_text (writeStore w ks))
      | _ => Ok (None, [])
      end
  end.

(** ** cert_extract.py *)

(** cert_extract.py:49-57: the files written for a group into a directory, which is
    given by the names and contents of its files. *)
Definition cert_file (w : world) (dir : list (str * str)) (c : cert) : list (str * str) :=
  dict_set dir (numSerialToKeyId (w_serial w c) ++ lit ".crt") (addPEMCertHeaders (exportCertToPEM w c)).
Definition group_certs (g : dgroup) : list cert :=
  g_chain g ++ match g_cert g with Some c => [c] | None => [] end.

(** cert_extract.py:46-60: the directory afterwards, and the exception, if any *)
Definition cert_extract (w : world) (chunksize : nat) (doc : json) (dir : list (str * str))
  : list (str * str) * option exn :=
  let s := parse_inc w P_certless doc chunksize in
  (fold_left (cert_file w) (flat_map group_certs (List.concat (fst s))) dir, snd s).
