(** The command line of verification_state.py. Files are given by the documents or
    texts they contain. *)
From Verif Require Import PyBase World Codec Receipt Json KeyStore VerifyReceipt State DepBase DepParser Verify DepExport.
Open Scope N_scope.
Open Scope py_scope.

(** verification_state.py:107-251: the commands with their arguments. Numbers are
    given by their values, the file with the AES key by the key. *)
Inductive format := F_jws | F_qr | F_ocr | F_url | F_csv.
Inductive state_cmd :=
| S_create
| S_show
| S_add
| S_reset (n : Z)
| S_delete (n : Z)
| S_setLast (n : Z) (arg : str)
| S_setCounter (n counter : Z)
| S_setChain (n : Z) (arg : str)
| S_toggle (n : Z)
| S_setStart (n : Z) (arg : str)
| S_readIds (file : option str)
| S_copy (n : Z) (source : json) (m : Z)
| S_update (n : Z) (dep : json) (key : option bytes)
| S_from (f : format) (arg : str) (key : option bytes)
| S_fromStart (f : format) (arg : str).

(** verification_state.py:89-92 arg_str_or_none *)
Definition arg_str_or_none (a : str) : option str := if str_eqb a (lit "None") then None else Some a.

(** verification_state.py:94-98 arg_list_from_file_or_empty: no file for the argument
    None. *)
Definition ids_of_file (w : world) (file : option str) : list str :=
  match file with
  | None => []
  | Some t => map (strip (char_isspace w)) (file_lines (universal_newlines t))
  end.

(** [l[i]] for lists: negative numbers count from the end. *)
Definition py_index {A} (l : list A) (i : Z) : result nat :=
  let n := Z.of_nat (List.length l) in
  if ((0 <=? i) && (i <? n))%Z then Ok (Z.to_nat i)
  else if ((- n <=? i) && (i <? 0))%Z then Ok (Z.to_nat (n + i))
  else Err PyIndexError.
Definition py_get {A} (l : list A) (i : Z) : result A :=
  do k <- py_index l i;
  match nth_error l k with Some x => Ok x | None => Err PyIndexError end.

(** An assignment to one element, [state.cashRegisters[n] = ...] or one of its fields *)
Definition change_register (c : cluster) (n : Z) (f : regstate -> regstate) : result cluster :=
  do k <- py_index (c_regs c) n;
  do r <- py_get (c_regs c) n;
  Ok (Cluster (set_nth k (f r) (c_regs c)) (c_used c)).

(** [del state.cashRegisters[n]], verification_state.py:136-141 *)
Definition delete_register (c : cluster) (n : Z) : result cluster :=
  do k <- py_index (c_regs c) n;
  Ok (Cluster (firstn k (c_regs c) ++ skipn (S k) (c_regs c)) (c_used c)).

(** verification_state.py:217-222: the groups of the chunks one after the other. Each
    one asks for the register again. *)
Fixpoint update_groups (w : world) (n : Z) (key : option bytes) (groups : list dgroup) (c : cluster) : result cluster :=
  match groups with
  | [] => Ok c
  | g :: r =>
      do old <- py_get (c_regs c) n;
      do new <- updateFromDEPGroup w old (g_recs g) key;
      do c' <- change_register c n (fun _ => new);
      update_groups w n key r c'
  end.
Definition update_register (w : world) (chunksize : nat) (n : Z) (dep : json) (key : option bytes) (c : cluster) : result cluster :=
  let s := parse_inc w P_certless dep chunksize in
  do c' <- update_groups w n key (List.concat (fst s)) c;
  match snd s with None => Ok c' | Some e => Err e end.

(** verification_state.py:56-63 INPUT_FORMATS. For URLs it uses a name that
    it does not import; NameError is not told from other exceptions here. *)
Definition read_format (w : world) (py : pygen) (f : format) (s : str) : result (receipt * str) :=
  match f with
  | F_jws => fromJWSString w s
  | F_qr => fromBasicCode w s
  | F_ocr => fromOCRCode w py s
  | F_url => Err PyException
  | F_csv => fromCSV w s
  end.

(** verification_state.py:103-258: the document in the state file afterwards. *)
Definition state_py (w : world) (py : pygen) (b : backend) (chunksize : nat) (cmd : state_cmd) (file : json) : result json :=
  do c <- match cmd with
          | S_create => Ok (new_cluster b)
          | S_from f arg key =>
              do rp <- read_format w py f (strip (char_isspace w) arg);
              fromArbitraryReceipt w (fst rp) (snd rp) key b
          | S_fromStart f arg =>
              do rp <- read_format w py f (strip (char_isspace w) arg);
              Ok (fromArbitraryStartReceipt (fst rp) b)
          | _ =>
              do c <- cluster_of_json (load file);
              match cmd with
              | S_add => addNewCashRegister c
              | S_reset n => updateCashRegisterInfo c (Some n) new_register (used_new b)
              | S_delete n => delete_register c n
              | S_setLast n a => change_register c n (fun r => RegState (s_start r) (arg_str_or_none a) (s_counter r) (s_restore r) (State.s_chain r))
              | S_setCounter n z => change_register c n (fun r => RegState (s_start r) (s_last r) z (s_restore r) (State.s_chain r))
              | S_setChain n a => change_register c n (fun r => RegState (s_start r) (s_last r) (s_counter r) (s_restore r) (arg_str_or_none a))
              | S_toggle n => change_register c n (fun r => RegState (s_start r) (s_last r) (s_counter r) (negb (s_restore r)) (State.s_chain r))
              | S_setStart n a => change_register c n (fun r => RegState (arg_str_or_none a) (s_last r) (s_counter r) (s_restore r) (State.s_chain r))
              | S_readIds file => Ok (Cluster (c_regs c) (fold_left used_add (ids_of_file w file) (used_new b)))
              | S_copy n source m =>
                  do c2 <- cluster_of_json (load source);
                  do r <- py_get (c_regs c2) m;
                  change_register c n (fun _ => r)
              | S_update n dep key => update_register w chunksize n dep key c
              | _ => Ok c
              end
          end;
  Ok (cluster_to_json c).
