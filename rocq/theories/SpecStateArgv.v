(** The command line of verification_state.py as its usage message describes it. *)
From Verif Require Import PyBase World Codec Receipt Json State DepExport StateCli SpecArgv StateArgv.
Open Scope N_scope.
Import State.

(** The words for the formats *)
Inductive format_word : str -> format -> Prop :=
| fw_jws : format_word (lit "jws") F_jws
| fw_qr : format_word (lit "qr") F_qr
| fw_ocr : format_word (lit "ocr") F_ocr
| fw_url : format_word (lit "url") F_url
| fw_csv : format_word (lit "csv") F_csv.

(** [<base64 AES key file>], which may be missing *)
Inductive key_words (fs : files) : list str -> option bytes -> Prop :=
| kw_none : key_words fs [] None
| kw_file f t e k : f_text fs f = Ok t -> utf8_encode (universal_newlines t) = Ok e -> b64decode e = Ok k -> key_words fs [f] (Some k).

(** The lines of the usage message, without the name of the state file *)
Inductive asks (w : world) (fs : files) : list str -> state_cmd -> Prop :=
| as_create : asks w fs [lit "create"] S_create
| as_show : asks w fs [lit "show"] S_show
| as_add : asks w fs [lit "addCashRegister"] S_add
| as_reset n z : number w n z -> asks w fs [lit "resetCashRegister"; n] (S_reset z)
| as_delete n z : number w n z -> asks w fs [lit "deleteCashRegister"; n] (S_delete z)
| as_copy n z f src m y : number w n z -> f_json fs f = Ok src -> number w m y -> asks w fs [lit "copyCashRegister"; n; f; m] (S_copy z src y)
| as_update n z f dep kw key : number w n z -> f_json fs f = Ok dep -> key_words fs kw key ->
    asks w fs ([lit "updateCashRegister"; n; f] ++ kw) (S_update z dep key)
| as_last n z a : number w n z -> asks w fs [lit "setLastReceiptJWS"; n; a] (S_setLast z a)
| as_counter n z a c : number w n z -> number w a c -> asks w fs [lit "setLastTurnoverCounter"; n; a] (S_setCounter z c)
| as_chain n z a : number w n z -> asks w fs [lit "setChainNextTo"; n; a] (S_setChain z a)
| as_toggle n z : number w n z -> asks w fs [lit "toggleNeedRestoreReceipt"; n] (S_toggle z)
| as_start n z a : number w n z -> asks w fs [lit "setStartReceiptJWS"; n; a] (S_setStart z a)
| as_no_ids : asks w fs [lit "readUsedReceiptIds"; lit "None"] (S_readIds None)
| as_ids f t : f <> lit "None" -> f_text fs f = Ok t -> asks w fs [lit "readUsedReceiptIds"; f] (S_readIds (Some t))
| as_from fw f a kw key : format_word fw f -> key_words fs kw key -> asks w fs ([lit "fromArbitraryReceipt"; fw; a] ++ kw) (S_from f a key)
| as_fromStart fw f a : format_word fw f -> asks w fs [lit "fromArbitraryStartReceipt"; fw; a] (S_fromStart f a).

(** The commands and how many further words they take *)
Definition arities : list (str * nat) :=
  [(lit "create", 0%nat); (lit "show", 0%nat); (lit "addCashRegister", 0%nat);
   (lit "resetCashRegister", 1%nat); (lit "deleteCashRegister", 1%nat); (lit "copyCashRegister", 3%nat);
   (lit "updateCashRegister", 2%nat); (lit "updateCashRegister", 3%nat);
   (lit "setLastReceiptJWS", 2%nat); (lit "setLastTurnoverCounter", 2%nat); (lit "setChainNextTo", 2%nat);
   (lit "toggleNeedRestoreReceipt", 1%nat); (lit "setStartReceiptJWS", 2%nat); (lit "readUsedReceiptIds", 1%nat);
   (lit "fromArbitraryReceipt", 2%nat); (lit "fromArbitraryReceipt", 3%nat); (lit "fromArbitraryStartReceipt", 2%nat)].

(** Words of the right number after a known command, and a known format where one is asked for *)
Definition shaped (args : list str) : Prop :=
  exists file cmd rest, args = file :: cmd :: rest /\ In (cmd, List.length rest) arities
    /\ (cmd = lit "fromArbitraryReceipt" \/ cmd = lit "fromArbitraryStartReceipt" -> exists fw f r, rest = fw :: r /\ format_word fw f).

(** The files after a program has ended. What is written is the same document when it is
    read again; nothing is said of it as a text. *)
Definition files_after (fs : files) (e : p_end) (fs' : files) : Prop :=
  match e with
  | P_done (Some (name, j)) _ =>
      f_json fs' name = Ok j /\ forall n, n <> name -> f_json fs' n = f_json fs n /\ f_text fs' n = f_text fs n
  | _ => fs' = fs
  end.

(** Calls of the program one after the other *)
Inductive session (w : world) (py : pygen) (b : backend) (k : nat) : list (list str) -> files -> files -> Prop :=
| se_end fs : session w py b k [] fs fs
| se_call args calls fs fs1 fs' : files_after fs (state_program w py b k fs args) fs1 -> session w py b k calls fs1 fs' ->
    session w py b k (args :: calls) fs fs'.

(** A file holds a state. *)
Definition holds (fs : files) (name : str) (c : cluster) : Prop := exists j, f_json fs name = Ok j /\ cluster_of_json (load j) = Ok c.

(** Registers that are shown alike. What is missing is shown as None. *)
Definition alike (x y : option str) : Prop := x = y \/ (x = None /\ y = Some (lit "None")) \/ (x = Some (lit "None") /\ y = None).
Definition shown_alike (r r' : regstate) : Prop :=
  alike (s_start r) (s_start r') /\ alike (s_last r) (s_last r') /\ s_counter r = s_counter r' /\ s_restore r = s_restore r'.

(** The texts of a register are lines. *)
Definition one_line (x : option str) : Prop := forall s, x = Some s -> ~ In c_nl s.
Definition lined (c : cluster) : Prop := Forall (fun r => one_line (s_start r) /\ one_line (s_last r)) (c_regs c).

(** What a list of lines tells of register [n]: its number and, each after its name, the four
    values, followed by an empty line. *)
Definition named (name value line : str) : Prop := exists blanks, Forall (fun x => x = 32%N) blanks /\ line = blanks ++ name ++ lit ": " ++ value.
Definition told (lines : list str) (n : nat) (r : regstate) : Prop :=
  exists a b c d,
    firstn 6 (skipn (6 * n) lines) = [lit "Cash Register " ++ fmt_d (Z.of_nat n) ++ lit ":"; a; b; c; d; []]
    /\ named (lit "Start Receipt") (match s_start r with Some t => t | None => lit "None" end) a
    /\ named (lit "Last Receipt") (match s_last r with Some t => t | None => lit "None" end) b
    /\ named (lit "Last Turnover Counter") (fmt_d (s_counter r)) c
    /\ named (lit "Need Restore Receipt") (if s_restore r then lit "True" else lit "False") d.
