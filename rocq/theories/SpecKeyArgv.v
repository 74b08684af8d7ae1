(** The command line of key_store.py as its usage message describes it. *)
From Verif Require Import PyBase World Codec Json KeyStore DepExport KeyStoreCli SpecKeyStoreCli StateArgv SpecStateArgv KeyArgv.
Open Scope N_scope.

(** The lines of the usage message, without the name of the key store *)
Inductive store_asks (fs : files) (stdin : str) : list str -> store_cmd -> Prop :=
| ka_create : store_asks fs stdin [lit "create"] K_create
| ka_list : store_asks fs stdin [lit "list"] K_list
| ka_cert f t : f_text fs f = Ok t -> store_asks fs stdin [lit "add"; f] (K_addCert (universal_newlines t))
| ka_key f t i : f_text fs f = Ok t -> store_asks fs stdin [lit "add"; f; i] (K_addKey (universal_newlines t) i)
| ka_del i : store_asks fs stdin [lit "del"; i] (K_del i)
| ka_showKey : store_asks fs stdin [lit "showSymmetricKey"] K_showKey
| ka_setKey : store_asks fs stdin [lit "setSymmetricKey"] (K_setKey stdin)
| ka_delKey : store_asks fs stdin [lit "delSymmetricKey"] K_delKey
| ka_toIni : store_asks fs stdin [lit "toLegacyIni"] K_toIni
| ka_fromIni : store_asks fs stdin [lit "fromLegacyIni"] (K_fromIni stdin).

(** The commands and how many further words they take *)
Definition store_arities : list (str * nat) :=
  [(lit "create", 0%nat); (lit "list", 0%nat); (lit "add", 1%nat); (lit "add", 2%nat); (lit "del", 1%nat);
   (lit "showSymmetricKey", 0%nat); (lit "setSymmetricKey", 0%nat); (lit "delSymmetricKey", 0%nat); (lit "toLegacyIni", 0%nat); (lit "fromLegacyIni", 0%nat)].
Definition store_shaped (args : list str) : Prop := exists file cmd rest, args = file :: cmd :: rest /\ In (cmd, List.length rest) store_arities.

(** Commands that only print *)
Definition printing (word : str) : Prop := word = lit "list" \/ word = lit "showSymmetricKey" \/ word = lit "toLegacyIni".

(** Calls of the program one after the other, with what is typed *)
Inductive store_session (w : world) : list (list str * str) -> files -> files -> Prop :=
| ss_end fs : store_session w [] fs fs
| ss_call args stdin calls fs fs1 fs' : files_after fs (store_program w fs stdin args) fs1 -> store_session w calls fs1 fs' ->
    store_session w ((args, stdin) :: calls) fs fs'.

(** A file holds a key store. *)
Definition keeps (w : world) (fs : files) (name : str) : Prop := exists j ks key, f_json fs name = Ok j /\ opens w j ks key.
