(** What the commands of key_store.py do to a key store file, which INI files stand
    for a key store, and what cert_extract.py leaves in a directory. *)
From Verif Require Import PyBase World Codec Json Pem KeyStore DepExport KeyStoreCli SpecCluster.
Open Scope N_scope.

(** ** Key store files *)

(** The file contains this key store and this AES key. *)
Definition opens (w : world) (file : json) (ks : keystore) (key : option bytes) : Prop :=
  readStoreFromJson w (load file) = Ok ks /\ loadKeyFromJson (load file) = Ok key.

(** What is found under an ID *)
Definition found_at (ks : keystore) (i : str) : option pubkey * option cert := (getKey ks i, getCert ks i).

(** No certificate is kept under an ID with a minus sign. *)
Definition signless (ks : keystore) : Prop :=
  forall i c, getCert ks i = Some c -> hd_error i <> Some c_dash.

(** [typed w stdin t]: [t] is the first line of the input without surrounding blanks. *)
Definition typed (w : world) (stdin t : str) : Prop :=
  exists l rest, universal_newlines stdin = l ++ rest /\ ~ In c_nl l /\ (rest = [] \/ exists r, rest = c_nl :: r)
    /\ t = strip (char_isspace w) l.

(** Commands that change a key store file. *)
Definition changing (cmd : store_cmd) : Prop :=
  match cmd with
  | K_addCert _ | K_addKey _ _ | K_del _ | K_setKey _ | K_delKey => True
  | _ => False
  end.

(** When they succeed. *)
Definition valid_command (w : world) (cmd : store_cmd) : Prop :=
  match cmd with
  | K_addCert pem => exists c, loadCert w pem = Ok c
  | K_addKey pem _ => exists k, loadPubKey w pem = Ok k
  | K_setKey stdin => exists t b, typed w stdin t /\ utf8_encode t = Ok b /\ exists k, b64decode b = Ok k
  | _ => True
  end.

(** What is found under an ID afterwards. *)
Definition found_after (w : world) (cmd : store_cmd) (ks : keystore) (i : str) (e : option pubkey * option cert) : Prop :=
  match cmd with
  | K_addCert pem =>
      exists c, loadCert w pem = Ok c
      /\ (i = numSerialToKeyId (w_serial w c) /\ e = (Some (w_cert_pubkey w c), Some c)
          \/ i <> numSerialToKeyId (w_serial w c) /\ e = found_at ks i)
  | K_addKey pem j =>
      exists k, loadPubKey w pem = Ok k /\ (i = j /\ e = (Some k, None) \/ i <> j /\ e = found_at ks i)
  | K_del j => i = j /\ e = (None, None) \/ i <> j /\ e = found_at ks i
  | _ => e = found_at ks i
  end.

(** Which AES key is in the file afterwards. Nothing is set if nothing is typed. *)
Definition key_after (w : world) (cmd : store_cmd) (key key' : option bytes) : Prop :=
  match cmd with
  | K_setKey stdin =>
      exists t b, typed w stdin t /\ utf8_encode t = Ok b
      /\ (t = [] /\ key' = key \/ t <> [] /\ exists k, b64decode b = Ok k /\ key' = Some k)
  | K_delKey => key' = None
  | _ => key' = key
  end.

(** The content of the file after a command: the old one if it is not written. *)
Definition file_after (file : json) (r : option json * str) : json :=
  match fst r with Some f => f | None => file end.

(** ** INI files *)

(** IDs that can be written to INI files: not empty, on one line, no blanks at the ends,
    no equals sign, colons only in S:, U: and G:, no s;, u; and g;. They do not begin
    like comments and section headers. *)
Definition pair_in (a b : N) (s : str) : Prop := exists p q, s = p ++ a :: b :: q.
Definition ini_id (w : world) (i : str) : Prop :=
  i <> [] /\ (forall c, hd_error i = Some c \/ hd_error (rev i) = Some c -> char_isspace w c = false) /\ ~ In c_nl i /\ ~ In 13 i /\ ~ In c_eq i
  /\ (forall p q, i = p ++ c_colon :: q -> exists p' x, p = p' ++ [x] /\ In x [83; 85; 71])
  /\ ~ pair_in 115 c_semi i /\ ~ pair_in 117 c_semi i /\ ~ pair_in 103 c_semi i
  /\ (forall c, hd_error i = Some c -> ~ In c [c_hash; c_semi; 91]).

(** ** Extracted certificates *)

(** The name of the file for a certificate *)
Definition crt_name (w : world) (c : cert) : str := numSerialToKeyId (w_serial w c) ++ lit ".crt".

(** The certificates of the groups that contain receipts *)
Definition dep_cert (gs : list group) (c : cert) : Prop :=
  exists g, In g gs /\ gr_texts g <> [] /\ (In c (gr_chain g) \/ gr_cert g = Some c).

(** The content of a file *)
Definition content_of (dir : list (str * str)) (name : str) : option str := dict_get dir name.
