(** librksv/key_store.py *)
From Verif Require Import PyBase World Codec PyFloat Json Pem.
Open Scope N_scope.
Open Scope py_scope.

(** librksv/key_store.py:249-257 KeyTuple; its keyId is the dictionary key. *)
Record key_tuple : Type := KeyTuple { kt_key : pubkey; kt_cert : option cert }.

(** The attribute keydict, librksv/key_store.py:274-275 *)
Definition keystore := list (str * key_tuple).

(** librksv/key_store.py:180-186 numSerialToKeyId *)
Definition numSerialToKeyId (serial : Z) : str := fmt_x (Z.abs serial).

(** librksv/key_store.py:188-213 strSerialToKeyIds *)
Definition strSerialToKeyIds (w : world) (serial : str) : result (list str) :=
  match serial with
  | [] => Err PyIndexError
  | c :: r =>
      let s := if c =? c_dash then r else serial in
      Ok ((match py_int w 16 s with Some z => [fmt_x z] | None => [] end)
          ++ (match py_int w 10 s with Some z => [fmt_x z] | None => [] end))
  end.

(** librksv/key_store.py:280-296 getKey, getCert, putKey, delKey *)
Definition getKey (ks : keystore) (keyId : str) : option pubkey :=
  option_map kt_key (dict_get ks keyId).
Definition getCert (ks : keystore) (keyId : str) : option cert :=
  match dict_get ks keyId with Some kt => kt_cert kt | None => None end.
Definition putKey (ks : keystore) (keyId : str) (key : pubkey) (c : option cert) : keystore :=
  dict_set ks keyId (KeyTuple key c).
Definition delKey (ks : keystore) (keyId : str) : keystore := dict_del ks keyId.

(** librksv/key_store.py:298-303 putPEMCert *)
Definition putPEMCert (w : world) (ks : keystore) (pem : str) : result keystore :=
  do c <- loadCert w pem;
  Ok (dict_set ks (numSerialToKeyId (w_serial w c)) (KeyTuple (w_cert_pubkey w c) (Some c))).

(** librksv/key_store.py:305-308 putPEMKey *)
Definition putPEMKey (w : world) (ks : keystore) (keyId pem : str) : result keystore :=
  do k <- loadPubKey w pem;
  Ok (dict_set ks keyId (KeyTuple k None)).

(** librksv/key_store.py:215-247 parseKeyStoreCert, parseKeyStorePubkey; all
    parse errors of key stores are one exception class here. *)
Definition parseKeyStoreCert (w : world) (j : json) : result cert :=
  match j with
  | JStr s => catch (loadCert w (addPEMCertHeaders s)) value_error KeyStoreError
  | _ => Err KeyStoreError
  end.
Definition parseKeyStorePubkey (w : world) (j : json) : result pubkey :=
  match j with
  | JStr s => catch (loadPubKey w (addPEMPubKeyHeaders s)) value_error KeyStoreError
  | _ => Err KeyStoreError
  end.

Definition k_map : str := lit "certificateOrPublicKeyMap".
Definition k_id : str := lit "id".
Definition k_type : str := lit "signatureDeviceType".
Definition k_pem : str := lit "signatureCertificateOrPublicKey".
Definition k_aes : str := lit "base64AESKey".
Definition v_cert_type : str := lit "CERTIFICATE".
Definition v_key_type : str := lit "PUBLIC_KEY".

(** librksv/key_store.py:373-400 writeStoreToJson *)
Definition entry_to_json (w : world) (keyId : str) (kt : key_tuple) : json :=
  JDict ((k_id, JStr keyId) ::
    match kt_cert kt with
    | Some c => [(k_type, JStr v_cert_type); (k_pem, JStr (exportCertToPEM w c))]
    | None => [(k_type, JStr v_key_type); (k_pem, JStr (exportKeyToPEM w (kt_key kt)))]
    end).
Definition writeStoreToJson (w : world) (ks : keystore) (b64Key : option str) : json :=
  JDict ((k_map, JDict (map (fun e => (fst e, entry_to_json w (fst e) (snd e))) ks))
         :: match b64Key with Some k => [(k_aes, JStr k)] | None => [] end).

(** One turn of the loop, librksv/key_store.py:425-472 *)
Definition read_entry (w : world) (ks : keystore) (rawId : str) (value : json) : result keystore :=
  match value with
  | JDict d =>
      match dict_get d k_id, dict_get d k_type, dict_get d k_pem with
      | Some jid, Some jty, Some cp =>
          match jid with
          | JStr innerId =>
              check str_eqb rawId innerId else KeyStoreError;
              match jty with
              | JStr devType =>
                  if str_eqb devType v_cert_type then
                    do ids <- strSerialToKeyIds w rawId;
                    match ids with
                    | [] => Err KeyStoreError
                    | keyId :: _ =>
                        do c <- parseKeyStoreCert w cp;
                        Ok (putKey ks keyId (w_cert_pubkey w c) (Some c))
                    end
                  else if str_eqb devType v_key_type then
                    do k <- parseKeyStorePubkey w cp;
                    Ok (putKey ks innerId k None)
                  else Err KeyStoreError
              | _ => Err KeyStoreError
              end
          | _ => Err KeyStoreError
          end
      | _, _, _ => Err KeyStoreError
      end
  | _ => Err KeyStoreError
  end.

Fixpoint read_entries (w : world) (ks : keystore) (d : list (str * json)) : result keystore :=
  match d with
  | [] => Ok ks
  | (rawId, value) :: r => do ks' <- read_entry w ks rawId value; read_entries w ks' r
  end.

(** librksv/key_store.py:403-474 readStoreFromJson *)
Definition readStoreFromJson (w : world) (j : json) : result keystore :=
  match j with
  | JDict d =>
      match dict_get d k_map with
      | Some (JDict m) => read_entries w [] m
      | _ => Err KeyStoreError
      end
  | _ => Err KeyStoreError
  end.

(** librksv/utils.py:88-104 loadB64Key, loadKeyFromJson on a loaded container.
    A key that is not a text has no [encode]; a root that is not a dictionary
    cannot be indexed by a text. *)
Definition loadKeyFromJson (j : json) : result (option bytes) :=
  match j with
  | JDict d =>
      match dict_get d k_aes with
      | None => Ok None
      | Some (JStr s) => do b <- utf8_encode s; do k <- b64decode b; Ok (Some k)
      | Some _ => Err PyAttributeError
      end
  | _ => Err PyTypeError
  end.
