(** demo.py together with key_store.py and verify.py. *)
From Verif Require Import PyBase World Codec Algo Receipt SpecReceipt Json Pem KeyStore DepExport CashReg SpecCashReg Demo SpecDemo KeyStoreCli SpecKeyStoreCli StateArgv KeyArgv SpecKeyArgv Remote SpecRemote SpecDep DemoArgv.
Open Scope N_scope.

(** Files for an open system: the private key and the certificate it belongs to; for a closed system: the private key,
    the public key, and an ID for it. [words] are the words for demo.py before the AES key file, [add] those for
    key_store.py. *)
Inductive key_files (w : world) (fs : files) : list str -> list str -> Prop :=
| kf_open privf certf p t c : f_text fs privf = Ok p -> f_text fs certf = Ok t -> loadCert w (universal_newlines t) = Ok c ->
    key_pair w (universal_newlines p) (w_cert_pubkey w c) ->
    key_files w fs [privf; certf] [lit "add"; certf]
| kf_closed privf pubf id p t k : f_text fs privf = Ok p -> f_text fs pubf = Ok t -> loadPubKey w (universal_newlines t) = Ok k ->
    key_pair w (universal_newlines p) k -> key_id_text w id -> ~ In c_us id -> encodes id ->
    key_files w fs [privf; pubf; id] [lit "add"; pubf; id].

(** The words for which demo.py shows its usage *)
Definition demo_shaped (args : list str) : Prop := In (List.length args) [2; 4; 5]%nat.

(** The signing device is at hand: the words before the last two name it, and its files are read or the service
    tells of itself. *)
Inductive device_words (w : world) (net : network) (fs : files) : list str -> Prop :=
| dw_service d : open_remote (n_certificate net) (n_zda net) = Ok d -> device_words w net fs []
| dw_open privf certf p t c : f_text fs privf = Ok p -> f_text fs certf = Ok t -> loadCert w (universal_newlines t) = Ok c -> device_words w net fs [privf; certf]
| dw_closed privf pubf id p : f_text fs privf = Ok p -> device_words w net fs [privf; pubf; id].

(** A DEP with one group of receipts without certificates *)
Definition plain_dep (receipts : list str) : json :=
  JDict [(lit "Belege-Gruppe", JList [JDict [(lit "Signaturzertifikat", JStr []); (lit "Zertifizierungsstellen", JList []); (lit "Belege-kompakt", JList (map JStr receipts))]])].

(** The service tells the serial number of the certificate in a file and its provider. It signs with the private key that belongs to it; if it
    cannot be reached for a receipt after the first, it cannot be reached for the later ones either. *)
Definition service_for (w : world) (net : network) (c : cert) : Prop :=
  exists cd zd d priv m, n_certificate net = Answer (JDict cd) /\ n_zda net = Answer (JDict zd)
    /\ dict_get cd (lit "ZertifikatsseriennummerHex") = Some (JStr (rm_serial d)) /\ dict_get cd (lit "alg") = Some (JStr (lit "ES256")) /\ dict_get zd (lit "zdaid") = Some (JStr (rm_zda d))
    /\ device_ok w (SignatureSystemWorking (rm_zda d) (rm_serial d) priv) /\ rm_zda d <> lit "AT0" /\ serial_id w 16 (rm_serial d) (fmt_x (Z.abs (w_serial w c)))
    /\ key_pair w priv (w_cert_pubkey w c) /\ (1 <= m)%nat /\ (forall i, serves w priv (i <? m)%nat (n_post net i)).
