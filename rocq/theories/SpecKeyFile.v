(** What a key store file says. *)
From Verif Require Import PyBase World Codec Json Pem KeyStore SpecKeys.
Open Scope N_scope.

(** The ID under which a certificate is kept: its entry's name is read as a hexadecimal
    number, one minus sign in front being ignored. *)
Definition cert_id (w : world) (name i : str) : Prop :=
  exists b z, name <> [] /\ (name = c_dash :: b \/ name = b /\ hd_error name <> Some c_dash) /\ int_literal w 16 b z /\ i = fmt_x z.

(** [entry_says w name value i e]: the entry says that [e] is to be found under [i]. *)
Inductive entry_says (w : world) (name : str) : json -> str -> pubkey * option cert -> Prop :=
| says_cert d t c i :
    dict_get d (lit "id") = Some (JStr name) -> dict_get d (lit "signatureDeviceType") = Some (JStr (lit "CERTIFICATE")) ->
    dict_get d (lit "signatureCertificateOrPublicKey") = Some (JStr t) -> loadCert w (addPEMCertHeaders t) = Ok c -> cert_id w name i ->
    entry_says w name (JDict d) i (w_cert_pubkey w c, Some c)
| says_key d t k :
    dict_get d (lit "id") = Some (JStr name) -> dict_get d (lit "signatureDeviceType") = Some (JStr (lit "PUBLIC_KEY")) ->
    dict_get d (lit "signatureCertificateOrPublicKey") = Some (JStr t) -> loadPubKey w (addPEMPubKeyHeaders t) = Ok k ->
    entry_says w name (JDict d) name (k, None).

(** The entries of the file *)
Definition file_entries (j : json) (m : list (str * json)) : Prop :=
  exists d, j = JDict d /\ dict_get d (lit "certificateOrPublicKeyMap") = Some (JDict m).

(** [says w m i o]: the last entry about [i] says [o]; there is none if [o] is [None]. *)
Definition says (w : world) (m : list (str * json)) (i : str) (o : option (pubkey * option cert)) : Prop :=
  (exists a name value b e, m = a ++ (name, value) :: b /\ entry_says w name value i e /\ o = Some e
     /\ forall name' value' e', In (name', value') b -> ~ entry_says w name' value' i e')
  \/ o = None /\ forall name' value' e', In (name', value') m -> ~ entry_says w name' value' i e'.

(** Every entry says something. *)
Definition well_formed (w : world) (m : list (str * json)) : Prop :=
  Forall (fun kv => exists i e, entry_says w (fst kv) (snd kv) i e) m.
