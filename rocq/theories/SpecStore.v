(** Histories of operations on a key store, and what is to be found in it. *)
From Verif Require Import PyBase World Json Pem KeyStore.
Open Scope N_scope.

Inductive store_op : Type :=
| SPut (keyId : str) (key : pubkey) (c : option cert)
| SDel (keyId : str)
| SPEMCert (pem : str)
| SPEMKey (keyId pem : str).

(** An operation that raises leaves the store as it is: the PEM text is loaded
    first. *)
Definition store_step (w : world) (ks : keystore) (op : store_op) : keystore :=
  match op with
  | SPut i k c => putKey ks i k c
  | SDel i => delKey ks i
  | SPEMCert pem => match putPEMCert w ks pem with Ok ks' => ks' | Err _ => ks end
  | SPEMKey i pem => match putPEMKey w ks i pem with Ok ks' => ks' | Err _ => ks end
  end.
Definition store_run (w : world) (ops : list store_op) : keystore := fold_left (store_step w) ops [].

(** [affects w op i e]: after the operation, [e] is what is stored under [i]. *)
Inductive affects (w : world) : store_op -> str -> option (pubkey * option cert) -> Prop :=
| affects_put i k c : affects w (SPut i k c) i (Some (k, c))
| affects_del i : affects w (SDel i) i None
| affects_cert pem c : loadCert w pem = Ok c ->
    affects w (SPEMCert pem) (numSerialToKeyId (w_serial w c)) (Some (w_cert_pubkey w c, Some c))
| affects_key i pem k : loadPubKey w pem = Ok k -> affects w (SPEMKey i pem) i (Some (k, None)).

(** The last operation that concerns an ID decides. *)
Definition stored (w : world) (ops : list store_op) (i : str) (e : option (pubkey * option cert)) : Prop :=
  (exists pre op post, ops = pre ++ op :: post /\ affects w op i e
     /\ forall op' e', In op' post -> ~ affects w op' i e')
  \/ (e = None /\ forall op' e', In op' ops -> ~ affects w op' i e').

(** Stores that are filled from PEM texts only. *)
Definition from_pem (op : store_op) : Prop := match op with SPut _ _ _ => False | _ => True end.

(** The certificate is in the store under its serial number. *)
Definition holds_cert (w : world) (ks : keystore) (c : cert) : Prop :=
  getKey ks (numSerialToKeyId (w_serial w c)) = Some (w_cert_pubkey w c).
