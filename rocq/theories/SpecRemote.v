(** What is expected of a signature service. *)
From Verif Require Import PyBase World Codec Algo Json PyTime Receipt CashReg SpecReceipt SpecCashReg KeyStore VerifyReceipt SpecDep Remote.
Open Scope N_scope.

(** The JWS text of a payload, signed with the private key *)
Definition signed_jws (w : world) (priv : privkey) (data jws : str) : Prop :=
  exists p, utf8_encode data = Ok p
    /\ let input := b64url_nopad (lit "{""alg"":""ES256""}") ++ [c_dot] ++ b64url_nopad p in
       jws = input ++ [c_dot] ++ b64url_nopad (w_es256_sign w priv input).

(** The service replies with the JWS text, if it can be reached at all. *)
Definition serves (w : world) (priv : privkey) (up : bool) (post : str -> reply) : Prop :=
  if up then forall data jws, signed_jws w priv data jws ->
    exists d, post data = Answer (JDict d) /\ dict_get d (lit "result") = Some (JStr jws)
  else forall data, post data = Refused.

(** The local device that would have the same effect *)
Definition local_device (d : remote) (priv : privkey) (up : bool) : sigsys :=
  if up then SignatureSystemWorking (rm_zda d) (rm_serial d) priv else SignatureSystemBroken (rm_zda d) (rm_serial d).
Definition on_device (s : sigsys) (q : request) : request :=
  Request (q_id q) (q_time q) (q_a q) (q_b q) (q_c q) (q_d q) (q_e q) s (q_dummy q) (q_reversal q).
