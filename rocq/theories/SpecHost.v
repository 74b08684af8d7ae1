(** What is said about the receipt host. *)
From Verif Require Import PyBase World Codec Receipt Json SpecReceipt SpecDep Host.
Open Scope N_scope.

(** The code of a receipt text, as it is printed in QR codes *)
Definition has_code (w : world) (t code : str) : Prop := exists r, reads w t r /\ toBasicCode r (lit "R1") = Ok code.

(** The hash of a code: the first eight octets of SHA-256 *)
Definition code_hash (w : world) (code h : str) : Prop :=
  exists u, utf8_encode code = Ok u /\ h = b64url_nopad (firstn 8 (w_sha256 w u)).

(** The code of the last of the texts with the hash *)
Definition newest_with (w : world) (texts : list str) (h code : str) : Prop :=
  exists a t b, texts = a ++ t :: b /\ has_code w t code /\ code_hash w code h
    /\ forall t' c, In t' b -> has_code w t' c -> ~ code_hash w c h.

(** No two of the texts have codes that differ but have the same hash. *)
Definition hashes_apart (w : world) (texts : list str) : Prop :=
  forall t t' c c' h, In t texts -> In t' texts -> has_code w t c -> has_code w t' c' ->
  code_hash w c h -> code_hash w c' h -> c = c'.

(** The signature is encoded canonically, or it is not that of a failed signature
    device. *)
Definition signature_plain (r : receipt) : Prop :=
  exists sg, r_sig r = Some (es256_header, sg) /\ (canon_seg sg \/ ~ seg_decodes sg fail_marker).

(** The answers of a server for the texts: under each hash the newest code with it, if
    there is one, and status 404 otherwise. *)
Definition answers (w : world) (texts : list str) (store : list (str * str)) : Prop := forall h,
  (forall code, get_url_hash store h = Response 200 (JDict [(lit "code", JStr code)]) <-> newest_with w texts h code)
  /\ (status (get_url_hash store h) = 404 <-> forall t c, In t texts -> has_code w t c -> ~ code_hash w c h).
