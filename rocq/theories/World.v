(** Everything the modelled code calls but this development does not define.

    A [world] is passed explicitly to every function that depends on it, so
    that theorems quantify over all worlds. What a theorem needs to know about
    a world is a hypothesis of the theorem. *)
From Verif Require Import PyBase.
Open Scope N_scope.

(** X.509 certificates and public keys are represented by their encodings. *)
Definition cert := bytes.
Definition pubkey := bytes.
Definition privkey := bytes.

Record world : Type := {
  (** Unicode database beyond ASCII (CPython's unicodedata). *)
  u_decimal : N -> option N;  (* digit value of a character of category Nd *)
  u_isdigit : N -> bool;      (* str.isdigit of one character *)
  u_isalnum : N -> bool;      (* str.isalnum of one character *)
  u_isspace : N -> bool;      (* str.isspace of one character *)
  u_upper : str -> str;       (* str.upper of a non-ASCII text *)
  u_lower : str -> str;       (* str.lower of a non-ASCII text *)
  (** utils.sha256, librksv/utils.py:106-114 *)
  w_sha256 : bytes -> bytes;
  (** The AES-256 block function under a key, used by utils.aes256ctr. *)
  w_aes : bytes -> bytes -> bytes;
  (** ES256 as implemented by PyJWT/cryptography on raw signatures. *)
  w_es256_verify : pubkey -> bytes -> bytes -> bool;
  w_es256_sign : privkey -> bytes -> bytes;
  (** x509.load_pem_x509_certificate / load_pem_public_key; [None] stands for
      the ValueError raised on malformed input. *)
  w_load_cert : str -> option cert;
  w_load_pubkey : str -> option pubkey;
  (** Attributes of certificate objects. *)
  w_serial : cert -> Z;
  w_cert_pubkey : cert -> pubkey;
  (** utils.verifyCert, librksv/utils.py:194-227: is the first certificate
      signed by the second one. *)
  w_cert_signed_by : cert -> cert -> bool;
  (** cert.public_bytes(PEM) and key.public_bytes(PEM, SubjectPublicKeyInfo) *)
  w_cert_pem : cert -> str;
  w_pubkey_pem : pubkey -> str;
}.

(** ** Character classes of Python's [str], ASCII part fixed *)

Definition is_az (c : N) : bool := (97 <=? c) && (c <=? 122).
Definition is_AZ (c : N) : bool := (65 <=? c) && (c <=? 90).
Definition is_09 (c : N) : bool := (48 <=? c) && (c <=? 57).

(** Value of a decimal digit character; also what the regular expression
    class [\d] matches in text patterns. Digit values are at most 9. *)
Definition decimal (w : world) (c : N) : option N :=
  if c <? 128 then (if is_09 c then Some (c - 48) else None)
  else match u_decimal w c with
       | Some d => if d <? 10 then Some d else None
       | None => None
       end.

Definition is_decimal (w : world) (c : N) : bool :=
  match decimal w c with Some _ => true | None => false end.

Definition char_isdigit (w : world) (c : N) : bool :=
  if c <? 128 then is_09 c else u_isdigit w c.

Definition char_isalnum (w : world) (c : N) : bool :=
  if c <? 128 then is_az c || is_AZ c || is_09 c else u_isalnum w c.

(** [str.isspace]: ASCII white space is \t\n\v\f\r, \x1c-\x1f and blank. *)
Definition char_isspace (w : world) (c : N) : bool :=
  if c <? 128 then ((9 <=? c) && (c <=? 13)) || ((28 <=? c) && (c <=? 32))
  else u_isspace w c.

(** [s.isdigit()] and [s.isalnum()]: false on the empty text. *)
Definition nonempty (s : str) : bool := match s with [] => false | _ => true end.
Definition isdigit (w : world) (s : str) : bool := nonempty s && forallb (char_isdigit w) s.
Definition isalnum (w : world) (s : str) : bool := nonempty s && forallb (char_isalnum w) s.

Definition ascii_upper (c : N) : N := if is_az c then c - 32 else c.
Definition ascii_lower (c : N) : N := if is_AZ c then c + 32 else c.

Definition upper (w : world) (s : str) : str :=
  if is_ascii s then map ascii_upper s else u_upper w s.
Definition lower (w : world) (s : str) : str :=
  if is_ascii s then map ascii_lower s else u_lower w s.

(** What theorems assume of the hash and block functions. *)
Definition is_bytes (b : bytes) : Prop := Forall (fun x => x < 256) b.

Definition hash_ok (w : world) : Prop :=
  forall b, List.length (w_sha256 w b) = 32%nat /\ is_bytes (w_sha256 w b).

Definition aes_ok (w : world) : Prop :=
  forall k b, List.length (w_aes w k b) = 16%nat /\ is_bytes (w_aes w k b).
