(** What is said about keys, certificates and URLs, independently of the
    implementation. *)
From Verif Require Import PyBase World.
Open Scope N_scope.

(** Positional notation of natural numbers. *)
Definition numeral_digit (base c v : N) : Prop :=
  ((48 <= c <= 57 /\ c = v + 48) \/ (97 <= c <= 102 /\ c = v + 87) \/ (65 <= c <= 70 /\ c = v + 55))
  /\ v < base.

Inductive numeral (base : N) : str -> N -> Prop :=
| numeral_one c v : numeral_digit base c v -> numeral base [c] v
| numeral_more s n c v : numeral base s n -> numeral_digit base c v -> numeral base (s ++ [c]) (n * base + v).

(** The same with single underscores between digits. *)
Inductive grouped (base : N) : str -> N -> Prop :=
| grouped_one c v : numeral_digit base c v -> grouped base [c] v
| grouped_more s n c v : grouped base s n -> numeral_digit base c v -> grouped base (s ++ [c]) (n * base + v)
| grouped_under s n c v : grouped base s n -> numeral_digit base c v ->
    grouped base (s ++ [95; c]) (n * base + v).

(** Python's notion of integer literals for [int(s, base)]: Unicode digits and
    blanks stand for ASCII ones; blanks around, a sign and, for hexadecimal
    notation, "0x" in front are allowed. *)
Definition ascii_for (w : world) (c d : N) : Prop :=
  (c < 128 /\ d = c) \/ (128 <= c /\ char_isspace w c = true /\ d = 32)
  \/ (128 <= c /\ char_isspace w c = false /\ exists v, decimal w c = Some v /\ d = v + 48).
Definition blank_text (s : str) : Prop := Forall (fun c => 9 <= c <= 13 \/ c = 32) s.
Definition hex_mark (base : N) (s : str) : Prop :=
  s = [] \/ (base = 16 /\ In s [[48; 120]; [48; 88]; [48; 120; 95]; [48; 88; 95]]).

Definition int_literal (w : world) (base : N) (s : str) (z : Z) : Prop :=
  exists t b1 sign mark ds b2 n,
    Forall2 (ascii_for w) s t /\ t = b1 ++ sign ++ mark ++ ds ++ b2
    /\ blank_text b1 /\ blank_text b2 /\ hex_mark base mark /\ grouped base ds n
    /\ ((In sign [[]; [43]] /\ z = Z.of_N n) \/ (sign = [45] /\ z = Z.opp (Z.of_N n))).

(** A receipt's serial field read as a number: one leading minus sign is
    ignored. *)
Definition serial_reads (w : world) (s : str) (z : Z) : Prop :=
  exists b, (s = 45 :: b \/ (s = b /\ hd_error s <> Some 45))
    /\ (int_literal w 16 b z \/ int_literal w 10 b z).

(** A serial field that shows a number in plain notation. *)
Definition serial_notation (base : N) (s : str) (n : N) : Prop :=
  exists b, numeral base b n /\ (s = b \/ s = 45 :: b).

(** PEM texts: labelled first and last line, base64 data in between. *)
Definition pem_text (label : str) (lines : list str) (tail : str) : str :=
  lit "-----BEGIN " ++ label ++ lit "-----" ++ [c_nl] ++ List.concat (map (fun l => l ++ [c_nl]) lines)
  ++ lit "-----END " ++ label ++ lit "-----" ++ tail.
Definition cert_label : str := lit "CERTIFICATE".
Definition key_label : str := lit "PUBLIC KEY".

Definition pem_char (c : N) : Prop :=
  65 <= c <= 90 \/ 97 <= c <= 122 \/ 48 <= c <= 57 \/ c = 43 \/ c = 47 \/ c = 61.
Definition pem_data (s : str) : Prop := Forall pem_char s.
Definition pem_line (s : str) : Prop := pem_data s /\ s <> [] /\ (List.length s <= 64)%nat.

(** What is assumed of the library that reads and writes PEM texts: an object
    that was read is written as a PEM text, and a PEM text with the same data is
    read as the same object wherever its lines break. *)
Definition pem_codec (label : str) (load : str -> option bytes) (dump : bytes -> str) : Prop :=
  forall t c, load t = Some c ->
  exists ls, dump c = pem_text label ls [c_nl] /\ Forall pem_data ls /\ List.concat ls <> []
    /\ forall ls', Forall pem_line ls' -> List.concat ls' = List.concat ls -> load (pem_text label ls' []) = Some c.
Definition pem_ok (w : world) : Prop :=
  pem_codec cert_label (w_load_cert w) (w_cert_pem w) /\ pem_codec key_label (w_load_pubkey w) (w_pubkey_pem w).
