(** What it means for a sequence of receipts to be a valid data collection
    protocol (DEP): conditions on positions of the sequence, independent of how
    the verifier works through it. *)
From Coq Require Import Floats.SpecFloat.
From Verif Require Import PyBase World Codec PyFloat PyTime Algo Receipt SpecReceipt ReceiptFacts
  KeyStore VerifyReceipt State.
Open Scope N_scope.

(** ** Single receipts *)

(** The text [s] denotes the receipt [r], see [jws_text]. *)
Definition reads (w : world) (s : str) (r : receipt) : Prop :=
  exists f sg, jws_text w s f sg /\ is_receipt w f (Some (es256_header, sg)) r.

(** The three types of receipts, by what the turnover counter field decodes to. *)
Definition training (r : receipt) : Prop := b64decode (r_encTC r) = Ok (lit "TRA").
Definition cancellation (r : receipt) : Prop := b64decode (r_encTC r) = Ok (lit "STO").
Definition standard (r : receipt) : Prop := ~ training r /\ ~ cancellation r.

Definition is_zero (f : float) : Prop := exists s, f = S754_zero s.
Definition zero (r : receipt) : Prop :=
  is_zero (r_sumA r) /\ is_zero (r_sumB r) /\ is_zero (r_sumC r) /\ is_zero (r_sumD r) /\ is_zero (r_sumE r).

(** The marker "Sicherheitseinrichtung ausgefallen" in place of a signature. *)
Definition marker : str := lit "U2ljaGVyaGVpdHNlaW5yaWNodHVuZyBhdXNnZWZhbGxlbg".
Definition unsigned (r : receipt) : Prop := r_signature r = Some marker.

Definition closed (r : receipt) : Prop := r_zda r = lit "AT0".

(** A receipt that ends an outage of the signature device, and that may start a
    register. *)
Definition plain_zero (r : receipt) : Prop := ~ unsigned r /\ zero r /\ standard r.

(** ** Signatures *)

(** The number a serial is read as: hexadecimal or decimal, without sign. *)
Definition unsigned_serial (s : str) : str :=
  match s with c :: r => if c =? c_dash then r else s | [] => s end.
Definition serial_id (w : world) (base : N) (s keyId : str) : Prop :=
  exists z, py_int w base (unsigned_serial s) = Some z /\ keyId = fmt_x z.
Definition names_serial (w : world) (s : str) (c : cert) : Prop :=
  serial_id w 16 s (fmt_x (Z.abs (w_serial w c))) \/ serial_id w 10 s (fmt_x (Z.abs (w_serial w c))).

(** The certificate of a group may be used for a receipt. *)
Definition cert_fits (w : world) (v : verifier) (r : receipt) : Prop :=
  forall c, v_cert v = Some c -> closed r \/ names_serial w (r_certSerial r) c.

(** A key store entry. *)
Definition has_key (ks : keystore) (keyId : str) (k : pubkey) : Prop := getKey ks keyId = Some k.

(** The key that must have signed a receipt: that of the certificate, or the one
    in the key store under the receipt's key ID (closed systems) or its serial,
    read as hexadecimal number or, failing that, as decimal number. *)
Definition key_of (w : world) (v : verifier) (r : receipt) (k : pubkey) : Prop :=
  match v_cert v with
  | Some c => k = w_cert_pubkey w c
  | None =>
      exists ks, v_store v = Some ks /\
      ((closed r /\ has_key ks (r_certSerial r) k)
       \/ (~ closed r /\
           ((exists i, serial_id w 16 (r_certSerial r) i /\ has_key ks i k)
            \/ ((forall i, serial_id w 16 (r_certSerial r) i -> getKey ks i = None)
                /\ exists i, serial_id w 10 (r_certSerial r) i /\ has_key ks i k))))
  end.

(** The signature is valid over header and payload. *)
Definition signed_by (w : world) (k : pubkey) (r : receipt) : Prop :=
  exists pb sg sb,
    utf8_encode (payload_text (r_fields r)) = Ok pb
    /\ r_signature r = Some sg /\ seg_decodes sg sb
    /\ w_es256_verify w k (b64url_nopad es256_header ++ [c_dot] ++ b64url_nopad pb) sb = true.

Definition authentic (w : world) (v : verifier) (r : receipt) : Prop :=
  cert_fits w v r /\ (unsigned r \/ exists k, key_of w v r k /\ signed_by w k r).

(** Verifiers made from a certificate or from a key store. *)
Definition proper (v : verifier) : Prop :=
  (exists c, v = fromCert c) \/ (exists ks, v = fromKeyStore ks).

(** ** Sequences *)

(** A receipt with its text and the verifier in charge of it. *)
Record item : Type := Item { i_jws : str; i_rec : receipt; i_ver : verifier }.

Definition item_of (w : world) (b : bytes * verifier) (i : item) : Prop :=
  utf8_decode (fst b) = Ok (i_jws i) /\ reads w (i_jws i) (i_rec i) /\ i_ver i = snd b.

(** A receipt that precedes a sequence: its text and contents. *)
Definition past : Type := str * receipt.

(** Each item with its predecessor. *)
Fixpoint linked (p : option past) (l : list item) : list (option past * item) :=
  match l with
  | [] => []
  | i :: r => (p, i) :: linked (Some (i_jws i, i_rec i)) r
  end.

(** The last receipt recorded in a register's state. *)
Definition past_of (w : world) (reg : regstate) (p : option past) : Prop :=
  match p with
  | None => s_last reg = None \/ s_last reg = Some []
  | Some (s, r) => s_last reg = Some s /\ s <> [] /\ reads w s r
  end.

(** The start receipt of the previous register in a cluster. *)
Definition absent (o : option str) : Prop := o = None \/ o = Some [].
Definition cluster_past (w : world) (prevStart : option str) (p : option past) : Prop :=
  match p with
  | None => absent prevStart
  | Some (s, r) => prevStart = Some s /\ s <> [] /\ reads w s r
  end.

(** Chaining *)
Definition chain_value (w : world) (s : str) (v : str) : Prop :=
  exists b, utf8_encode s = Ok b /\ v = b64encode (firstn 8 (w_sha256 w b)).
Definition chained (w : world) (pi : option past * item) : Prop :=
  chain_value w (match fst pi with Some (s, _) => s | None => r_registerId (i_rec (snd pi)) end)
    (r_previousChain (i_rec (snd pi))).
Definition chain_rule (w : world) (next : option str) (p : option past) (l : list item) : Prop :=
  match l with
  | [] => True
  | i :: r =>
      (match truthy next with
       | Some v => r_previousChain (i_rec i) = v
       | None => chained w (p, i)
       end)
      /\ Forall (chained w) (linked (Some (i_jws i, i_rec i)) r)
  end.

(** Register, system type and time *)
Definition not_before (a b : dt) : Prop := dt_ltb a b = false.
Definition consistent (pi : option past * item) : Prop :=
  forall s p, fst pi = Some (s, p) ->
    r_registerId (i_rec (snd pi)) = r_registerId p
    /\ (closed (i_rec (snd pi)) <-> closed p)
    /\ not_before (r_dateTime (i_rec (snd pi))) (r_dateTime p).

(** Start receipts *)
Definition start_rule (w : world) (prevStart : option str) (p : option past) (l : list item) : Prop :=
  forall i r, p = None -> l = i :: r ->
    plain_zero (i_rec i)
    /\ forall s q, cluster_past w prevStart (Some (s, q)) -> closed (i_rec i) /\ closed q.

(** The predecessor the first receipt of a register is compared and chained to *)
Definition effective_past (w : world) (prevStart : option str) (p q : option past) : Prop :=
  match p with
  | Some _ => q = p
  | None => cluster_past w prevStart q
  end.

(** Receipt IDs: recorded ones must not be reused. A receipt without any
    predecessor is not compared to the recorded IDs. *)
Fixpoint fresh_ids (w : world) (u : used) (checked : bool) (ids : list str) : Prop :=
  match ids with
  | [] => True
  | i :: r => (checked = true -> used_check w u i = Ok tt) /\ fresh_ids w (used_add u i) true r
  end.
Definition ids (l : list item) : list str := map (fun i => r_receiptId (i_rec i)) l.
Definition is_some {A} (o : option A) : bool := match o with Some _ => true | None => false end.

(** Turnover: the amounts of the receipts in cents, see C10 for [cents]. *)
Definition turnover (l : list item) (z : Z) : Prop :=
  exists cs, Forall2 (fun i c => (training (i_rec i) /\ c = 0%Z)
                               \/ (~ training (i_rec i) /\ cents (i_rec i) = Ok c)) l cs
    /\ z = fold_right Z.add 0%Z cs.
Definition decrypts (w : world) (k : bytes) (r : receipt) (z : Z) : Prop := decryptTC w r k = Ok z.
Definition counter_rule (w : world) (key : option bytes) (c : Z) (l : list item) : Prop :=
  forall k, key = Some k ->
    (forall i, In i l -> ~ training (i_rec i) -> List.length k = 32%nat /\ exists z, cents (i_rec i) = Ok z)
    /\ (forall l1 i l2, l = l1 ++ i :: l2 -> standard (i_rec i) ->
          exists z, turnover (l1 ++ [i]) z /\ decrypts w k (i_rec i) (c + z)%Z).

(** Outages of the signature device: an unsigned receipt followed by a signed
    one other than a plain zero receipt calls for a plain zero receipt. *)
Definition calls_for_restore (p : option past) (r : receipt) : Prop :=
  exists s q, p = Some (s, q) /\ unsigned q /\ ~ unsigned r /\ ~ (zero r /\ standard r).
Fixpoint last_of (p : option past) (l : list item) : option past :=
  match l with
  | [] => p
  | i :: r => last_of (Some (i_jws i, i_rec i)) r
  end.
Definition restore_rule (need : bool) (p : option past) (l : list item) : Prop :=
  (need = true -> forall i r, l = i :: r -> plain_zero (i_rec i))
  /\ (forall l1 i j l2, l = l1 ++ i :: j :: l2 -> calls_for_restore (last_of p l1) (i_rec i) ->
        plain_zero (i_rec j)).

(** All together. [p] is the last receipt of the register, [q] the receipt the
    first one is compared to. *)
Definition valid_sequence (w : world) (key : option bytes) (prevStart : option str)
    (reg : regstate) (u : used) (p : option past) (l : list item) : Prop :=
  Forall (fun i => authentic w (i_ver i) (i_rec i)) l
  /\ start_rule w prevStart p l
  /\ restore_rule (s_restore reg) p l
  /\ counter_rule w key (s_counter reg) l
  /\ (l <> [] -> exists q, effective_past w prevStart p q
        /\ Forall consistent (linked q l)
        /\ chain_rule w (s_chain reg) q l
        /\ fresh_ids w u (is_some q) (ids l)).

(** The state of the register afterwards. *)
Definition register_after (key : option bytes) (reg : regstate) (p : option past) (l : list item)
    (reg' : regstate) : Prop :=
  (l = [] -> reg' = reg)
  /\ forall l0 i, l = l0 ++ [i] ->
       s_last reg' = Some (i_jws i)
       /\ (p = None -> forall j r, l = j :: r -> s_start reg' = Some (i_jws j))
       /\ (p <> None -> s_start reg' = s_start reg)
       /\ (s_restore reg' = true <-> calls_for_restore (last_of p l0) (i_rec i))
       /\ (truthy (s_chain reg) = None -> s_chain reg' = s_chain reg)
       /\ (truthy (s_chain reg) <> None -> s_chain reg' = None)
       /\ (key = None -> s_counter reg' = s_counter reg)
       /\ (key <> None -> exists z, turnover l z /\ s_counter reg' = (s_counter reg + z)%Z).

(** The used IDs afterwards. *)
Definition used_after (u : used) (l : list item) : used := fold_left used_add (ids l) u.
