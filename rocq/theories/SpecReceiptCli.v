(** What is said about receipt.py and verify_receipt.py. *)
From Verif Require Import PyBase World Codec CodecFacts2 Receipt Json KeyStore VerifyReceipt SpecReceipt ReceiptFacts RoundTrip RoundTrip2 SpecDep StateCli Url ReceiptCli.
Open Scope N_scope.

(** A text of lines *)
Definition lines_text (ls : list str) : str := List.concat (map (fun l => l ++ [c_nl]) ls).
Definition single_line (s : str) : Prop := ~ In c_nl s /\ ~ In 13 s.

(** The lines of a text end at a line feed, a carriage return, or both. The last one
    may lack this. *)
Definition line_break (b rest : str) : Prop := b = [c_nl] \/ b = [13; c_nl] \/ (b = [13] /\ hd_error rest <> Some c_nl).
Inductive has_lines : str -> list str -> Prop :=
| lines_none : has_lines [] []
| lines_last l : l <> [] -> single_line l -> has_lines l [l]
| lines_next l b t ls : single_line l -> line_break b t -> has_lines t ls -> has_lines (l ++ b ++ t) (l :: ls).

(** The receipts verify_receipt.py is given *)
Definition given_lines (i : receipt_input) (ls : list str) : Prop :=
  match i with V_argument s => ls = [s] | V_stdin t => has_lines t ls end.

(** [t] is a receipt in canonical encoding, none of its fields has a line break. *)
Definition one_line (w : world) (t : str) (r : receipt) : Prop :=
  (exists h p g, t = h ++ [c_dot] ++ p ++ [c_dot] ++ g /\ canon_seg h /\ canon_seg p /\ canon_seg g)
  /\ reads w t r /\ Forall single_line (csv_fields (r_fields r)).

(** [s] is the receipt in some format. *)
Definition shown (w : world) (f : format) (r : receipt) (s : str) : Prop :=
  match f with
  | F_jws => toJWSString r (lit "R1") = Ok s
  | F_qr => toBasicCode r (lit "R1") = Ok s
  | F_ocr => toOCRCode r (lit "R1") = Ok s
  | F_url => toURLHash w r (lit "R1") = Ok s
  | F_csv => toCSV r (lit "R1") = Ok s
  end.

(** A URL of the receipt: the network knows it. *)
Definition url_of (w : world) (fetch : str -> result str) (r : receipt) (s : str) : Prop :=
  single_line s /\ no_edge_space w s /\ exists code, toBasicCode r (lit "R1") = Ok code /\ fetch s = Ok code.

(** [s] is a line from which the receipt can be read. *)
Definition given (w : world) (py : pygen) (fetch : str -> result str) (f : format) (r : receipt) (s : str) : Prop :=
  match f with
  | F_jws => toJWSString r (lit "R1") = Ok s
  | F_qr => toBasicCode r (lit "R1") = Ok s
  | F_csv => toCSV r (lit "R1") = Ok s /\ csv_safe w (r_fields r)
  | F_ocr => toOCRCode r (lit "R1") = Ok s /\ py = Py2 /\ b64decode (r_encTC r) <> Ok []
             /\ canon64 (r_encTC r) /\ canon64 (r_previousChain r)
  | F_url => url_of w fetch r s
  end.

(** If it is a URL, it also has the receipt's hash. *)
Definition hashed (w : world) (f : format) (r : receipt) (s : str) : Prop :=
  match f with
  | F_url => exists h, toURLHash w r (lit "R1") = Ok h /\ getURLHashFromURL s = Some h
  | _ => True
  end.

(** Formats that are read without network, and by both versions of Python *)
Definition plain_format (f : format) : Prop := match f with F_jws | F_qr | F_csv => True | _ => False end.

(** The line is a receipt signed with the right key of the key store. *)
Definition parsed (w : world) (f : format) (s : str) (r : receipt) : Prop :=
  match f with
  | F_jws => fromJWSString w s = Ok (r, lit "R1")
  | F_qr => fromBasicCode w s = Ok (r, lit "R1")
  | F_csv => fromCSV w s = Ok (r, lit "R1")
  | _ => False
  end.
Definition genuine (w : world) (ks : keystore) (f : format) (s : str) : Prop :=
  exists r k, parsed w f s r /\ ~ unsigned r /\ key_of w (fromKeyStore ks) r k /\ signed_by w k r.
