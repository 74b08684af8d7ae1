(** Overrides that make a receipt's text unreadable, and the exceptions that are due. *)
From Verif Require Import PyBase World Codec PyTime Algo SpecReceipt SpecReading CashReg Override SpecOverride.
Open Scope N_scope.

Definition only_zda (x : str) : override := Override (Some x) None None None None None None None None None None None None None None None None.
Definition only_tc (x : str) : override := Override None None None None None None None None None (Some x) None None None None None None None.
Definition only_prefix (x : str) : override := Override None None None None None None None None None None None None None None (Some x) None None.
Definition only_header (x : str) : override := Override None None None None None None None None None None None None None None None (Some x) None.

(** One of the five amounts *)
Inductive only_amount (x : str) : override -> Prop :=
| oa_a : only_amount x (only_sum x)
| oa_b : only_amount x (Override None None None None None (Some x) None None None None None None None None None None None)
| oa_c : only_amount x (Override None None None None None None (Some x) None None None None None None None None None None)
| oa_d : only_amount x (Override None None None None None None None (Some x) None None None None None None None None None)
| oa_e : only_amount x (Override None None None None None None None None (Some x) None None None None None None None None).

(** One of the elements of the payload *)
Inductive only_element (x : str) : override -> Prop :=
| oe_zda : only_element x (only_zda x)
| oe_register : only_element x (only_register x)
| oe_id : only_element x (only_id x)
| oe_time : only_element x (only_time x)
| oe_amount o : only_amount x o -> only_element x o
| oe_tc : only_element x (only_tc x)
| oe_serial : only_element x (only_serial x)
| oe_chain : only_element x (only_chain x).

(** The receipt asked for by the request [q] is made with an override, and its text is
    [t]. *)
Inductive garbled (w : world) (q : request) (t : str) : override -> exn -> Prop :=
| gb_header h : h <> es256_header -> garbled w q t (only_header h) (AlgorithmMismatch t)
| gb_unknown p : alg_text w p -> p <> lit "R1" -> garbled w q t (only_prefix p) (UnknownAlgorithm t)
| gb_prefix p : ~ alg_text w p -> garbled w q t (only_prefix p) (MalformedReceipt t)
| gb_separator x o : only_element x o -> In c_us x -> garbled w q t o (MalformedReceipt t)
| gb_dash x : In c_dash x -> garbled w q t (only_zda x) (MalformedReceipt t)
| gb_no_id : garbled w q t (only_id []) (MalformedReceipt (lit "Unknown Receipt"))
| gb_no_register : garbled w q t (only_register []) (MalformedReceipt (q_id q))
| gb_zda x : ~ zda_text w x -> ~ In c_us x -> ~ In c_dash x -> garbled w q t (only_zda x) (MalformedReceipt (q_id q))
| gb_provider x : zda_text w x -> ~ (x = lit "AT0" <-> sys_zda (q_sys q) = lit "AT0") ->
    garbled w q t (only_zda x) (InvalidCertificateProvider (q_id q))
| gb_time x : (forall d, ~ time_text w x d) -> ~ In c_us x -> garbled w q t (only_time x) (MalformedReceipt (q_id q))
| gb_amount x o : only_amount x o -> ~ amount_text w x -> ~ In c_us x -> garbled w q t o (MalformedReceipt (q_id q))
| gb_no_serial : garbled w q t (only_serial []) (MalformedReceipt (q_id q))
| gb_serial x : x <> [] -> ~ known_serial w x -> ~ In c_us x -> garbled w q t (only_serial x) (CertSerialInvalid (q_id q))
| gb_key x : cert_serial_text w x -> sys_zda (q_sys q) = lit "AT0" -> ~ In c_us x -> garbled w q t (only_serial x) (InvalidCertificateProvider (q_id q))
| gb_certificate x : key_id_text w x -> sys_zda (q_sys q) <> lit "AT0" -> ~ In c_us x -> garbled w q t (only_serial x) (InvalidCertificateProvider (q_id q))
| gb_no_counter x : (forall c, In c x -> c = c_eq) -> garbled w q t (only_tc x) (MalformedReceipt t)
| gb_counter x c : In c x -> c <> c_eq -> ~ tc_text x -> ~ In c_us x -> garbled w q t (only_tc x) (MalformedReceipt (q_id q))
| gb_chain x : (forall b, b64decode x = Ok b -> List.length b <> 8%nat) -> ~ In c_us x -> garbled w q t (only_chain x) (MalformedReceipt (q_id q))
| gb_segment s : ~ one_segment s -> garbled w q t (only_signature s) (MalformedReceipt t)
| gb_signature s : one_segment s -> (forall b, ~ seg_decodes s b) -> garbled w q t (only_signature s) (MalformedReceipt (q_id q)).
