(** Why a receipt's text cannot be read, and which exception this is reported as: a
    classification of faulty texts by the grammar of SpecReceipt.v, independent of
    the parser. *)
From Verif Require Import PyBase World Codec PyTime Algo SpecReceipt.
Open Scope N_scope.

(** Three segments: header, payload and signature. The first two are texts in base 64
    without padding at the end; of the signature only the end is looked at. *)
Definition jws_parts (s header payload sg : str) : Prop :=
  exists h p hb pb,
    s = h ++ [c_dot] ++ p ++ [c_dot] ++ sg /\ ~ In c_dot sg /\ ends_with_char c_eq sg = false
    /\ seg_decodes h hb /\ utf8_encode header = Ok hb
    /\ seg_decodes p pb /\ utf8_encode payload = Ok pb.

(** The names of the algorithm and the provider, and eleven other elements *)
Definition elements (alg : str) (f : fields) : list str :=
  [[]; alg ++ [c_dash] ++ f_zda f; f_register f; f_receipt f; f_time f;
   f_a f; f_b f; f_c f; f_d f; f_e f; f_tc f; f_serial f; f_chain f].
Definition payload_parts (payload alg : str) (f : fields) : Prop :=
  payload = join [c_us] (elements alg f) /\ Forall (fun x => ~ In c_us x) (elements alg f)
  /\ ~ In c_dash alg /\ ~ In c_dash (f_zda f).

(** Names of algorithms: R and a number *)
Definition alg_text (w : world) (s : str) : Prop :=
  exists c ds nl, s = 82 :: c :: ds ++ nl /\ final_nl nl /\ digit19 c /\ Forall (digit w) ds.

Definition known_serial (w : world) (s : str) : Prop := key_id_text w s \/ cert_serial_text w s.
Definition right_provider (w : world) (f : fields) : Prop :=
  (f_zda f = lit "AT0" /\ key_id_text w (f_serial f)) \/ (f_zda f <> lit "AT0" /\ cert_serial_text w (f_serial f)).

(** The elements that are looked at before the certificate's serial number *)
Definition sound_fields (w : world) (f : fields) : Prop :=
  f_register f <> [] /\ zda_text w (f_zda f) /\ (exists d, time_text w (f_time f) d)
  /\ amount_text w (f_a f) /\ amount_text w (f_b f) /\ amount_text w (f_c f) /\ amount_text w (f_d f) /\ amount_text w (f_e f)
  /\ (exists b, b64decode (f_tc f) = Ok b) /\ (exists b, b64decode (f_chain f) = Ok b)
  /\ f_serial f <> [].

(** Faults of elements. They are reported with the receipt's ID if there is one. *)
Inductive field_fault (w : world) (f : fields) : exn -> Prop :=
| ff_no_id : f_receipt f = [] -> field_fault w f (MalformedReceipt (lit "Unknown Receipt"))
| ff_unsound : f_receipt f <> [] -> ~ sound_fields w f -> field_fault w f (MalformedReceipt (f_receipt f))
| ff_serial : f_receipt f <> [] -> sound_fields w f -> ~ known_serial w (f_serial f) -> field_fault w f (CertSerialInvalid (f_receipt f))
| ff_provider : f_receipt f <> [] -> sound_fields w f -> known_serial w (f_serial f) -> ~ right_provider w f ->
    field_fault w f (InvalidCertificateProvider (f_receipt f))
| ff_counter : f_receipt f <> [] -> sound_fields w f -> right_provider w f -> ~ tc_text (f_tc f) -> field_fault w f (MalformedReceipt (f_receipt f)).

(** Faults beyond the form of the text, whose name is [label]: no turnover counter at
    all, faulty elements, an unreadable signature, and a chaining value of the wrong
    length, in this order *)
Definition has_counter (f : fields) : Prop := exists c, In c (f_tc f) /\ c <> c_eq.
Inductive rest_fault (w : world) (label : str) (f : fields) (signed : Prop) : exn -> Prop :=
| rf_no_counter : ~ has_counter f -> rest_fault w label f signed (MalformedReceipt label)
| rf_fields e : has_counter f -> field_fault w f e -> rest_fault w label f signed e
| rf_signature : has_counter f -> wf_fields w f -> ~ signed -> rest_fault w label f signed (MalformedReceipt (f_receipt f))
| rf_chain cb : has_counter f -> wf_fields w f -> signed -> b64decode (f_chain f) = Ok cb -> List.length cb <> 8%nat ->
    rest_fault w label f signed (MalformedReceipt (f_receipt f)).

(** Faults of texts in JWS form. Those that leave the receipt's ID unknown are reported
    with the text. *)
Inductive text_fault (w : world) (s : str) : exn -> Prop :=
| tf_jws : (forall h p sg, ~ jws_parts s h p sg) -> text_fault w s (MalformedReceipt s)
| tf_payload h p sg : jws_parts s h p sg -> (forall alg f, ~ payload_parts p alg f) -> text_fault w s (MalformedReceipt s)
| tf_alg h p sg alg f : jws_parts s h p sg -> payload_parts p alg f -> ~ alg_text w alg -> text_fault w s (MalformedReceipt s)
| tf_unknown h p sg alg f : jws_parts s h p sg -> payload_parts p alg f -> alg_text w alg -> alg <> lit "R1" -> text_fault w s (UnknownAlgorithm s)
| tf_header h p sg f : jws_parts s h p sg -> payload_parts p (lit "R1") f -> h <> es256_header -> text_fault w s (AlgorithmMismatch s)
| tf_rest p sg f e : jws_parts s es256_header p sg -> payload_parts p (lit "R1") f -> rest_fault w s f (exists b, seg_decodes sg b) e -> text_fault w s e.

(** QR codes: the same elements and a signature in plain base 64 *)
Definition code_parts (s alg : str) (f : fields) (g : str) : Prop :=
  s = join [c_us] (elements alg f ++ [g]) /\ Forall (fun x => ~ In c_us x) (elements alg f ++ [g])
  /\ ~ In c_dash alg /\ ~ In c_dash (f_zda f).
Inductive code_fault (w : world) (s : str) : exn -> Prop :=
| cf_code : (forall alg f g, ~ code_parts s alg f g) -> code_fault w s (MalformedReceipt s)
| cf_alg alg f g : code_parts s alg f g -> ~ alg_text w alg -> code_fault w s (MalformedReceipt s)
| cf_unknown alg f g : code_parts s alg f g -> alg_text w alg -> alg <> lit "R1" -> code_fault w s (UnknownAlgorithm s)
| cf_signature f g : code_parts s (lit "R1") f g -> (forall b, b64decode g <> Ok b) -> code_fault w s (MalformedReceipt s)
| cf_rest f g b e : code_parts s (lit "R1") f g -> b64decode g = Ok b -> rest_fault w s f True e -> code_fault w s e.

(** Faults of the text [t] printed for the algorithm [alg], the elements [f], the header
    [h] and the signature [sg], in terms of these alone *)
Definition one_segment (sg : str) : Prop := ~ In c_dot sg /\ ends_with_char c_eq sg = false.
Definition separable (alg : str) (f : fields) : Prop :=
  Forall (fun x => ~ In c_us x) (elements alg f) /\ ~ In c_dash alg /\ ~ In c_dash (f_zda f).
Inductive printed_fault (w : world) (alg : str) (f : fields) (h sg t : str) : exn -> Prop :=
| pf_segment : ~ one_segment sg -> printed_fault w alg f h sg t (MalformedReceipt t)
| pf_separator : one_segment sg -> ~ separable alg f -> printed_fault w alg f h sg t (MalformedReceipt t)
| pf_alg : one_segment sg -> separable alg f -> ~ alg_text w alg -> printed_fault w alg f h sg t (MalformedReceipt t)
| pf_unknown : one_segment sg -> separable alg f -> alg_text w alg -> alg <> lit "R1" -> printed_fault w alg f h sg t (UnknownAlgorithm t)
| pf_header : one_segment sg -> separable alg f -> alg = lit "R1" -> h <> es256_header -> printed_fault w alg f h sg t (AlgorithmMismatch t)
| pf_rest e : one_segment sg -> separable alg f -> alg = lit "R1" -> h = es256_header -> rest_fault w t f (exists b, seg_decodes sg b) e ->
    printed_fault w alg f h sg t e.
