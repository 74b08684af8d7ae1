(** Properties of key stores, PEM texts and URL hashes. *)
From Verif Require Import PyBase World Codec PyFloat Algo Receipt Json Pem KeyStore VerifyReceipt Url SpecKeys SpecStore SpecUrl
  IntFacts PemFacts KeyFacts UrlFacts ExampleWorld ExampleReceipts ExampleDep ExampleKeys.
Open Scope N_scope.
Open Scope py_scope.

(** ** C36 Key lookup by serial *)

(** A receipt that shows the serial number of a stored certificate in hexadecimal
    notation is verified with this certificate. *)
Theorem C36_hexadecimal w ks c r p :
  holds_cert w ks c -> r_zda r <> lit "AT0" ->
  serial_notation 16 (r_certSerial r) (Z.abs_N (w_serial w c)) ->
  verify w (fromKeyStore ks) r p = verify w (fromCert c) r p.
Proof. exact (found_hex w ks c r p). Qed.
Print Assumptions C36_hexadecimal.

(** The same for decimal notation, unless there is a key for the number that the
    field shows when it is read in hexadecimal notation. *)
Theorem C36_decimal w ks c r p :
  holds_cert w ks c -> r_zda r <> lit "AT0" ->
  serial_notation 10 (r_certSerial r) (Z.abs_N (w_serial w c)) ->
  (forall n, serial_notation 16 (r_certSerial r) n -> n <> Z.abs_N (w_serial w c) ->
     getKey ks (numSerialToKeyId (Z.of_N n)) = None) ->
  verify w (fromKeyStore ks) r p = verify w (fromCert c) r p.
Proof. exact (found_decimal w ks c r p). Qed.
Print Assumptions C36_decimal.

(** That condition is needed: the key of another certificate is used although the
    right one is in the store. *)
Theorem C36_decimal_refuted : exists w ops c r p x,
  Forall from_pem ops /\ holds_cert w (store_run w ops) c /\ r_zda r <> lit "AT0"
  /\ serial_notation 10 (r_certSerial r) (Z.abs_N (w_serial w c))
  /\ verify w (fromCert c) r p = Ok x
  /\ verify w (fromKeyStore (store_run w ops)) r p = Err (InvalidSignature (r_receiptId r)).
Proof.
  exists toy_world, ex_ops2, ex_cert16, ex_dec_rec, (lit "R1"), (ex_dec_rec, lit "R1").
  split; [repeat constructor|]. split; [vm_compute; reflexivity|]. split; [discriminate|]. split; [exact ex_16|].
  split; vm_compute; reflexivity.
Qed.
Print Assumptions C36_decimal_refuted.

(** A certificate given along with a receipt is used only if the receipt's serial
    field can be read as its serial number. *)
Theorem C36_certificate w c r p x : verify w (fromCert c) r p = Ok x -> r_zda r <> lit "AT0" ->
  serial_reads w (r_certSerial r) (Z.abs (w_serial w c)).
Proof. exact (cert_used w c r p x). Qed.
Print Assumptions C36_certificate.

Theorem C36_mismatch w c r : r_zda r <> lit "AT0" -> r_certSerial r <> [] ->
  ~ serial_reads w (r_certSerial r) (Z.abs (w_serial w c)) ->
  verify w (fromCert c) r (lit "R1") = Err (CertSerialMismatch (r_receiptId r)).
Proof. exact (cert_refused w c r). Qed.
Print Assumptions C36_mismatch.

(** The serial number 16 in either notation; a certificate with another number. *)
Example C36_example :
  holds_cert toy_world (store_run toy_world ex_ops) ex_cert16
  /\ serial_notation 16 (r_certSerial ex_hex_rec) (Z.abs_N (w_serial toy_world ex_cert16))
  /\ serial_notation 10 (r_certSerial ex_dec_rec) (Z.abs_N (w_serial toy_world ex_cert16))
  /\ verify toy_world (fromKeyStore (store_run toy_world ex_ops)) ex_hex_rec (lit "R1") = Ok (ex_hex_rec, lit "R1")
  /\ verify toy_world (fromKeyStore (store_run toy_world ex_ops)) ex_dec_rec (lit "R1") = Ok (ex_dec_rec, lit "R1")
  /\ verify toy_world (fromCert ex_cert) ex_dec_rec (lit "R1") = Err (CertSerialMismatch (lit "9")).
Proof.
  split; [vm_compute; reflexivity|]. split; [exact ex_10|]. split; [exact ex_16|]. split; [vm_compute; reflexivity|].
  split; vm_compute; reflexivity.
Qed.

(** ** C37 Key stores *)

(** After any history of operations, the store contains under an ID what the last
    operation on this ID has left there. *)
Theorem C37_map w ops i e : stored w ops i e ->
  getKey (store_run w ops) i = option_map fst e
  /\ getCert (store_run w ops) i = (match e with Some (_, c) => c | None => None end)
  /\ (In i (map fst (store_run w ops)) <-> e <> None).
Proof. exact (store_content w ops i e). Qed.
Print Assumptions C37_map.

Theorem C37_map_total w ops i : exists e, stored w ops i e /\ forall e', stored w ops i e' -> e' = e.
Proof.
  exact (let '(ex_intro _ e H) := store_total w ops i in
         ex_intro _ e (conj H (fun e' H' => stored_fun w ops i e' e H' H))).
Qed.
Print Assumptions C37_map_total.

(** Written to JSON and read back, a store filled from PEM texts is the same. *)
Theorem C37_json w ops key : pem_ok w -> Forall from_pem ops ->
  readStoreFromJson w (writeStoreToJson w (store_run w ops) key) = Ok (store_run w ops).
Proof. exact (store_json w ops key). Qed.
Print Assumptions C37_json.

(** So is the key of the turnover counter that is written along. *)
Theorem C37_json_key w ks k : is_bytes k ->
  loadKeyFromJson (writeStoreToJson w ks (Some (b64encode k))) = Ok (Some k).
Proof. exact (store_json_key w ks k). Qed.
Print Assumptions C37_json_key.

(** With putKey a certificate can be stored under any ID; then this is false. *)
Theorem C37_json_refuted : exists w ops i ks,
  pem_ok w /\ readStoreFromJson w (writeStoreToJson w (store_run w ops) None) = Ok ks
  /\ getKey (store_run w ops) i <> None /\ getKey ks i = None.
Proof.
  exists toy_world, [SPut (lit "5A") [7] (Some ex_cert)], (lit "5A"), [(lit "5a", KeyTuple [7] (Some ex_cert))].
  split; [exact toy_pem_ok|]. split; [vm_compute; reflexivity|]. split; [discriminate|reflexivity].
Qed.
Print Assumptions C37_json_refuted.

Example C37_example :
  pem_ok toy_world /\ Forall from_pem (ex_ops2 ++ [SDel (lit "10")])
  /\ store_run toy_world (ex_ops2 ++ [SDel (lit "10")])
     = [(lit "U:ATU12345678-K1", KeyTuple [8] None); (lit "16", KeyTuple [9] (Some ex_cert22))]
  /\ stored toy_world (ex_ops2 ++ [SDel (lit "10")]) (lit "U:ATU12345678-K1") (Some ([8], None)).
Proof.
  split; [exact toy_pem_ok|]. split; [repeat constructor|]. split; [vm_compute; reflexivity|].
  left. exists [SPEMCert (ex_pem ex_cert16)], (SPEMKey (lit "U:ATU12345678-K1") (pem_text key_label [b64encode [8]] [])),
    [SPEMCert (ex_pem ex_cert22); SDel (lit "10")]. split; [reflexivity|]. split.
  - apply affects_key. vm_compute. reflexivity.
  - intros op e [<-|[<-|[]]] A; [|inversion A].
    assert (forall i, affects toy_world (SPEMCert (ex_pem ex_cert22)) i e -> i = lit "16") as B.
    { intros i X. inversion X as [| |pem c L Ei Ee|]; subst. cut (c = ex_cert22); [now intros ->|].
      assert (loadCert toy_world (ex_pem ex_cert22) = Ok ex_cert22) as L' by (vm_compute; reflexivity).
      rewrite L' in L. now injection L. }
    apply B in A. discriminate A.
Qed.

(** ** C38 PEM formatting *)

(** Headers and line breaks put around base64 data give a text with the data in
    lines of 64 characters, the last one being possibly shorter. *)
Theorem C38_lines s : s <> [] -> pem_data s ->
  exists ls, addPEMCertHeaders s = pem_text cert_label ls [] /\ addPEMPubKeyHeaders s = pem_text key_label ls []
    /\ List.concat ls = s /\ Forall pem_line ls
    /\ (forall l r, ls = l ++ r -> r <> [] -> Forall (fun x => List.length x = 64%nat) l).
Proof. exact (add_headers_lines s). Qed.
Print Assumptions C38_lines.

(** Taking them off again gives the data. *)
Theorem C38_strip s : pem_data s ->
  strip_pem (addPEMCertHeaders s) = s /\ strip_pem (addPEMCertHeaders s ++ [c_nl]) = s
  /\ strip_pem (addPEMPubKeyHeaders s) = s /\ strip_pem (addPEMPubKeyHeaders s ++ [c_nl]) = s.
Proof. exact (strip_add s). Qed.
Print Assumptions C38_strip.

(** Exporting gives the data of the PEM text without line breaks. *)
Theorem C38_export w c k ls ls' :
  Forall pem_data ls -> Forall pem_data ls' ->
  w_cert_pem w c = pem_text cert_label ls [c_nl] -> w_pubkey_pem w k = pem_text key_label ls' [c_nl] ->
  exportCertToPEM w c = List.concat ls /\ exportKeyToPEM w k = List.concat ls'.
Proof. exact (export_pem w c k ls ls'). Qed.
Print Assumptions C38_export.

Example C38_example :
  pem_data (repeat 65 70)
  /\ addPEMCertHeaders (repeat 65 70) = pem_text cert_label [repeat 65 64; repeat 65 6] []
  /\ strip_pem (addPEMCertHeaders (repeat 65 70)) = repeat 65 70
  /\ exportCertToPEM toy_world ex_cert = lit "WgcH".
Proof.
  split; [|split; [|split]]; [|vm_compute; reflexivity..].
  apply Forall_forall. intros c H. apply repeat_spec in H. subst c. left. split; discriminate.
Qed.

(** ** C40 URL hash *)

Theorem C40_shape w r alg h : hash_ok w -> toURLHash w r alg = Ok h -> hash_text h.
Proof. exact (hash_shape w r alg h). Qed.
Print Assumptions C40_shape.

(** Every receipt that can be read has a hash. *)
Theorem C40_exists w s r alg : fromJWSString w s = Ok (r, alg) -> exists h, toURLHash w r alg = Ok h.
Proof. exact (hash_exists w s r alg). Qed.
Print Assumptions C40_exists.

(** It is accepted, everything else is rejected. *)
Theorem C40_accepted w r alg h : toURLHash w r alg = Ok h ->
  verifyURLHash w r alg h = Ok tt
  /\ (forall h', h' <> h -> h' <> [] -> verifyURLHash w r alg h' = Err (InvalidURLHash h'))
  /\ (hash_ok w -> verifyURLHash w r alg [] = Err (InvalidURLHash (r_receiptId r))).
Proof. exact (hash_accepted w r alg h). Qed.
Print Assumptions C40_accepted.

Theorem C40_only w r alg h : known_alg alg = true -> verifyURLHash w r alg h = Ok tt -> toURLHash w r alg = Ok h.
Proof. exact (hash_exact w r alg h). Qed.
Print Assumptions C40_only.

(** The hash is found in a URL without fragment as the last word of eleven
    characters, in particular as last path segment. *)
Theorem C40_url url : ~ In c_hash url ->
  (forall h, getURLHashFromURL url = Some h <-> last_word url h)
  /\ (getURLHashFromURL url = None <-> forall pre h post, ~ word_at url pre h post).
Proof. exact (url_plain url). Qed.
Print Assumptions C40_url.

Theorem C40_segment base c h : ~ In c_hash (base ++ [c]) -> ~ url_safe c -> hash_text h ->
  getURLHashFromURL (base ++ c :: h) = Some h.
Proof. exact (url_segment base c h). Qed.
Print Assumptions C40_segment.

Theorem C40_fragment base h rest : ~ In c_hash base -> ~ In c_hash h -> rest = [] \/ (exists r, rest = c_hash :: r) ->
  getURLHashFromURL (base ++ c_hash :: h ++ rest) = Some h.
Proof. exact (url_fragment base h rest). Qed.
Print Assumptions C40_fragment.

(** A receipt put on the host is served under its hash, and the verification of
    the URL succeeds if that of the receipt does. *)
Theorem C40_hosted w lines store l r alg h :
  hash_ok w -> host_receipts w [] lines = Ok store -> In l lines ->
  fromJWSString w (strip (char_isspace w) l) = Ok (r, alg) -> toURLHash w r alg = Ok h ->
  exists code, dict_get store h = Some code
    /\ forall v base c fetch x, ~ In c_hash (base ++ [c]) -> ~ url_safe c -> fetch (base ++ c :: h) = Ok code ->
       verifyBasicCode w v code = Ok x -> getAndVerifyReceiptURL w v fetch (base ++ c :: h) = Ok tt.
Proof. exact (hosted w lines store l r alg h). Qed.
Print Assumptions C40_hosted.

(** Conversely, what is verified is a receipt with the hash in the URL. *)
Theorem C40_verified w v fetch url : getAndVerifyReceiptURL w v fetch url = Ok tt ->
  exists code r alg h, fetch url = Ok code /\ verifyBasicCode w v code = Ok (r, alg)
    /\ getURLHashFromURL url = Some h /\ verifyURLHash w r alg h = Ok tt.
Proof. exact (url_verified w v fetch url). Qed.
Print Assumptions C40_verified.

Example C40_example :
  toURLHash toy_world ex_t2_receipt (lit "R1") = Ok ex_hash
  /\ verifyURLHash toy_world ex_t2_receipt (lit "R1") ex_hash = Ok tt
  /\ getURLHashFromURL (lit "https://example.org/r/a_b-c_d-e_f/" ++ ex_hash) = Some ex_hash
  /\ getURLHashFromURL (lit "https://example.org/" ++ ex_hash ++ lit "/x?y=z") = Some ex_hash
  /\ getURLHashFromURL (lit "https://example.org/r#" ++ ex_hash) = Some ex_hash
  /\ getURLHashFromURL (lit "https://example.org/too-long-hash") = None
  /\ host_receipts toy_world [] [ex_t2 ++ [c_nl]] = Ok [(ex_hash, ex_code)]
  /\ getAndVerifyReceiptURL toy_world (fromCert ex_cert) (fun _ => Ok ex_code) (lit "http://x/" ++ ex_hash) = Ok tt.
Proof. repeat (split; [vm_compute; reflexivity|]). vm_compute. reflexivity. Qed.
