(** Conversion of DEPs to tables and back. *)
From Verif Require Import PyBase World Codec Receipt Json Pem KeyStore State DepParser Verify DepExport SpecReceipt ReceiptFacts RoundTrip2 SpecDep SpecCluster SpecDoc SpecChunks IncTheorems SpecExport SpecKeys VerifyFacts
  SpecConvert ConvertFacts ExampleWorld ExampleReceipts ExampleDep ExampleInc ExampleExport ExampleConvert.
Open Scope N_scope.

(** ** C51 Conversion to a table and back *)

(** The table has a line for each receipt of the DEP, in order, whatever the groups,
    certificates, and the chunk size are. *)
Theorem C51_table w n doc gs : plain_names doc -> dep_doc w doc gs -> all_texts gs <> [] -> texts_read w gs ->
  exists lines, json2csv w n doc = Ok (table lines)
    /\ Forall2 (fun t l => exists r, reads w t r /\ toCSV r (lit "R1") = Ok l) (all_texts gs) lines.
Proof. exact (json2csv_spec w n doc gs). Qed.
Print Assumptions C51_table.

(** If no field has a semicolon, line break, or blanks at the ends, csv2json gives a DEP of one group with the same
    texts. *)
Theorem C51_back w n doc gs : pem_ok w -> plain_names doc -> dep_doc w doc gs -> all_texts gs <> [] -> Forall (tabular w) (all_texts gs) ->
  exists csv doc', json2csv w n doc = Ok csv /\ csv2json w csv = Ok doc' /\ plain_names doc' /\ dep_doc w doc' [Group (all_texts gs) None []].
Proof. exact (convert_back w n doc gs). Qed.
Print Assumptions C51_back.

(** Which is accepted like the original, if that has no certificates. *)
Theorem C51_verdict w ks key n doc gs csv doc' c idx before reg after c' : hash_ok w -> pem_ok w -> selects c idx before reg after ->
  plain_names doc -> dep_doc w doc gs -> certless gs -> Forall (tabular w) (all_texts gs) ->
  json2csv w n doc = Ok csv -> csv2json w csv = Ok doc' ->
  verifyDEP w (load doc) ks key c idx = (c', None) <-> verifyDEP w (load doc') ks key c idx = (c', None).
Proof. exact (converted_verdict w ks key n doc gs csv doc' c idx before reg after c'). Qed.
Print Assumptions C51_verdict.

Example C51_example : pem_ok toy_world /\ hash_ok toy_world /\ plain_names ex_dep /\ dep_doc toy_world ex_dep (ex_gs1 ++ ex_gs2) /\ all_texts (ex_gs1 ++ ex_gs2) = ex_texts
  /\ Forall (tabular toy_world) ex_texts /\ json2csv toy_world 2 ex_dep = Ok ex_csv /\ csv2json toy_world ex_csv = Ok ex_back.
Proof.
  split; [exact toy_pem_ok|]. split; [exact toy_hash_ok|]. split; [apply plainb_ok; vm_compute; reflexivity|]. split; [exact ex_dep_doc|]. split; [reflexivity|].
  split; [exact ex_tabular|]. split; apply ex_converted.
Qed.

Example C51_verdict_example : plain_names ex_bare /\ dep_doc toy_world ex_bare ex_bare_gs /\ certless ex_bare_gs /\ Forall (tabular toy_world) (all_texts ex_bare_gs)
  /\ selects ex_start None [] new_register [] /\ verifyDEP toy_world (load ex_bare) ex_ks (Some ex_key) ex_start None = (ex_end, None).
Proof.
  split; [apply plainb_ok; vm_compute; reflexivity|]. split; [exact ex_bare_doc|]. split; [exact ex_bare_certless|]. split; [exact ex_tabular|].
  split; [constructor; auto|exact ex_bare_verified].
Qed.

(** IDs with line feeds are legal, but not read back. *)
Theorem C51_line_feeds_refuted : exists w ks key c doc csv e, snd (verifyDEP w (load doc) ks (Some key) c None) = None
  /\ json2csv w 1 doc = Ok csv /\ csv2json w csv = Err e.
Proof. exact line_feeds. Qed.
Print Assumptions C51_line_feeds_refuted.

(** Certificates are not kept: if the key store only has that of an issuer, the result is
    refused. *)
Theorem C51_certificates_refuted : exists w ks key c doc csv doc' e, snd (verifyDEP w (load doc) ks (Some key) c None) = None
  /\ json2csv w 1 doc = Ok csv /\ csv2json w csv = Ok doc' /\ snd (verifyDEP w (load doc') ks (Some key) c None) = Some e.
Proof. exact certificates_lost. Qed.
Print Assumptions C51_certificates_refuted.
