(** Properties of the incremental DEP parsers. *)
From Coq Require Import Lia.
From Verif Require Import PyBase World Codec Receipt DepBase Json Pem KeyStore VerifyReceipt State DepParser Verify SpecDep SpecCluster SpecDoc
  SpecState SpecChunks AcceptFacts DictFacts ParTheorems IncDoc IncBack IncTheorems ExampleWorld ExampleReceipts ExampleDep ExampleInc.
Open Scope N_scope.
Open Scope py_scope.

(** ** C25 Incremental parser delivers the file's receipts *)

(** The file parser: for every order of the elements, with any unknown elements
    whose names contain no dots. [n] is the chunk size. *)
Theorem C25_file w doc n gs dgs : (1 <= n)%nat -> dep_doc w doc gs -> plain_names doc -> Forall2 encoded gs dgs -> filled dgs <> [] ->
  exists chunks, parse_inc w P_file doc n = (chunks, None) /\ delivers n dgs chunks /\ chunks = chunks_of n dgs.
Proof. exact (file_delivers w doc n gs dgs). Qed.
Print Assumptions C25_file.

(** Chunk size 0: everything in one chunk *)
Theorem C25_unlimited w doc gs dgs : dep_doc w doc gs -> plain_names doc -> Forall2 encoded gs dgs -> filled dgs <> [] ->
  parse_inc w P_file doc 0 = ([filled dgs], None) /\ parse_inc w P_stream doc 0 = ([filled dgs], None).
Proof. exact (unlimited w doc gs dgs). Qed.
Print Assumptions C25_unlimited.

(** The stream parser, if certificates precede receipts *)
Theorem C25_stream w doc n gs dgs : (1 <= n)%nat -> dep_doc w doc gs -> plain_names doc -> certs_first doc -> Forall2 encoded gs dgs -> filled dgs <> [] ->
  exists chunks, parse_inc w P_stream doc n = (chunks, None) /\ delivers n dgs chunks /\ chunks = chunks_of n dgs.
Proof. exact (stream_delivers w doc n gs dgs). Qed.
Print Assumptions C25_stream.

Example C25_example :
  dep_doc toy_world ex_doc ex_doc_gs /\ plain_names ex_doc /\ Forall2 encoded ex_doc_gs ex_doc_dgs /\ filled ex_doc_dgs <> []
  /\ parse_inc toy_world P_file ex_doc 3 =
       ([[DGroup [ex_t1; ex_t2] (Some ex_cert) [ex_cert]; DGroup [ex_t3] (Some ex_cert) []]; [DGroup [ex_t4] (Some ex_cert) []]], None)
  /\ snd (parse_inc toy_world P_stream ex_doc 1) = Some MalformedDEP
  /\ certs_first ex_dep.
Proof.
  split; [exact ex_doc_is|]. split; [exact ex_doc_plain|]. split; [exact ex_doc_encoded|]. split; [discriminate|].
  split; [vm_compute; reflexivity|]. split; [vm_compute; reflexivity|].
  intros d js g E I Ig. injection E as <-. destruct I as [I|[]]. injection I as <-.
  assert (exists l, g = [(k_cert, JStr ex_cert_text); (k_certs, JList []); (k_recs, JList (map JStr l))]) as [l ->].
  { destruct Ig as [H|[H|[H|[]]]]; injection H as <-.
    - now exists [ex_t1; ex_t2].
    - now exists [ex_t3; ex_t4].
    - now exists [ex_t5; ex_t6; ex_t7; ex_t8]. }
  exists [(k_cert, JStr ex_cert_text); (k_certs, JList [])], [], (JList (map JStr l)). split; [reflexivity|]. split; [right; now left|].
  exists ex_cert_text. split; [now left|discriminate].
Qed.

(** The stream parser refuses certificateless DEPs, for which the key store would
    be used, if they have at least as many receipts as the chunk size. *)
Theorem C25_stream_refuted : exists w doc gs dgs n, dep_doc w doc gs /\ plain_names doc /\ Forall2 encoded gs dgs
  /\ certs_or_one gs /\ (1 <= n)%nat /\ parse_inc w P_file doc n = ([dgs], None) /\ parse_inc w P_stream doc n = ([], Some MalformedDEP).
Proof. exact stream_empty. Qed.
Print Assumptions C25_stream_refuted.

(** An unknown element outside of the groups with dots in its name replaces the
    certificate of a group. *)
Theorem C25_names_refuted : exists w doc gs dgs dgs' n, dep_doc w doc gs /\ Forall2 encoded gs dgs
  /\ parse_inc w P_file doc n = ([dgs'], None) /\ map g_cert dgs = [Some ex_cert] /\ map g_cert dgs' = [None].
Proof. exact file_dots. Qed.
Print Assumptions C25_names_refuted.

(** ** C26 Dictionary parser agrees with the incremental parser *)

Theorem C26_agree w doc n gs dgs nparts : (1 <= n)%nat -> dep_doc w doc gs -> plain_names doc -> Forall2 encoded gs dgs -> filled dgs <> [] ->
  parse_inc w P_file doc n = parse_dict w nparts (load doc) n.
Proof. exact (parsers_agree w doc n gs dgs nparts). Qed.
Print Assumptions C26_agree.

(** Whatever the file parser accepts, the dictionary parser accepts, too. *)
Theorem C26_implied w doc n chunks nparts : (1 <= n)%nat -> plain_names doc ->
  parse_inc w P_file doc n = (chunks, None) -> parse_dict w nparts (load doc) n = (chunks, None).
Proof. exact (file_implies_dict w doc n chunks nparts). Qed.
Print Assumptions C26_implied.

Example C26_example :
  snd (parse_inc toy_world P_file ex_doc 2) = None /\ parse_inc toy_world P_file ex_doc 2 = parse_dict toy_world 5 (load ex_doc) 2
  /\ List.length (fst (parse_inc toy_world P_file ex_doc 2)) = 2%nat
  /\ snd (parse_dict toy_world 1 (load ex_doc_twice) 1) = None /\ snd (parse_inc toy_world P_file ex_doc_twice 1) = Some DuplicateDEPElement.
Proof. repeat split; vm_compute; reflexivity. Qed.

(** Verification of a file that is parsed incrementally equals verification of the
    loaded file. *)
Theorem C22_file w sch doc n ks key c idx c' gs : hash_ok w -> isolated sch -> usual_cluster c -> plain_names doc ->
  dep_doc w doc gs -> certs_or_one gs ->
  verifyParsedDEP w sch (parse_inc w P_file doc n) ks key c idx = (c', None) <->
  verifyDEP w (load doc) ks key c idx = (c', None).
Proof. exact (parallel_file w sch doc n ks key c idx c' gs). Qed.
Print Assumptions C22_file.

(** ** C28 Malformed DEPs are reported as such *)

(** The file parser reads a document to its end exactly if it is a well-formed DEP
    with receipts, and then it delivers all of them. *)
Theorem C28_exact w doc n chunks : plain_names doc ->
  parse_inc w P_file doc n = (chunks, None) <->
  exists gs dgs, dep_doc w doc gs /\ Forall2 encoded gs dgs /\ filled dgs <> [] /\ chunks = inc_chunks n dgs.
Proof. exact (file_exact w doc n chunks). Qed.
Print Assumptions C28_exact.

(** So does the stream parser, although it cannot read all well-formed DEPs. *)
Theorem C28_stream w doc n chunks : plain_names doc -> parse_inc w P_stream doc n = (chunks, None) ->
  exists gs dgs, dep_doc w doc gs /\ Forall2 encoded gs dgs /\ filled dgs <> [] /\ chunks = inc_chunks n dgs.
Proof. exact (stream_exact w doc n chunks). Qed.
Print Assumptions C28_stream.

(** Documents in which required elements are missing or repeated are rejected. *)
Theorem C28_required w kind doc n chunks : plain_names doc -> parse_inc w kind doc n = (chunks, None) ->
  exists d js, doc = JDict d /\ occurrences k_bg d = 1%nat /\ In (k_bg, JList js) d
    /\ Forall (fun j => exists g, j = JDict g /\ occurrences k_recs g = 1%nat /\ occurrences k_cert g = 1%nat /\ occurrences k_certs g = 1%nat) js.
Proof. exact (required_elements w kind doc n chunks). Qed.
Print Assumptions C28_required.

Example C28_example :
  plain_names ex_doc_twice /\ parse_inc toy_world P_stream ex_doc_twice 0 = ([], Some DuplicateDEPElement)
  /\ plain_names ex_doc_lacking /\ parse_inc toy_world P_stream ex_doc_lacking 0 = ([], Some MissingDEPElement)
  /\ plain_names ex_doc /\ snd (parse_inc toy_world P_file ex_doc 3) = None.
Proof.
  split; [apply plainb_ok; vm_compute; reflexivity|]. split; [vm_compute; reflexivity|]. split; [apply plainb_ok; vm_compute; reflexivity|].
  split; [vm_compute; reflexivity|]. split; [exact ex_doc_plain|]. vm_compute. reflexivity.
Qed.

(** Exceptions of the incremental parsers *)
Theorem C28_exceptions w kind doc n chunks x : parse_inc w kind doc n = (chunks, Some x) ->
  dep_exception x
  \/ (x = PyUnicodeEncodeError /\ exists s, text_in doc s /\ utf8_encode s = Err x)
  \/ (kind = P_file /\ n <> 0%nat /\ (x = PyIndexError \/ x = PyTypeError)).
Proof. exact (inc_exceptions w kind doc n chunks x). Qed.
Print Assumptions C28_exceptions.

(** Exceptions of the dictionary parser *)
Theorem C28_dict w nparts dep n chunks x : parse_dict w nparts dep n = (chunks, Some x) ->
  dep_exception x \/ In x [PyTypeError; PyAttributeError; PyUnicodeEncodeError].
Proof. exact (dict_exceptions w nparts dep n chunks x). Qed.
Print Assumptions C28_dict.

Theorem C28_regular w nparts dep n chunks x : receipts_are_texts dep -> parse_dict w nparts dep n = (chunks, Some x) ->
  dep_exception x \/ (x = PyUnicodeEncodeError /\ exists s, text_in dep s /\ utf8_encode s = Err x).
Proof. exact (dict_regular w nparts dep n chunks x). Qed.
Print Assumptions C28_regular.

(** The exceptions that are not the library's occur: an element missing after the
    first chunk; receipts that are not texts; no array; lone surrogates. *)
Theorem C28_refuted : exists w lacking numbers number surrogate,
  parse_inc w P_file lacking 1 = ([], Some PyIndexError)
  /\ parse_inc w P_file lacking 0 = ([], Some MissingDEPElement)
  /\ parse_dict w 1 numbers 0 = ([], Some PyAttributeError)
  /\ parse_dict w 1 number 0 = ([], Some PyTypeError)
  /\ parse_dict w 1 surrogate 0 = ([], Some PyUnicodeEncodeError)
  /\ parse_inc w P_stream surrogate 0 = ([], Some PyUnicodeEncodeError).
Proof. exact foreign_exceptions. Qed.
Print Assumptions C28_refuted.
