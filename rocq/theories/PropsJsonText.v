(** C68: JSON texts. *)
From Coq Require Import Floats.SpecFloat.
From Verif Require Import PyBase World Codec PyFloat Json KeyStore State DepBase DepParser DepExport
  SpecKeys SpecDoc SpecClean SpecState SpecStore JsonText SpecJsonText JsonTextFacts JsonWriteFacts JsonFileFacts
  ExampleWorld ExampleKeys ExampleDep ExampleClean ExampleJsonText.
Open Scope N_scope.

(** A text is read as a document exactly if the grammar says that it is a text of it. *)
Theorem C68_grammar v t : loads t = Some v <-> document v t.
Proof. exact (loads_iff v t). Qed.
Print Assumptions C68_grammar.

(** With or without a byte order mark; of several members with the same name the last one counts. *)
Theorem C68_stream s j : readJsonStream s = Some j <-> exists v t, document v t /\ (s = t \/ s = 0xFEFF :: t) /\ j = load v.
Proof. exact (read_stream_iff s j). Qed.
Print Assumptions C68_stream.
Example C68_stream_case : document ex_json ex_json_text /\ readJsonStream (0xFEFF :: ex_json_text) = Some (load ex_json) /\ load ex_json <> ex_json.
Proof. split; [exact (proj1 (loads_iff _ _) ex_json_read)|]. split; [vm_compute; reflexivity|vm_compute; discriminate]. Qed.

(** What is written is read again, indented or not. *)
Theorem C68_roundtrip fr ind v : writable fr v -> loads (dumps fr ind v) = Some v.
Proof. exact (loads_dumps fr ind v). Qed.
Print Assumptions C68_roundtrip.

(** What is written is ASCII. *)
Theorem C68_ascii fr ind v : writable fr v -> Forall (fun c => c = 10 \/ 32 <= c <= 126) (dumps fr ind v).
Proof. exact (fun W => dump_ascii fr ind v W 0). Qed.
Print Assumptions C68_ascii.

Example C68_case : writable ex_repr ex_json /\ loads ex_json_text = Some ex_json /\ loads (dumps ex_repr true ex_json) = Some ex_json
  /\ loads (lit "[1,]") = None /\ loads (lit "01") = None.
Proof. exact (conj ex_writable (conj ex_json_read (conj (loads_dumps ex_repr true ex_json ex_writable) (conj eq_refl eq_refl)))). Qed.

(** Two halves of a pair that are characters of their own are joined when they are read. *)
Theorem C68_pairs_refuted : exists s, forall fr ind, loads (dumps fr ind (JStr s)) <> Some (JStr s).
Proof. exists [0xD83D; 0xDE00]. intros fr ind H. vm_compute in H. discriminate H. Qed.
Print Assumptions C68_pairs_refuted.

(** State files *)
Theorem C68_state fr ind c : wf_used (c_used c) -> texts_encode (cluster_to_json c) ->
  exists j, readJsonStream (dumps fr ind (cluster_to_json c)) = Some j /\ cluster_of_json j = Ok c.
Proof. exact (state_text fr ind c). Qed.
Print Assumptions C68_state.
Example C68_state_case : wf_used (c_used ex_end) /\ c_regs ex_end <> [] /\ texts_encode (cluster_to_json ex_end).
Proof. exact ex_end_clean. Qed.

(** Key stores *)
Theorem C68_store fr ind w ops key : pem_ok w -> Forall from_pem ops ->
  (forall i kt, In (i, kt) (store_run w ops) -> exists b, utf8_encode i = Ok b) ->
  (forall k, key = Some k -> exists b, utf8_encode k = Ok b) ->
  exists j, readJsonStream (dumps fr ind (writeStoreToJson w (store_run w ops) key)) = Some j
    /\ readStoreFromJson w j = Ok (store_run w ops)
    /\ loadKeyFromJson j = loadKeyFromJson (writeStoreToJson w (store_run w ops) key).
Proof. exact (store_text fr ind w ops key). Qed.
Print Assumptions C68_store.
Example C68_store_case : pem_ok toy_world /\ Forall from_pem ex_ops2 /\ store_run toy_world ex_ops2 <> []
  /\ (forall i kt, In (i, kt) (store_run toy_world ex_ops2) -> exists b, utf8_encode i = Ok b)
  /\ (forall k, Some (b64encode ex_key) = Some k -> exists b, utf8_encode k = Ok b).
Proof. exact (conj toy_pem_ok ex_store_clean). Qed.

(** Exported DEPs *)
Theorem C68_dep fr ind w s dep : export w s [] = Ok dep -> texts_encode dep ->
  readJsonStream (dumps fr ind dep) = Some (load dep).
Proof. exact (export_text fr ind w s dep). Qed.
Print Assumptions C68_dep.
Example C68_dep_case : exists dep, export toy_world ex_groups [] = Ok dep /\ texts_encode dep /\ dep <> JDict [(k_bg, JList [])].
Proof. exact ex_export_clean. Qed.

(** FullFileDEPParser *)
Theorem C68_full w n text size :
  (forall v t, document v t -> text = t \/ text = 0xFEFF :: t -> parse_full w n text size = parse_dict w n (load v) size)
  /\ ((forall v t, document v t -> text <> t /\ text <> 0xFEFF :: t) -> parse_full w n text size = ([], Some DEPParseError)).
Proof. exact (full_iff w n text size). Qed.
Print Assumptions C68_full.
Example C68_full_case : parse_full toy_world 1 (0xFEFF :: dumps (fun _ => []) true ex_dep) 0 = parse_dict toy_world 1 (load ex_dep) 0
  /\ List.length (fst (parse_dict toy_world 1 (load ex_dep) 0)) = 3%nat
  /\ parse_full toy_world 1 (lit "{") 0 = ([], Some DEPParseError).
Proof. exact ex_full. Qed.
