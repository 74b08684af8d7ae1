(** Files for the examples about the incremental parsers. *)
From Coq Require Import Lia.
From Verif Require Import PyBase World Codec Receipt DepBase Json Pem KeyStore VerifyReceipt State DepParser Verify SpecDep SpecCluster SpecDoc
  SpecChunks IncBack ExampleWorld ExampleReceipts ExampleDep.
Open Scope N_scope.
Open Scope py_scope.

(** Receipts before certificates, unknown elements, an empty group, a chain *)
Definition ex_doc : json :=
  JDict
    [ (lit "Hersteller", JDict [(lit "Belege-Gruppe.item", JStr (lit "x")); (lit "", JNull)]);
      (k_bg, JList
        [ JDict [(k_recs, JList (map JStr [ex_t1; ex_t2])); (lit "Kommentar", JList [JNull; JStr (lit "y")]);
                 (k_certs, JList [JStr ex_cert_text]); (k_cert, JStr ex_cert_text)];
          JDict [(k_cert, JStr []); (k_recs, JList []); (k_certs, JList [])];
          ex_group ex_cert_text [] [ex_t3; ex_t4] ]);
      (lit "Ende", JInt 5) ].
Definition ex_doc_gs : list group :=
  [Group [ex_t1; ex_t2] (Some ex_cert) [ex_cert]; Group [] None []; Group [ex_t3; ex_t4] (Some ex_cert) []].
Definition ex_doc_dgs : list dgroup :=
  [DGroup [ex_t1; ex_t2] (Some ex_cert) [ex_cert]; DGroup [] None []; DGroup [ex_t3; ex_t4] (Some ex_cert) []].

Lemma ex_cert_ok : cert_text toy_world ex_cert_text ex_cert.
Proof. vm_compute. reflexivity. Qed.

Ltac once_at i :=
  match goal with |- once ?d _ _ => exists (firstn i d), (skipn (S i) d) end;
  split; [reflexivity|]; split; cbn; intuition discriminate.

Lemma ex_doc_is : dep_doc toy_world ex_doc ex_doc_gs.
Proof.
  eexists _, _. split; [reflexivity|]. split; [once_at 1%nat|]. constructor; [|constructor; [|constructor; [|constructor]]].
  - eexists _, ex_cert_text, [ex_cert_text]. split; [reflexivity|]. split; [once_at 0%nat|]. split; [once_at 3%nat|].
    split; [right; split; [discriminate|]; exists ex_cert; split; [exact ex_cert_ok|reflexivity]|]. split; [once_at 2%nat|].
    constructor; [exact ex_cert_ok|constructor].
  - eexists _, [], []. split; [reflexivity|]. split; [once_at 1%nat|]. split; [once_at 0%nat|]. split; [now left|]. split; [once_at 2%nat|constructor].
  - eexists _, ex_cert_text, []. split; [reflexivity|]. split; [once_at 2%nat|]. split; [once_at 0%nat|].
    split; [right; split; [discriminate|]; exists ex_cert; split; [exact ex_cert_ok|reflexivity]|]. split; [once_at 1%nat|constructor].
Qed.

Definition plainb (doc : json) : bool :=
  match doc with
  | JDict d =>
      forallb (fun kv => nonempty (fst kv) && negb (existsb (N.eqb c_dot) (fst kv))) d
      && forallb (fun kv => match snd kv with
                            | JList js => forallb (fun j => match j with
                                                            | JDict g => forallb (fun kv => negb (existsb (N.eqb c_dot) (fst kv))) g
                                                            | _ => true
                                                            end) js
                            | _ => true
                            end) d
  | _ => true
  end.
Lemma plain_dot k : negb (existsb (N.eqb c_dot) k) = true -> dot_free k.
Proof.
  intros H I. apply Bool.negb_true_iff in H. assert (existsb (N.eqb c_dot) k = true); [|congruence].
  apply existsb_exists. exists c_dot. split; [exact I|apply N.eqb_refl].
Qed.
Lemma plainb_ok doc : plainb doc = true -> plain_names doc.
Proof.
  intros H d ->. cbn [plainb] in H. apply andb_prop in H as [H1 H2]. rewrite forallb_forall in H1, H2. split.
  - apply Forall_forall. intros [k v] I. apply H1 in I. apply andb_prop in I as [I1 I2]. split; [cbn [fst] in *; intros ->; discriminate|now apply plain_dot].
  - intros js I g Ig. specialize (H2 _ I). cbn [snd] in H2. rewrite forallb_forall in H2. specialize (H2 _ Ig). cbv beta iota in H2.
    rewrite forallb_forall in H2. apply Forall_forall. intros kv Ik. now apply plain_dot, H2.
Qed.

Lemma ex_doc_plain : plain_names ex_doc.
Proof. apply plainb_ok. vm_compute. reflexivity. Qed.
Lemma ex_doc_encoded : Forall2 encoded ex_doc_gs ex_doc_dgs.
Proof.
  constructor; [|constructor; [|constructor; [|constructor]]]; (split; [|split; reflexivity]); cbn [gr_texts g_recs];
    repeat (apply Forall2_cons; [vm_compute; reflexivity|]); constructor.
Qed.

(** A file without certificates for the stream parser *)
Definition ex_doc_empty : json := ex_dep_of [ex_group [] [] [ex_t1]].
Lemma stream_empty : exists w doc gs dgs n, dep_doc w doc gs /\ plain_names doc /\ Forall2 encoded gs dgs
  /\ certs_or_one gs /\ (1 <= n)%nat /\ parse_inc w P_file doc n = ([dgs], None) /\ parse_inc w P_stream doc n = ([], Some MalformedDEP).
Proof.
  exists toy_world, ex_doc_empty, [Group [ex_t1] None []], [DGroup [ex_t1] None []], 1%nat. split.
  { eexists _, _. split; [reflexivity|]. split; [once_at 0%nat|]. constructor; [|constructor].
    eexists _, [], []. split; [reflexivity|]. split; [once_at 2%nat|]. split; [once_at 0%nat|]. split; [now left|]. split; [once_at 1%nat|constructor]. }
  split; [apply plainb_ok; vm_compute; reflexivity|]. split.
  { constructor; [|constructor]. split; [|split; reflexivity]. constructor; [vm_compute; reflexivity|constructor]. }
  split; [right; reflexivity|]. split; [lia|]. split; vm_compute; reflexivity.
Qed.

(** An unknown element whose name looks like a path *)
Definition ex_doc_dots : json :=
  JDict [(p_cert, JStr []); (k_bg, JList [JDict [(k_recs, JList [JStr ex_t1]); (k_cert, JStr ex_cert_text); (k_certs, JList [])]])].
Lemma file_dots : exists w doc gs dgs dgs' n, dep_doc w doc gs /\ Forall2 encoded gs dgs
  /\ parse_inc w P_file doc n = ([dgs'], None) /\ map g_cert dgs = [Some ex_cert] /\ map g_cert dgs' = [None].
Proof.
  exists toy_world, ex_doc_dots, [Group [ex_t1] (Some ex_cert) []], [DGroup [ex_t1] (Some ex_cert) []], [DGroup [ex_t1] None []], 1%nat. split.
  { eexists _, _. split; [reflexivity|]. split; [once_at 1%nat|]. constructor; [|constructor].
    eexists _, ex_cert_text, []. split; [reflexivity|]. split; [once_at 0%nat|]. split; [once_at 1%nat|].
    split; [right; split; [discriminate|]; exists ex_cert; split; [exact ex_cert_ok|reflexivity]|]. split; [once_at 2%nat|constructor]. }
  split.
  { constructor; [|constructor]. split; [|split; reflexivity]. constructor; [vm_compute; reflexivity|constructor]. }
  split; [vm_compute; reflexivity|]. split; reflexivity.
Qed.

(** Documents that are not DEPs *)
Definition ex_doc_lacking : json := ex_dep_of [JDict [(k_recs, JList [JStr ex_t1]); (k_certs, JList [])]].
Definition ex_doc_numbers : json :=
  ex_dep_of [JDict [(k_cert, JStr ex_cert_text); (k_certs, JList []); (k_recs, JList [JInt 1])]].
Definition ex_doc_number : json :=
  ex_dep_of [JDict [(k_cert, JStr ex_cert_text); (k_certs, JList []); (k_recs, JInt 1)]].
Definition ex_doc_surrogate : json := ex_dep_of [ex_group ex_cert_text [] [[55296]]].
Definition ex_doc_twice : json :=
  ex_dep_of [JDict [(k_cert, JStr ex_cert_text); (k_cert, JStr ex_cert_text); (k_recs, JList [JStr ex_t1]); (k_certs, JList [])]].
Lemma foreign_exceptions : exists w lacking numbers number surrogate,
  parse_inc w P_file lacking 1 = ([], Some PyIndexError)
  /\ parse_inc w P_file lacking 0 = ([], Some MissingDEPElement)
  /\ parse_dict w 1 numbers 0 = ([], Some PyAttributeError)
  /\ parse_dict w 1 number 0 = ([], Some PyTypeError)
  /\ parse_dict w 1 surrogate 0 = ([], Some PyUnicodeEncodeError)
  /\ parse_inc w P_stream surrogate 0 = ([], Some PyUnicodeEncodeError).
Proof.
  exists toy_world, ex_doc_lacking, ex_doc_numbers, ex_doc_number, ex_doc_surrogate. repeat split; vm_compute; reflexivity.
Qed.
