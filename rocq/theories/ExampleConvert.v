(** Conversion to tables and back in the toy world. *)
From Verif Require Import PyBase World Codec Receipt Json Pem KeyStore State DepParser Verify DepExport SpecReceipt ReceiptFacts RoundTrip2 SpecDep SpecCluster SpecDoc SpecChunks IncTheorems SpecExport VerifyFacts
  SpecConvert ConvertFacts ExampleWorld ExampleReceipts ExampleDep ExampleInc ExampleExport.
Open Scope N_scope.
Open Scope py_scope.

Definition field_okb (w : world) (s : str) : bool :=
  negb (existsb (fun c => (c =? c_semi) || (c =? c_nl) || (c =? 13)) s)
  && match s with [] => true | c :: _ => negb (char_isspace w c) end && match rev s with [] => true | c :: _ => negb (char_isspace w c) end.
Lemma field_okb_ok w s : field_okb w s = true -> (~ In c_semi s /\ no_edge_space w s) /\ ~ In c_nl s /\ ~ In 13 s.
Proof.
  unfold field_okb. intros H. apply andb_prop in H as [H H3]. apply andb_prop in H as [H1 H2]. apply Bool.negb_true_iff in H1.
  assert (forall c, In c s -> (c =? c_semi) || (c =? c_nl) || (c =? 13) = false) as A.
  { intros c Hc. destruct ((c =? c_semi) || (c =? c_nl) || (c =? 13)) eqn:E; [|reflexivity].
    assert (existsb (fun c => (c =? c_semi) || (c =? c_nl) || (c =? 13)) s = true) as X by (apply existsb_exists; eauto). congruence. }
  split; [split; [|split]|split].
  - intros X. apply A in X. vm_compute in X. discriminate.
  - intros c t ->. now apply Bool.negb_true_iff in H2.
  - intros c t ->. rewrite rev_app_distr in H3. cbn [rev app] in H3. now apply Bool.negb_true_iff in H3.
  - intros X. apply A in X. vm_compute in X. discriminate.
  - intros X. apply A in X. vm_compute in X. discriminate.
Qed.

Definition tabularb (w : world) (t : str) : bool :=
  match before_dot t with
  | Some (h, r) => match before_dot r with Some (p, g) => canonb h && canonb p && canonb g | None => false end
  | None => false
  end
  && match fromJWSString w t with Ok (r, _) => forallb (field_okb w) (csv_fields (r_fields r)) | Err _ => false end.
Lemma tabularb_ok w t : tabularb w t = true -> tabular w t.
Proof.
  unfold tabularb. intros H. apply andb_prop in H as [H1 H2]. split.
  - destruct (before_dot t) as [[h r]|] eqn:E1; [|discriminate]. destruct (before_dot r) as [[p g]|] eqn:E2; [|discriminate].
    apply andb_prop in H1 as [H1 H4]. apply andb_prop in H1 as [H1 H3]. exists h, p, g. split; [|split; [|split]]; [|now apply canonb_ok..].
    rewrite (before_dot_ok _ _ _ E1), (before_dot_ok _ _ _ E2). now rewrite <- ?app_assoc.
  - destruct (fromJWSString w t) as [[r alg]|e] eqn:E; [|discriminate]. exists r. apply parse_reads in E as [-> R]. split; [exact R|].
    rewrite forallb_forall in H2. unfold csv_safe. split; apply Forall_forall; intros s Hs; specialize (H2 s Hs); apply field_okb_ok in H2; tauto.
Qed.

Definition ex_texts : list str := [ex_t1; ex_t2; ex_t3; ex_t4; ex_t5; ex_t6; ex_t7; ex_t8].
Lemma ex_tabular : Forall (tabular toy_world) ex_texts.
Proof.
  assert (forallb (tabularb toy_world) ex_texts = true) as H by (vm_compute; reflexivity).
  apply Forall_forall. intros t T. rewrite forallb_forall in H. now apply tabularb_ok, H.
Qed.

(** Table and DEP of the receipts *)
Definition ex_csv : str := Eval vm_compute in match json2csv toy_world 2 ex_dep with Ok s => s | Err _ => [] end.
Definition ex_back : json := Eval vm_compute in match csv2json toy_world ex_csv with Ok d => d | Err _ => JNull end.
Lemma ex_converted : json2csv toy_world 2 ex_dep = Ok ex_csv /\ csv2json toy_world ex_csv = Ok ex_back
  /\ ex_back = ex_dep_of [JDict [(k_cert, JStr []); (k_certs, JList []); (k_recs, JList (map JStr ex_texts))]].
Proof. split; [vm_compute; reflexivity|]. split; vm_compute; reflexivity. Qed.

(** A DEP without certificates *)
Definition ex_bare : json := ex_dep_of [ex_group [] [] []; ex_group [] [] ex_texts].
Definition ex_bare_gs : list group := [Group [] None []; Group ex_texts None []].
Lemma ex_bare_doc : dep_doc toy_world ex_bare ex_bare_gs.
Proof.
  assert (forall l, group_doc toy_world (ex_group [] [] l) (Group l None [])) as G.
  { intros l. eexists _, [], []. split; [reflexivity|]. split; [once_at 2%nat|]. split; [once_at 0%nat|].
    split; [left; split; reflexivity|]. split; [once_at 1%nat|constructor]. }
  eexists _, _. split; [reflexivity|]. split; [once_at 0%nat|]. constructor; [apply G|]. constructor; [apply G|constructor].
Qed.
Lemma ex_bare_certless : certless ex_bare_gs.
Proof. exists (Group ex_texts None []). split; reflexivity. Qed.
Lemma ex_bare_verified : verifyDEP toy_world (load ex_bare) ex_ks (Some ex_key) ex_start None = (ex_end, None).
Proof. vm_compute. reflexivity. Qed.

(** An ID with a line feed *)
Definition ex_t1_nl := Eval vm_compute in
  ex_signed (ex_rec [49; 10; 50] (lit "2017-01-01T08:00:00") (lit "0,00") (ex_tc [49; 10; 50] 0) (lit "REG-1")).
Definition ex_dep_nl : json := ex_dep_of [ex_group ex_cert_text [] [ex_t1_nl]].
Lemma line_feeds : exists w ks key c doc csv e, snd (verifyDEP w (load doc) ks (Some key) c None) = None
  /\ json2csv w 1 doc = Ok csv /\ csv2json w csv = Err e.
Proof.
  exists toy_world, ex_ks, ex_key, ex_start, ex_dep_nl. eexists _, _. split; [vm_compute; reflexivity|].
  split; [vm_compute; reflexivity|]. vm_compute. reflexivity.
Qed.

(** A certificate that is known by its issuer only is lost. *)
Definition ex_dep_ca : json := ex_dep_of [ex_group ex_leaf_text [ex_ca_text] [ex_t1; ex_t2]].
Lemma certificates_lost : exists w ks key c doc csv doc' e, snd (verifyDEP w (load doc) ks (Some key) c None) = None
  /\ json2csv w 1 doc = Ok csv /\ csv2json w csv = Ok doc' /\ snd (verifyDEP w (load doc') ks (Some key) c None) = Some e.
Proof.
  exists toy_world, ex_ca_ks, ex_key, ex_start, ex_dep_ca. eexists _, _, _. split; [vm_compute; reflexivity|].
  split; [vm_compute; reflexivity|]. split; [vm_compute; reflexivity|]. vm_compute. reflexivity.
Qed.
