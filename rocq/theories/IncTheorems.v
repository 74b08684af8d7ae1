(** The claims about the DEP parsers. *)
From Coq Require Import Lia ZifyClasses ZifyNat ZifyBool.
From Verif Require Import PyBase World Codec CodecFacts2 Receipt DepBase Json Pem KeyStore VerifyReceipt State DepParser Verify ListFacts SpecDep
  SpecCluster SpecDoc SeqFacts ClusterFacts AcceptFacts
  SpecState SpecChunks ChunkFacts ParFacts DictFacts ParTheorems IncFacts IncDoc IncBack.
Open Scope N_scope.
Open Scope py_scope.

(** ** What json.load makes of a well-formed file *)

Definition collapse (l acc : list (str * json)) : list (str * json) := fold_left (fun acc kv => dict_set acc (fst kv) (snd kv)) l acc.

Lemma get_set_same (d : list (str * json)) k v : dict_get (dict_set d k v) k = Some v.
Proof.
  induction d as [|[k' v'] d IH]; cbn [dict_set dict_get]; [now rewrite str_eqb_refl|].
  destruct (str_eqb k' k) eqn:E; cbn [dict_get]; rewrite E; [reflexivity|exact IH].
Qed.
Lemma get_set_other (d : list (str * json)) k k' v : k' <> k -> dict_get (dict_set d k' v) k = dict_get d k.
Proof.
  intros N. induction d as [|[k2 v2] d IH]; cbn [dict_set dict_get].
  - apply str_eqb_neq in N. now rewrite N.
  - destruct (str_eqb k2 k') eqn:E; cbn [dict_get].
    + apply str_eqb_eq in E. subst k2. apply str_eqb_neq in N. now rewrite N.
    + now rewrite IH.
Qed.
Lemma collapse_other l k : ~ In k (map fst l) -> forall acc, dict_get (collapse l acc) k = dict_get acc k.
Proof.
  unfold collapse. induction l as [|[k' v] l IH]; intros N acc; [reflexivity|]. cbn [fold_left fst snd]. cbn [map fst] in N.
  rewrite IH by (intros I; apply N; now right). apply get_set_other. intros ->. apply N. now left.
Qed.

Lemma map_names (f : json -> json) d : map fst (map (fun kv => (fst kv, f (snd kv))) d) = map (@fst str json) d.
Proof. rewrite map_map. reflexivity. Qed.

Lemma load_once d k v : once d k v -> forall d', load (JDict d) = JDict d' -> dict_get d' k = Some (load v).
Proof.
  intros (a & b & -> & Na & Nb) d' E. cbn [load] in E. injection E as <-.
  change (dict_get (collapse (map (fun kv => (fst kv, load (snd kv))) (a ++ (k, v) :: b)) []) k = Some (load v)).
  rewrite map_app. unfold collapse. rewrite fold_left_app. cbn [map fold_left fst snd]. fold (collapse (map (fun kv => (fst kv, load (snd kv))) a) []).
  rewrite (collapse_other (map (fun kv => (fst kv, load (snd kv))) b) k).
  - apply get_set_same.
  - now rewrite map_names.
Qed.

Lemma load_group w j g : group_doc w j g -> group_is w (load j) g.
Proof.
  intros (d & sc & chain & -> & O1 & O2 & Hc & O3 & Fch).
  assert (exists d', load (JDict d) = JDict d') as [d' E] by (cbn [load]; eauto). rewrite E.
  pose proof (load_once _ _ _ O1 _ E) as G1. pose proof (load_once _ _ _ O2 _ E) as G2. pose proof (load_once _ _ _ O3 _ E) as G3.
  rewrite load_texts in G1, G3. exists d', (JList (map JStr (gr_texts g))), sc, chain.
  split; [reflexivity|]. split; [exact G1|]. split; [now left|]. split; [exact G2|]. split; [exact Hc|]. split; [exact G3|exact Fch].
Qed.

Lemma load_doc w doc gs : dep_doc w doc gs -> dep_is w (load doc) gs.
Proof.
  intros (d & js & -> & O & F). assert (exists d', load (JDict d) = JDict d') as [d' E] by (cbn [load]; eauto). rewrite E.
  exists d', (map load js). split; [reflexivity|]. split; [exact (load_once _ _ _ O _ E)|].
  clear -F. induction F; cbn [map]; constructor; auto. now apply load_group.
Qed.

(** ** C25, C26 *)

Lemma inc_delivers n dgs : (1 <= n)%nat -> delivers n dgs (inc_chunks n dgs).
Proof. intros H. destruct n; [lia|]. now apply chunks_deliver. Qed.

Lemma inc_single dgs : flat_map stamped (inc_chunks 0 dgs) = stamped dgs /\ (List.length (inc_chunks 0 dgs) <= 1)%nat.
Proof.
  cbn [inc_chunks]. rewrite <- (stamped_filter dgs). destruct (filter has_receipts dgs); cbn [flat_map List.length]; [auto|]. rewrite app_nil_r. auto.
Qed.

Theorem file_delivers w doc n gs dgs : (1 <= n)%nat -> dep_doc w doc gs -> plain_names doc -> Forall2 encoded gs dgs -> filled dgs <> [] ->
  exists chunks, parse_inc w P_file doc n = (chunks, None) /\ delivers n dgs chunks /\ chunks = chunks_of n dgs.
Proof.
  intros Hn D P E NE. exists (chunks_of n dgs). split; [|split; [now apply chunks_deliver|reflexivity]].
  rewrite (file_chunks w doc n gs dgs D P E NE). destruct n; [lia|reflexivity].
Qed.
Theorem stream_delivers w doc n gs dgs : (1 <= n)%nat -> dep_doc w doc gs -> plain_names doc -> certs_first doc -> Forall2 encoded gs dgs -> filled dgs <> [] ->
  exists chunks, parse_inc w P_stream doc n = (chunks, None) /\ delivers n dgs chunks /\ chunks = chunks_of n dgs.
Proof.
  intros Hn D P C E NE. exists (chunks_of n dgs). split; [|split; [now apply chunks_deliver|reflexivity]].
  rewrite (stream_chunks w doc n gs dgs D P C E NE). destruct n; [lia|reflexivity].
Qed.
Theorem unlimited w doc gs dgs : dep_doc w doc gs -> plain_names doc -> Forall2 encoded gs dgs -> filled dgs <> [] ->
  parse_inc w P_file doc 0 = ([filled dgs], None) /\ parse_inc w P_stream doc 0 = ([filled dgs], None).
Proof.
  intros D P E NE.
  assert (forall kind, parse_inc w kind doc 0 = ([filled dgs], None)) as H; [|split; apply H].
  intros kind. rewrite (doc_chunks w kind doc 0 gs dgs D P E).
  - rewrite finish_pack0. cbn [inc_chunks]. change (filter has_receipts dgs) with (filled dgs). destruct (filled dgs); [congruence|reflexivity].
  - intros. now left.
Qed.

Theorem parsers_agree w doc n gs dgs nparts : (1 <= n)%nat -> dep_doc w doc gs -> plain_names doc -> Forall2 encoded gs dgs -> filled dgs <> [] ->
  parse_inc w P_file doc n = parse_dict w nparts (load doc) n.
Proof.
  intros Hn D P E NE. rewrite (file_chunks w doc n gs dgs D P E NE). symmetry. apply parse_dict_chunks. exists gs, dgs.
  split; [now apply load_doc|]. split; [exact E|]. split; [exact NE|].
  assert (effective_size nparts (load doc) n = n) as ->.
  { unfold effective_size. destruct (load doc); try reflexivity. destruct (Nat.eqb_spec n 0); [lia|]. now rewrite Bool.andb_false_r. }
  destruct n; [lia|reflexivity].
Qed.

Theorem file_implies_dict w doc n chunks nparts : (1 <= n)%nat -> plain_names doc ->
  parse_inc w P_file doc n = (chunks, None) -> parse_dict w nparts (load doc) n = (chunks, None).
Proof.
  intros Hn P H. pose proof H as H0. apply file_exact in H as (gs & dgs & D & E & NE & _); [|exact P].
  now rewrite <- (parsers_agree w doc n gs dgs nparts Hn D P E NE).
Qed.

(** ** C22 for files *)

Lemma inc_faithful n dgs : faithful dgs (inc_chunks n dgs).
Proof.
  destruct n as [|n]; [|exact (dict_faithful (S n) dgs)]. split; [apply inc_single|]. cbn [inc_chunks].
  assert (forall l, filter has_receipts dgs = l -> full l) as Fu.
  { intros l <-. apply Forall_forall. intros g H. apply filter_In in H as [_ H]. unfold has_receipts in H. destruct (g_recs g); discriminate. }
  change (filled dgs) with (filter has_receipts dgs). destruct (filter has_receipts dgs) as [|g l].
  - split; [constructor|]. split; [constructor|]. intros; constructor.
  - split; [constructor; [now apply Fu|constructor]|]. split; [constructor; [discriminate|constructor]|].
    intros g' H. constructor; [now rewrite H|constructor].
Qed.

Theorem parallel_file w sch doc n ks key c idx c' gs : hash_ok w -> isolated sch -> usual_cluster c -> plain_names doc ->
  dep_doc w doc gs -> certs_or_one gs ->
  verifyParsedDEP w sch (parse_inc w P_file doc n) ks key c idx = (c', None) <->
  verifyDEP w (load doc) ks key c idx = (c', None).
Proof.
  intros HO Iso U P D C. split.
  - intros H. assert (snd (parse_inc w P_file doc n) = None) as N.
    { unfold verifyParsedDEP in H. apply with_register_Ok in H as (b & reg & a & reg' & u' & Se & B & ->).
      destruct (usual_selected _ _ _ _ _ U Se) as [Ur G]. apply par_body_spec in B; tauto. }
    destruct (parse_inc w P_file doc n) as [cs e] eqn:E. cbn [snd] in N. subst e.
    apply file_exact in E as (gs' & dgs & D' & E & NE & ->); [|exact P].
    assert (gs' = gs) as -> by (apply (dep_is_fun w (load doc)); now apply load_doc).
    apply (parallel_chunks w sch (load doc) gs dgs _ ks key c idx c' HO Iso U (load_doc _ _ _ D) E NE (inc_faithful n dgs)); assumption.
  - intros H. destruct (verifyDEP_parses _ _ _ _ _ _ _ H) as (gs' & dgs & D' & E & NE).
    assert (gs' = gs) as -> by (apply (dep_is_fun w (load doc)); [exact D'|now apply load_doc]).
    rewrite (file_chunks w doc n gs dgs D P E NE).
    apply (parallel_chunks w sch (load doc) gs dgs _ ks key c idx c' HO Iso U (load_doc _ _ _ D) E NE (inc_faithful n dgs)). exact H.
Qed.

(** ** C28 *)

Lemma filter_none {A} (f : A -> bool) l : (forall x, In x l -> f x = false) -> filter f l = [].
Proof.
  induction l as [|x l IH]; intros H; [reflexivity|]. cbn [filter]. rewrite (H x) by now left. apply IH. intros y I. apply H. now right.
Qed.

Lemma once_occurrences d k v : once d k v -> occurrences k d = 1%nat.
Proof.
  intros (a & b & -> & Na & Nb). unfold occurrences. rewrite filter_app. cbn [filter fst]. rewrite str_eqb_refl.
  rewrite !filter_none; [reflexivity| |].
  - intros [k' x] H. cbn [fst]. apply str_eqb_neq. intros ->. apply Nb. now apply (in_map fst) in H.
  - intros [k' x] H. cbn [fst]. apply str_eqb_neq. intros ->. apply Na. now apply (in_map fst) in H.
Qed.

Theorem required_elements w kind doc n chunks : plain_names doc -> parse_inc w kind doc n = (chunks, None) ->
  exists d js, doc = JDict d /\ occurrences k_bg d = 1%nat /\ In (k_bg, JList js) d
    /\ Forall (fun j => exists g, j = JDict g /\ occurrences k_recs g = 1%nat /\ occurrences k_cert g = 1%nat /\ occurrences k_certs g = 1%nat) js.
Proof.
  intros P H. destruct (parsed_doc w kind doc n chunks P H) as (gs & dgs & (d & js & -> & O & F) & _). exists d, js.
  split; [reflexivity|]. split; [exact (once_occurrences _ _ _ O)|]. split; [destruct O as (a & b & -> & _); apply in_or_app; right; now left|].
  clear -F. induction F as [|j g js gs (d & sc & chain & -> & O1 & O2 & _ & O3 & _) F IH]; constructor; [|exact IH].
  exists d. split; [reflexivity|]. split; [exact (once_occurrences _ _ _ O1)|]. split; [exact (once_occurrences _ _ _ O2)|exact (once_occurrences _ _ _ O3)].
Qed.

Lemma cert_err w s e : parseDEPCert w s = Err e -> e = MalformedDEPCertificate.
Proof.
  unfold parseDEPCert, catch, loadCert. destruct (utf8_encode (addPEMCertHeaders s)) as [b|x] eqn:E; cbn [bind].
  - destruct (w_load_cert w b); [discriminate|]. cbn [value_error]. congruence.
  - apply utf8_encode_err in E. subst x. cbn [value_error]. congruence.
Qed.
Lemma cert_j_err w j e : parseDEPCertJ w j = Err e -> e = MalformedDEPCertificate.
Proof. destruct j; cbn [parseDEPCertJ]; try congruence. apply cert_err. Qed.

Lemma d_parse_err w d p e x : d_parse w d p e = Err x -> dep_exception x \/ exists s, e = E_string s /\ utf8_encode s = Err x.
Proof.
  intros H. unfold dep_exception. unfold d_parse in H.
  repeat first
    [ discriminate
    | match type of H with Err ?a = Err _ => injection H as <-; left; cbn [In]; now auto 10 end
    | match type of H with bind (shrinkDEPReceipt ?s) _ = _ => destruct (shrinkDEPReceipt s) eqn:ES; cbn [bind] in H; [|injection H as <-; right; now eauto] end
    | match type of H with bind (parseDEPCert ?w ?s) _ = _ => destruct (parseDEPCert w s) eqn:ES; cbn [bind] in H; [|injection H as <-; apply cert_err in ES; subst; left; cbn [In]; now auto 10] end
    | match type of H with bind (if ?b then _ else _) _ = _ => destruct b; cbn [bind] in H end
    | match type of H with bind (bind (parseDEPCert ?w ?s) _) _ = _ => destruct (parseDEPCert w s) eqn:ES; cbn [bind] in H; [|injection H as <-; apply cert_err in ES; subst; left; cbn [In]; now auto 10] end
    | match type of H with (match ?b with _ => _ end) = _ => destruct b eqn:? end ].
Qed.

Lemma texts_of_events j : forall path p s, In (p, E_string s) (events path j) -> text_in j s.
Proof.
  induction j as [|b|z|f|t|l IH|d IH] using json_nested; intros path p s; try (cbn [events In]; intuition discriminate).
  - cbn [events In]. intros [H|[]]. injection H as _ <-. constructor.
  - rewrite events_list. intros [H|H]; [discriminate|]. assert (exists x, In x l /\ text_in x s) as (x & I & T).
    { induction IH as [|x l Hx _ IH]; cbn [list_events] in H.
      - destruct H as [H|[]]. discriminate.
      - apply in_app_or in H as [H|H].
        + exists x. split; [now left|]. exact (Hx _ _ _ H).
        + destruct (IH H) as (y & I & T). exists y. split; [now right|exact T]. }
    econstructor; eassumption.
  - rewrite events_dict. intros [H|H]; [discriminate|]. assert (exists k x, In (k, x) d /\ text_in x s) as (k & x & I & T).
    { induction IH as [|[k x] d Hx _ IH]; cbn [dict_events] in H.
      - destruct H as [H|[]]. discriminate.
      - destruct H as [H|H]; [discriminate|]. apply in_app_or in H as [H|H].
        + exists k, x. split; [now left|]. exact (Hx _ _ _ H).
        + destruct (IH H) as (k' & y & I & T). exists k', y. split; [now right|exact T]. }
    econstructor; eassumption.
Qed.

Lemma mapM_err {A B} (f : A -> result B) l e : mapM f l = Err e -> exists x, In x l /\ f x = Err e.
Proof.
  induction l as [|x l IH]; cbn [mapM]; [discriminate|]. destruct (f x) eqn:E; cbn [bind].
  - destruct (mapM f l) eqn:M; cbn [bind]; [discriminate|]. intros H. injection H as <-. destruct (IH eq_refl) as (y & I & Y). exists y. split; [now right|exact Y].
  - intros H. injection H as <-. exists x. split; [now left|exact E].
Qed.

Lemma need_err w kind doc i d x : needCerts w kind doc i d = Err x -> dep_exception x \/ kind = P_file /\ (x = PyIndexError \/ x = PyTypeError).
Proof.
  unfold dep_exception. destruct kind; cbn [needCerts].
  - intros H. injection H as <-. left. now left.
  - discriminate.
  - unfold index. destruct (nth_error (items p_cert [] doc) i); cbn [bind]; [|intros H; injection H as <-; auto].
    destruct (nth_error (items p_certs [] doc) i) as [cl|]; cbn [bind]; [|intros H; injection H as <-; auto].
    destruct (opt_cert w j) eqn:E; cbn [bind].
    + destruct (iter cl) eqn:I; cbn [bind].
      * destruct (mapM (parseDEPCertJ w) a0) eqn:M; cbn [bind]; [discriminate|]. intros H. injection H as <-. apply mapM_err in M as (y & _ & Y).
        apply cert_j_err in Y. subst. left. cbn [In]. auto 10.
      * intros H. injection H as <-. right. split; [reflexivity|]. right. unfold iter in I. destruct cl; congruence.
    + intros H. injection H as <-. left. assert (e = MalformedDEPCertificate) as ->.
      { unfold opt_cert in E. destruct j as [| | | |[|]| |]; try discriminate; destruct (parseDEPCertJ w _) eqn:Y in E; try discriminate;
          cbn [bind] in E; injection E as <-; now apply cert_j_err in Y. }
      cbn [In]. auto 10.
Qed.

Lemma loop_err w kind doc n evs : forall d got cs x, inc_loop w kind doc n evs d got = (cs, Some x) ->
  dep_exception x \/ (exists p s, In (p, E_string s) evs /\ utf8_encode s = Err x)
  \/ (kind = P_file /\ n <> 0%nat /\ (x = PyIndexError \/ x = PyTypeError)).
Proof.
  induction evs as [|[p e] evs IH]; intros d got cs x H; cbn [inc_loop] in H.
  - destruct (fst (getChunk (d_mode d) d)); [|discriminate]. destruct got; [discriminate|]. injection H as _ <-. left. now left.
  - destruct (d_parse w d p e) as [d'|x'] eqn:P.
    + cbv zeta in H. destruct (d_ready (d_mode d) n d') eqn:R.
      * destruct (match needCrt (d_mode d) d' with None => Ok d' | Some i => needCerts w kind doc i d' end) as [d2|x'] eqn:E.
        -- unfold s_cons in H. destruct (inc_loop w kind doc n evs (snd (getChunk (d_mode d) d2)) true) as [cs' o] eqn:L. cbn [fst snd] in H.
           injection H as _ ->. destruct (IH _ _ _ _ L) as [H|[(p' & s & I & U)|H]]; [now left| |right; now right].
           right. left. exists p', s. split; [now right|exact U].
        -- injection H as _ <-. destruct (needCrt (d_mode d) d'); [|discriminate]. apply need_err in E as [E|[E1 E2]]; [now left|].
           right. right. split; [exact E1|]. split; [|exact E2]. intros ->. unfold d_ready in R. discriminate.
      * destruct (IH _ _ _ _ H) as [H'|[(p' & s & I & U)|H']]; [now left| |right; now right].
        right. left. exists p', s. split; [now right|exact U].
    + injection H as _ <-. apply d_parse_err in P as [P|(s & -> & U)]; [now left|]. right. left. exists p, s. split; [now left|exact U].
Qed.

Theorem inc_exceptions w kind doc n chunks x : parse_inc w kind doc n = (chunks, Some x) ->
  dep_exception x
  \/ (x = PyUnicodeEncodeError /\ exists s, text_in doc s /\ utf8_encode s = Err x)
  \/ (kind = P_file /\ n <> 0%nat /\ (x = PyIndexError \/ x = PyTypeError)).
Proof.
  intros H. apply loop_err in H as [H|[(p & s & I & U)|H]]; [now left| |right; now right].
  right. left. split; [exact (utf8_encode_err _ _ U)|]. exists s. split; [|exact U]. exact (texts_of_events _ _ _ _ I).
Qed.

Lemma group_err w j x : parseDEPGroup w j = Err x -> dep_exception x \/ x = PyTypeError
  /\ exists g jr, j = JDict g /\ dict_get g k_recs = Some jr /\ iter jr = Err x.
Proof.
  unfold dep_exception, parseDEPGroup. intros H. destruct j as [| | | | | |g]; try (injection H as <-; left; cbn [In]; now auto 10).
  destruct (dict_get g k_recs) as [jr|] eqn:E1; [|injection H as <-; left; cbn [In]; now auto 10].
  destruct (dict_get g k_cert) as [jc|]; [|injection H as <-; left; cbn [In]; now auto 10].
  destruct (dict_get g k_certs) as [jl|]; [|injection H as <-; left; cbn [In]; now auto 10].
  destruct (iter jr) as [recs|e] eqn:I; cbn [bind] in H.
  - destruct jc; try (injection H as <-; left; cbn [In]; now auto 10). destruct jl; try (injection H as <-; left; cbn [In]; now auto 10).
    destruct (opt_cert w (JStr s)) eqn:O; cbn [bind] in H.
    + destruct (mapM (parseDEPCertJ w) l) eqn:M; cbn [bind] in H; [discriminate|]. injection H as <-. apply mapM_err in M as (y & _ & Y).
      apply cert_j_err in Y. subst. left. cbn [In]. auto 10.
    + injection H as <-. left. unfold opt_cert in O. destruct s as [|c0 s0]; [discriminate|]. destruct (parseDEPCertJ w _) eqn:Y in O; [discriminate|].
      cbn [bind] in O. injection O as <-. apply cert_j_err in Y. subst. cbn [In]. auto 10.
  - injection H as <-. right. assert (e = PyTypeError) as -> by (unfold iter in I; destruct jr; congruence). split; [reflexivity|]. eauto.
Qed.

Lemma shrink_err j x : shrinkJ j = Err x -> (x = PyAttributeError /\ forall s, j <> JStr s) \/ exists s, j = JStr s /\ utf8_encode s = Err x.
Proof. destruct j; cbn [shrinkJ]; intros H; try (left; split; [congruence|discriminate]). right. eauto. Qed.

Lemma gen_recs_exn n c ch recs : forall chunk_ len nextrecs done x, gen_recs n c ch recs chunk_ len nextrecs = (done, Err x) ->
  exists j, In j recs /\ shrinkJ j = Err x.
Proof.
  induction recs as [|j recs IH]; intros chunk_ len nextrecs done x H; cbn [gen_recs] in H; [discriminate|].
  destruct (shrinkJ j) as [b|e] eqn:E.
  - cbv zeta in H. destruct (n <=? S len)%nat.
    + destruct (gen_recs n c ch recs [] 0 []) as [d o] eqn:G. cbn [fst snd] in H. injection H as _ ->. destruct (IH _ _ _ _ _ G) as (y & I & Y).
      exists y. split; [now right|exact Y].
    + destruct (IH _ _ _ _ _ H) as (y & I & Y). exists y. split; [now right|exact Y].
  - injection H as _ <-. exists j. split; [now left|exact E].
Qed.

(** How the groups can fail *)
Definition group_fault (js : list json) (x : exn) : Prop :=
  exists g jr, In (JDict g) js /\ dict_get g k_recs = Some jr /\
    (iter jr = Err x \/ exists l j, iter jr = Ok l /\ In j l /\ shrinkJ j = Err x).

Lemma fault_cons j js x : group_fault js x -> group_fault (j :: js) x.
Proof. intros (g & jr & I & H). exists g, jr. split; [now right|exact H]. Qed.

Lemma parse_iter w j recs c ch : parseDEPGroup w j = Ok (recs, c, ch) -> exists g jr, j = JDict g /\ dict_get g k_recs = Some jr /\ iter jr = Ok recs.
Proof.
  unfold parseDEPGroup. intros H. destruct j as [| | | | | |g]; try discriminate.
  destruct (dict_get g k_recs) as [jr|] eqn:E1; [|discriminate]. destruct (dict_get g k_cert) as [jc|]; [|discriminate].
  destruct (dict_get g k_certs) as [jl|]; [|discriminate]. apply bind_Ok in H as (r & I & H).
  destruct jc; try discriminate. destruct jl; try discriminate. apply bind_Ok in H as (c' & _ & H). apply bind_Ok in H as (ch' & _ & H).
  apply Ok_inj in H. injection H as <- _ _. eauto.
Qed.

Lemma gen_groups_exn w js : forall cs x, gen_groups w js = (cs, Some x) -> dep_exception x \/ group_fault js x.
Proof.
  induction js as [|j js IH]; intros cs x H; cbn [gen_groups] in H; [discriminate|].
  destruct (parseDEPGroup w j) as [[[recs c] ch]|e] eqn:P; cbn [bind fst snd] in H.
  - destruct (mapM shrinkJ recs) as [bs|e] eqn:M; cbn [bind] in H.
    + destruct bs; cbn [g_recs] in H.
      * destruct (IH _ _ H) as [D|D]; [now left|right; now apply fault_cons].
      * unfold s_cons in H. destruct (gen_groups w js) as [cs' o]. cbn [fst snd] in H. injection H as _ ->.
        destruct (IH _ _ eq_refl) as [D|D]; [now left|right; now apply fault_cons].
    + injection H as _ <-. right. apply mapM_err in M as (y & I & Y). apply parse_iter in P as (g & jr & -> & E1 & E2).
      exists g, jr. split; [now left|]. split; [exact E1|]. right. eauto.
  - injection H as _ <-. apply group_err in P as [P|(_ & g & jr & -> & E1 & E2)]; [now left|]. right. exists g, jr. split; [now left|]. auto.
Qed.

Lemma gen_chunks_exn w n js : forall chunk_ len cs x, gen_chunks w n js chunk_ len = (cs, Some x) -> dep_exception x \/ group_fault js x.
Proof.
  induction js as [|j js IH]; intros chunk_ len cs x H; cbn [gen_chunks] in H.
  - destruct (0 <? len)%nat; discriminate.
  - destruct (parseDEPGroup w j) as [[[recs c] ch]|e] eqn:P.
    + destruct (gen_recs n c ch recs chunk_ len []) as [done [[[chunk' len'] nx]|e]] eqn:G.
      * cbv zeta in H. destruct (gen_chunks w n js _ len') as [cs' o] eqn:R in H. cbn [fst snd] in H. injection H as _ ->.
        destruct (IH _ _ _ _ R) as [D|D]; [now left|right; now apply fault_cons].
      * injection H as _ <-. right. apply gen_recs_exn in G as (y & I & Y). apply parse_iter in P as (g & jr & -> & E1 & E2).
        exists g, jr. split; [now left|]. split; [exact E1|]. right. eauto.
    + injection H as _ <-. apply group_err in P as [P|(_ & g & jr & -> & E1 & E2)]; [now left|]. right. exists g, jr. split; [now left|]. auto.
Qed.

Lemma dict_err w nparts dep n chunks x : parse_dict w nparts dep n = (chunks, Some x) ->
  dep_exception x \/ exists d js, dep = JDict d /\ dict_get d k_bg = Some (JList js) /\ group_fault js x.
Proof.
  unfold parse_dict. intros H. destruct dep as [| | | | | |d]; try (injection H as _ <-; left; unfold dep_exception; cbn [In]; now auto 10).
  destruct (dict_get d k_bg) as [jb|] eqn:E; [|injection H as _ <-; left; unfold dep_exception; cbn [In]; now auto 10].
  destruct jb as [| | | | |[|j js]|]; try (injection H as _ <-; left; unfold dep_exception; cbn [In]; now auto 10).
  cbv zeta in H. set (m := if (1 <? nparts)%nat && (n =? 0)%nat then ceil_div (totalRecsInDictDEP d) nparts else n) in H. destruct (groupChunkGen w m (j :: js)) as [cs o] eqn:G.
  assert (o = Some x \/ dep_exception x) as [->|D].
  { destruct cs as [|c0 cs]; [destruct o as [e|]|]; cbn [s_raise] in H.
    - left. congruence.
    - right. unfold s_raise in H. injection H as _ <-. now left.
    - left. congruence. }
  2:{ now left. }
  assert (dep_exception x \/ group_fault (j :: js) x) as [D|D].
  { unfold groupChunkGen in G. destruct (m =? 0)%nat; [exact (gen_groups_exn _ _ _ _ G)|exact (gen_chunks_exn _ _ _ _ _ _ _ G)]. }
  - now left.
  - right. eauto.
Qed.

Theorem dict_exceptions w nparts dep n chunks x : parse_dict w nparts dep n = (chunks, Some x) ->
  dep_exception x \/ In x [PyTypeError; PyAttributeError; PyUnicodeEncodeError].
Proof.
  intros H. apply dict_err in H as [H|(d & js & _ & _ & g & jr & _ & _ & [I|(l & j & _ & _ & S)])]; [now left| |].
  - right. unfold iter in I. destruct jr; try discriminate; injection I as <-; now left.
  - right. apply shrink_err in S as [[-> _]|(s & _ & S)]; [cbn [In]; auto|]. apply utf8_encode_err in S. subst. cbn [In]. auto.
Qed.

Theorem dict_regular w nparts dep n chunks x : receipts_are_texts dep -> parse_dict w nparts dep n = (chunks, Some x) ->
  dep_exception x \/ (x = PyUnicodeEncodeError /\ exists s, text_in dep s /\ utf8_encode s = Err x).
Proof.
  intros R H. apply dict_err in H as [H|(d & js & -> & E & g & jr & Ig & Er & F)]; [now left|].
  destruct (R d js g jr eq_refl E Ig Er) as (texts & ->). right. destruct F as [F|(l & j & F & I & S)]; [discriminate|].
  cbn [iter] in F. apply Ok_inj in F. subst l. apply in_map_iff in I as (s & <- & I). cbn [shrinkJ] in S. unfold shrinkDEPReceipt in S.
  split; [exact (utf8_encode_err _ _ S)|]. exists s. split; [|exact S].
  assert (forall (d : list (str * json)) k v, dict_get d k = Some v -> In (k, v) d) as G.
  { intros d0 k v. induction d0 as [|[k' v'] d0 IH]; cbn [dict_get]; [discriminate|]. destruct (str_eqb k' k) eqn:X.
    - apply str_eqb_eq in X. subst. intros Y. injection Y as ->. now left.
    - intros Y. right. now apply IH. }
  apply (text_dict d k_bg (JList js)); [now apply G|]. apply (text_list js (JDict g)); [exact Ig|].
  apply (text_dict g k_recs (JList (map JStr texts))); [now apply G|]. apply (text_list _ (JStr s)); [now apply in_map|constructor].
Qed.
