(** What the graphical program does with DEPs. *)
From Coq Require Import Lia ZifyClasses ZifyN ZifyNat ZifyBool.
From Verif Require Import PyBase World Codec PyFloat PyTime Algo Receipt DepBase Json Pem KeyStore VerifyReceipt State DepParser Verify
  ListFacts CodecFacts CodecFacts2 SpecReceipt ReceiptFacts RoundTrip RoundTrip2 SpecDep VerifyFacts DepFacts SpecCluster SpecDoc SpecChunks SpecState AcceptFacts
  ClusterFacts UpdateFacts ParFacts PartsFacts ParTheorems DictFacts ChunkFacts BalanceFacts IncTheorems SeqFacts SpecClean CleanFacts CleanParFacts ReceiptCli Gui SpecGui.
Open Scope N_scope.
Open Scope py_scope.

(** ** Loading *)
Lemma show_Done {A} c (r : result A) a : show c r = Done a <-> r = Ok a.
Proof. destruct r as [x|e]; cbn [show]; [split; congruence|]. destruct (c e); split; discriminate. Qed.

Lemma mapM_index (l : list dgroup) : mapM (fun c : chunk => index c 0) (map (fun g => [g]) l) = Ok l.
Proof. induction l as [|g l IH]; cbn [map mapM]; [reflexivity|]. cbn [index nth_error bind]. rewrite IH. reflexivity. Qed.

Lemma group_display_spec w g dg n : encoded g dg -> group_display w dg = Ok n <-> displays w g n.
Proof.
  intros (T & C & H). unfold group_display, displays, numSerialToKeyId. fold (serial_text w).
  assert (forall ids, mapM (fun cr => do jws <- expandDEPReceipt cr; do rp <- fromJWSString w jws; Ok (r_receiptId (fst rp))) (g_recs dg) = Ok ids
    <-> Forall2 (fun t i => exists r, reads w t r /\ i = r_receiptId r) (gr_texts g) ids) as M.
  { clear C H. induction T as [|t b ts bs E T IH]; intros ids; cbn [mapM].
    - split; [intros X; apply Ok_inj in X; subst; constructor|]. intros X. inversion X. reflexivity.
    - assert (utf8_decode b = Ok t) as D by now apply utf8_decode_encode.
      unfold expandDEPReceipt at 1. rewrite D. cbn [catch bind]. split.
      + intros X. apply bind_Ok in X as (i & Xi & X). apply bind_Ok in X as (is & Xs & X). apply Ok_inj in X. subst ids.
        apply bind_Ok in Xi as ([r a] & J & Xi). apply parse_reads in J as [_ R]. apply Ok_inj in Xi. cbn [fst] in Xi. subst i.
        constructor; [eauto|]. now apply IH.
      + intros X. inversion X as [|? i ? is (r & R & ->) X']; subst.
        assert (fromJWSString w t = Ok (r, lit "R1")) as -> by now apply parse_reads. cbn [bind fst].
        apply IH in X'. rewrite X'. reflexivity. }
  destruct n as [nc nl nr]. cbn [n_cert n_chain n_receipts]. rewrite C, H. split.
  - intros X. apply bind_Ok in X as (ids & X1 & X). apply Ok_inj in X. injection X as <- <- <-. apply M in X1. auto.
  - intros (-> & -> & F). apply M in F. rewrite F. reflexivity.
Qed.

Theorem load_dep_spec w file dep tree :
  load_dep w file = Done (dep, tree) <->
  exists gs, dep_is w (load file) gs /\ occupied gs <> []
    /\ Forall2 encoded (occupied gs) dep /\ Forall2 (displays w) (occupied gs) tree.
Proof.
  unfold load_dep. cbv zeta. split.
  - intros H. destruct (show _ (do _x <- finished _; mapM (fun c : chunk => index c 0) _)) as [d|e|e] eqn:S; try discriminate.
    apply show_Done in S. apply show_Done in H. apply bind_Ok in S as (x & Fi & S). unfold finished in Fi.
    destruct (parse_dict w 1 (load file) 0) as [cs o] eqn:P. cbn [fst snd] in *. destruct o; [discriminate|].
    apply parse_dict_spec in P as (gs & dgs & D & T & -> & NE). rewrite mapM_index in S. apply Ok_inj in S. subst d.
    apply bind_Ok in H as (t & M & H). apply Ok_inj in H. injection H as <- <-.
    apply filled_occupied in T. exists gs. split; [exact D|]. split; [intros E; rewrite E in T; inversion T; congruence|].
    split; [exact T|]. apply mapM_Ok in M. clear -T M.
    revert t M. induction T as [|g dg l l' E T IH]; intros t M; inversion M as [|? n ? t' M1 M2]; subst; constructor; [|now apply IH].
    eapply group_display_spec; eassumption.
  - intros (gs & D & NO & E & Di).
    assert (exists dgs, Forall2 tuple_for gs dgs /\ filled dgs = dep) as (dgs & T & Fd).
    { clear NO Di D. revert dep E. induction gs as [|g gs IH]; intros dep E; [inversion E; exists []; split; [constructor|reflexivity]|].
      unfold occupied in E. cbn [filter] in E. destruct (gr_texts g) as [|t ts] eqn:Eg.
      - destruct (IH dep E) as (dgs & T & F). exists (DGroup [] (gr_cert g) (gr_chain g) :: dgs). split; [|exact F].
        constructor; [|exact T]. split; [rewrite Eg; constructor|split; reflexivity].
      - inversion E as [|? dg ? dep' E1 E2]; subst. destruct (IH dep' E2) as (dgs & T & <-). exists (dg :: dgs). split; [now constructor|].
        unfold filled. cbn [filter]. destruct E1 as (E1 & _). rewrite Eg in E1. inversion E1; subst. reflexivity. }
    assert (parse_dict w 1 (load file) 0 = (map (fun g => [g]) (filled dgs), None)) as ->.
    { apply parse_dict_spec. exists gs, dgs. split; [exact D|]. split; [exact T|]. split; [reflexivity|]. rewrite Fd. intros ->. inversion E. congruence. }
    cbn [finished fst snd bind]. rewrite mapM_index, Fd. cbn [show].
    assert (mapM (group_display w) dep = Ok tree) as ->; [|reflexivity].
    apply mapM_Ok. clear -E Di. revert tree Di. induction E as [|g dg l l' E1 E IH]; intros tree Di; inversion Di as [|? n ? t' D1 D2]; subst; constructor; [|now apply IH].
    eapply group_display_spec; eassumption.
Qed.

(** ** Distributing the work *)
Lemma assigned_app {A} (a b : list (list A * nat)) : assigned (a ++ b) = assigned a ++ assigned b.
Proof. unfold assigned. now rewrite flat_map_app. Qed.

Definition lookup (gs : list vgroup) (x : bytes * nat) : bytes * verifier := (fst x, nth (snd x) (map snd gs) (fromKeyStore [])).

Lemma flat_app a b : flat (a ++ b) = flat a ++ flat b.
Proof. unfold flat. apply flat_map_app. Qed.
Lemma flat_with gs p : flat (map (with_verifiers gs) p) = map (lookup gs) (assigned p).
Proof.
  unfold flat, assigned. induction p as [|[recs v] p IH]; cbn [map flat_map]; [reflexivity|]. rewrite map_app, <- IH. f_equal.
  cbn [with_verifiers fst snd]. now rewrite map_map.
Qed.

Lemma numbered_assigned gs : map (lookup gs) (assigned (numbered gs)) = flat gs.
Proof.
  unfold numbered. assert (forall pre rest, gs = pre ++ rest ->
    map (lookup gs) (assigned (combine (map fst rest) (List.seq (List.length pre) (List.length rest)))) = flat rest) as H.
  { intros pre rest. revert pre. induction rest as [|[recs v] rest IH]; intros pre E; [reflexivity|].
    cbn [map List.length List.seq combine]. change ((fst (recs, v), List.length pre) :: combine (map fst rest) (List.seq (S (List.length pre)) (List.length rest)))
      with ([(recs, List.length pre)] ++ combine (map fst rest) (List.seq (S (List.length pre)) (List.length rest))).
    rewrite assigned_app, map_app. specialize (IH (pre ++ [(recs, v)])). rewrite app_length in IH. cbn [List.length] in IH. rewrite Nat.add_1_r in IH.
    rewrite IH by now rewrite <- app_assoc. cbn [flat flat_map]. f_equal. cbn [assigned flat_map fst snd]. rewrite app_nil_r, map_map. apply map_ext.
    intros r. unfold lookup. cbn [fst snd]. f_equal. rewrite E, map_app, app_nth2; rewrite map_length; [|lia]. rewrite Nat.sub_diag. reflexivity. }
  exact (H [] gs eq_refl).
Qed.

Lemma with_proper gs p : Forall (fun g => proper (snd g)) gs -> Forall (fun g => proper (snd g)) (map (with_verifiers gs) p).
Proof.
  intros F. apply Forall_forall. intros x Hx. apply in_map_iff in Hx as ([recs i] & <- & _). cbn [with_verifiers snd fst].
  destruct (nth_in_or_default i (map snd gs) (fromKeyStore [])) as [H| ->]; [|right; now exists []].
  apply in_map_iff in H as (g & <- & H). exact (proj1 (Forall_forall _ _) F g H).
Qed.

Lemma chunk_trust_rule w ks dgs : dgs <> [] -> chunk_trust w ks dgs <-> certs_ok w ks dgs \/ exists g, dgs = [g] /\ g_cert g = None.
Proof.
  intros NE. unfold chunk_trust, certs_ok. split.
  - intros F. destruct dgs as [|g [|g' l]]; [congruence| |].
    + destruct (g_cert g) as [c|] eqn:E; [|right; exists g; auto]. left. constructor; [|constructor]. exists c. split; [exact E|].
      apply Forall_inv in F. now rewrite E in F.
    + left. eapply Forall_impl; [|exact F]. cbn beta. intros d Hd. destruct (g_cert d) as [c|]; [eauto|discriminate].
  - intros [F|(g & -> & N)].
    + eapply Forall_impl; [|exact F]. cbn beta. intros d (c & -> & T). exact T.
    + constructor; [rewrite N; reflexivity|constructor].
Qed.

(** ** The button *)
Lemma main_results_Done {A} (l : list (shown A)) ids : main_results l = Done ids <-> l = map Done ids.
Proof.
  revert ids. induction l as [|x l IH]; intros ids; cbn [main_results].
  - split; [intros H; injection H as <-; reflexivity|]. destruct ids; [reflexivity|discriminate].
  - destruct x as [a|e|e]; [|split; [discriminate|destruct ids; discriminate]..]. split.
    + intros H. destruct (main_results l) as [r|e|e]; try discriminate. injection H as <-. cbn [map]. f_equal. now apply IH.
    + destruct ids as [|b ids]; [discriminate|]. cbn [map]. intros H. injection H as -> H. apply IH in H. now rewrite H.
Qed.
Lemma lost_Done {A} (ids : list A) : lost_in (map Done ids) = None.
Proof. induction ids; [reflexivity|exact IHids]. Qed.

Lemma main_task_Done w key a u : main_task w key a = Done u <-> exists reg, verifyGroupsWithVerifiers w (fst a) key None (snd a) (used_new B_unique) = Ok (reg, u).
Proof.
  unfold main_task. rewrite show_Done, bind_Ok. split.
  - intros ([reg x] & H & E). apply Ok_inj in E. cbn [snd] in E. subst x. eauto.
  - intros (reg & H). exists (reg, u). auto.
Qed.
Lemma tasks_Done w key args ids : map (main_task w key) args = map Done ids <->
  exists outs, run_ok w key None B_unique args outs /\ ids = map snd outs.
Proof.
  unfold run_ok. revert ids. induction args as [|a args IH]; intros ids; cbn [map].
  - split; [intros H; exists []; split; [constructor|destruct ids; [reflexivity|discriminate]]|]. intros (outs & F & ->). inversion F. reflexivity.
  - split.
    + destruct ids as [|u ids]; [discriminate|]. cbn [map]. intros H. injection H as H1 H2. apply main_task_Done in H1 as (reg & H1).
      apply IH in H2 as (outs & F & ->). exists ((reg, u) :: outs). split; [now constructor|reflexivity].
    + intros (outs & F & ->). inversion F as [|? [reg u] ? outs' H1 F']; subst. cbn [map snd]. f_equal.
      * apply main_task_Done. eauto.
      * apply IH. eauto.
Qed.

Lemma run_length w key ps b args outs : run_ok w key ps b args outs -> List.length outs = List.length args.
Proof. intros H. symmetry. exact (Forall2_length _ _ _ H). Qed.

Lemma entered_typed text key : entered_key text = Ok key <-> typed_key text key.
Proof.
  unfold entered_key, typed_key. destruct text as [|c text].
  - split; [intros H; apply Ok_inj in H; left; now split|]. intros [[_ ->]|[N _]]; [reflexivity|congruence].
  - split.
    + intros H. right. split; [discriminate|]. apply bind_Ok in H as (b & B & H). apply bind_Ok in H as (k & K & H). apply Ok_inj in H. eauto.
    + intros [[X _]|(_ & b & k & B & K & ->)]; [discriminate|]. rewrite B. cbn [bind]. now rewrite K.
Qed.
Theorem button_no_key w nprocs dep ks text : (forall key, ~ typed_key text key) -> exists e, verify_button w nprocs dep ks text = Displayed e.
Proof.
  intros H. unfold verify_button. destruct (entered_key text) as [key|e] eqn:K; [|now exists e]. apply entered_typed, H in K as [].
Qed.

Lemma button_Done w nprocs dep ks text key : entered_key text = Ok key ->
  verify_button w nprocs dep ks text = Done tt <->
  exists args outs u, prepare_task w nprocs dep ks key = Ok args /\ run_ok w key None B_unique args outs
    /\ used_merge w (used_new B_unique) (map snd outs) = Ok u.
Proof.
  intros K. unfold verify_button. rewrite K. split.
  - intros H. destruct (show task_exception (prepare_task w nprocs dep ks key)) as [args|e|e] eqn:P; try discriminate. apply show_Done in P.
    cbv zeta in H. destruct (lost_in _); [discriminate|]. destruct (main_results _) as [ids|e|e] eqn:M; try discriminate.
    apply main_results_Done, tasks_Done in M as (outs & F & ->). apply show_Done in H. apply bind_Ok in H as (u & U & _). eauto 6.
  - intros (args & outs & u & P & F & U). rewrite P. cbn [show]. cbv zeta.
    assert (map (main_task w key) args = map Done (map snd outs)) as -> by (apply tasks_Done; eauto).
    rewrite lost_Done. rewrite (proj2 (main_results_Done _ (map snd outs)) eq_refl). apply show_Done. rewrite U. reflexivity.
Qed.

Theorem verify_button_spec w nprocs dep ks text key : hash_ok w -> (1 <= nprocs)%nat -> dep <> [] -> Forall (fun g => g_recs g <> []) dep ->
  entered_key text = Ok key ->
  verify_button w nprocs dep ks text = Done tt <->
  chunk_trust w ks dep /\ exists ru, verifyGroupsWithVerifiers w (map (vg ks) dep) key None new_register (used_new B_unique) = Ok ru.
Proof.
  intros HO NP NE Fu K. rewrite (button_Done w nprocs dep ks text key K). unfold prepare_task.
  set (gs := map (vg ks) dep).
  assert (forall gs', packageChunkWithVerifiers w ks dep = Ok gs' <-> chunk_trust w ks dep /\ gs' = gs) as PK by (intros gs'; now apply package_spec).
  assert (chunk_trust w ks dep -> Forall (fun g => proper (snd g)) gs) as Pr.
  { intros T. eapply package_proper. apply PK. split; [exact T|reflexivity]. }
  assert (map (lookup gs) (assigned (numbered gs)) = flat gs) as NA by apply numbered_assigned.
  assert (flat gs <> []) as NF.
  { unfold gs. destruct dep as [|g l]; [congruence|]. apply Forall_inv in Fu. cbn [map flat flat_map vg fst]. destruct (g_recs g); [congruence|discriminate]. }
  destruct (balance_spec (numbered gs) nprocs NP) as [[E _]|(pkgs & _ & B & As & L & Fp)].
  { rewrite E in NA. cbn [map] in NA. congruence. }
  set (pk := map (map (with_verifiers gs)) pkgs).
  assert (flat (concat pk) = flat gs) as FL.
  { unfold pk. rewrite <- NA, <- As. clear. induction pkgs as [|p pkgs IH]; [reflexivity|]. cbn [map concat flat_map]. rewrite flat_app, map_app, IH, flat_with. reflexivity. }
  assert (concat pk <> []) as NC by (intros E; rewrite E in FL; cbn [flat flat_map] in FL; congruence).
  assert (verifyGroupsWithVerifiers w (concat pk) key None new_register (used_new B_unique)
    = verifyGroupsWithVerifiers w gs key None new_register (used_new B_unique)) as VE.
  { rewrite !groups_vseq; [now rewrite FL|destruct gs; [now contradiction NF|discriminate]|exact NC]. }
  assert (pk <> []) as NP' by (intros E; rewrite E in NC; now apply NC).
  assert (usual new_register) as US.
  { destruct (usual_selected (new_cluster B_unique) None [] new_register [] (new_usual B_unique)) as [U _]; [|exact U].
    apply (sel_new (new_cluster B_unique)); [now left|now left]. }
  assert (guarded None new_register (used_new B_unique)) as GU by (intros _ _; reflexivity).
  assert (chunk_trust w ks dep -> all_proper pk) as AP.
  { intros T. unfold all_proper, pk. rewrite Forall_map. apply Forall_forall. intros p _. apply with_proper. now apply Pr. }
  split.
  - intros (args & outs & u & P & F & U). apply bind_Ok in P as (gs' & P1 & P). apply PK in P1 as [T ->].
    apply bind_Ok in P as (pkgs' & P2 & P). rewrite B in P2. apply Ok_inj in P2. subst pkgs'. fold pk in P. split; [exact T|].
    assert (List.length outs = List.length pk) as LO by (rewrite (run_length _ _ _ _ _ _ F); exact (predict_length _ _ _ _ _ P)).
    destruct (exists_last (l := outs)) as (outs' & o & ->); [intros ->; destruct pk; [congruence|discriminate]|].
    exists (fst o, u). rewrite <- VE. apply (batch_seq w key None pk new_register (used_new B_unique) (fst o) u NP' (AP T) US GU).
    exists args, outs', o. auto.
  - intros (T & [reg' u'] & V). rewrite <- VE in V.
    apply (batch_seq w key None pk new_register (used_new B_unique) reg' u' NP' (AP T) US GU) in V as (args & outs & o & P & F & U & _).
    exists args, (outs ++ [o]), u'. split; [|auto].
    rewrite (proj2 (PK gs) (conj T eq_refl)). cbn [bind]. rewrite B. exact P.
Qed.

Lemma displays_exist w ks gs items : Forall2 (text_item w) (dep_texts ks gs) items -> exists tree, Forall2 (displays w) gs tree.
Proof.
  revert items. induction gs as [|g gs IH]; intros items F; [exists []; constructor|]. cbn [dep_texts flat_map] in F.
  apply Forall2_app_inv_l in F as (i1 & i2 & F1 & F2 & ->). destruct (IH i2 F2) as (tree & T).
  assert (exists ids, Forall2 (fun t i => exists r, reads w t r /\ i = r_receiptId r) (gr_texts g) ids) as (ids & Fi).
  { clear -F1. revert i1 F1. induction (gr_texts g) as [|t ts IH]; intros i1 F1; [exists []; constructor|]. cbn [map] in F1.
    inversion F1 as [|? i ? l (_ & R & _) F']; subst. destruct (IH l F') as (ids & Fi). exists (r_receiptId (i_rec i) :: ids). constructor; [|exact Fi].
    exists (i_rec i). split; [exact R|reflexivity]. }
  exists (GroupNode (option_map (serial_text w) (gr_cert g)) (map (serial_text w) (gr_chain g)) ids :: tree). constructor; [|exact T].
  split; [reflexivity|]. split; [reflexivity|exact Fi].
Qed.

Theorem gui_exact w nprocs file ks text key : hash_ok w -> (1 <= nprocs)%nat -> typed_key text key ->
  (exists dep tree, load_dep w file = Done (dep, tree) /\ verify_button w nprocs dep ks text = Done tt)
  <-> exists c', verifyDEP w (load file) ks key (new_cluster B_unique) None = (c', None).
Proof.
  intros HO NP K%entered_typed.
  assert (forall gs dgs, dep_is w (load file) gs -> Forall2 tuple_for gs dgs -> filled dgs <> [] ->
    (verify_button w nprocs (filled dgs) ks text = Done tt <-> exists c', verifyDEP w (load file) ks key (new_cluster B_unique) None = (c', None))) as M.
  { intros gs dgs D T NE. rewrite (verify_button_spec w nprocs (filled dgs) ks text key HO NP NE (filled_full dgs) K).
    rewrite (chunk_trust_rule w ks _ NE), (trust_tuples w ks _ _ (filled_occupied _ _ T)).
    unfold verifyDEP. split.
    - intros (Tr & [reg' u'] & V). exists (Cluster [reg'] u'). apply with_register_Ok. exists [], new_register, [], reg', u'.
      split; [apply (sel_new (new_cluster B_unique)); now left|]. split; [|reflexivity].
      rewrite (dep_body_eq w ks key (load file) gs dgs) by assumption. exact V.
    - intros (c' & H). apply with_register_Ok in H as (b & reg & a & reg' & u' & Se & B & _).
      assert (b = [] /\ reg = new_register) as [-> ->].
      { inversion Se; subst. split; reflexivity. }
      assert (trust_rule w ks (occupied gs)) as Tr.
      { apply dep_body_spec in B as (items & p & (gs' & D' & Tr & _) & _); [|exact HO]. now rewrite (dep_is_fun _ _ _ _ D D'). }
      split; [exact Tr|]. rewrite (dep_body_eq w ks key (load file) gs dgs) in B by assumption. exists (reg', u'). exact B. }
  split.
  - intros (dep & tree & L & V). pose proof L as L'. unfold load_dep in L'. cbv zeta in L'.
    destruct (show _ (do _x <- finished _; mapM (fun c : chunk => index c 0) _)) as [d|e|e] eqn:S; try discriminate.
    apply show_Done in S. apply show_Done in L'. apply bind_Ok in S as (x & Fi & S). unfold finished in Fi.
    destruct (parse_dict w 1 (load file) 0) as [cs o] eqn:P. cbn [fst snd] in *. destruct o; [discriminate|].
    apply parse_dict_spec in P as (gs & dgs & D & T & -> & NE). rewrite mapM_index in S. apply Ok_inj in S. subst d.
    apply bind_Ok in L' as (t & _ & L'). apply Ok_inj in L'. injection L' as <- _. now apply (M gs dgs).
  - intros H. destruct H as (c' & H). destruct (verifyDEP_parses _ _ _ _ _ _ _ H) as (gs & dgs & D & E & NE).
    assert (verify_button w nprocs (filled dgs) ks text = Done tt) as V by (apply (M gs dgs D E NE); eauto).
    assert (exists tree, Forall2 (displays w) (occupied gs) tree) as (tree & Di).
    { unfold verifyDEP in H. apply with_register_Ok in H as (b & reg & a & reg' & u' & Se & B & _).
      apply dep_body_spec in B as (items & p & (gs' & D' & _ & It & _) & _); [|exact HO].
      rewrite (dep_is_fun _ _ _ _ D' D) in It. rewrite <- dep_texts_occupied in It. eapply displays_exist; exact It. }
    exists (filled dgs), tree. split; [|exact V]. apply load_dep_spec. exists gs. split; [exact D|]. split.
    + intros X. pose proof (filled_occupied _ _ E) as F. rewrite X in F. inversion F. congruence.
    + split; [exact (filled_occupied _ _ E)|exact Di].
Qed.

(** ** Every action ends *)
Lemma show_ends {A} (c : exn -> bool) (r : result A) : raises (fun e => c e = true) r -> ends (show c r).
Proof. intros H e E. destruct r as [a|x]; cbn [show] in E; [discriminate|]. rewrite (H x eq_refl) in E. discriminate. Qed.

Lemma verdict_task e : verdict e -> task_exception e = true.
Proof. now destruct e. Qed.
Lemma dep_class e : dep_exception e -> dep_exception_class e = true.
Proof. unfold dep_exception. cbn [In]. intros [<-|[<-|[<-|[<-|[<-|[<-|[]]]]]]]; reflexivity. Qed.
Lemma receipt_class e : receipt_exn e -> receipt_exception e = true.
Proof. intros (s & [->|[->|[->|[->| ->]]]]); reflexivity. Qed.

Lemma group_display_raises w g : (forall b, In b (g_recs g) -> exists t, utf8_decode b = Ok t) ->
  raises (fun e => receipt_exception e = true) (group_display w g).
Proof.
  intros H. unfold group_display. apply raises_bind; [|intros; apply raises_Ok]. induction (g_recs g) as [|b bs IH]; cbn [mapM]; [apply raises_Ok|].
  apply raises_bind; [|intros x _; apply raises_bind; [apply IH; intros y Hy; apply H; now right|intros; apply raises_Ok]].
  apply raises_bind.
  - unfold expandDEPReceipt, catch. destruct (H b (or_introl eq_refl)) as [t ->]. apply raises_Ok.
  - intros s E. apply expand_ok in E as [_ En]. apply raises_bind; [|intros; apply raises_Ok].
    intros e E. apply receipt_class. exact (fromJWSString_clean w s En e E).
Qed.

Theorem load_ends w file : receipts_are_texts (load file) -> ends (load_dep w file).
Proof.
  intros Ht. unfold load_dep. cbv zeta.
  assert (forall c, In c (fst (parse_dict w 1 (load file) 0)) -> c <> [] /\ forall g, In g c -> forall b, In b (g_recs g) -> exists t, utf8_decode b = Ok t) as F.
  { intros c Hc. destruct (dict_texts w (load file) c Ht Hc) as [N K]. split; [exact N|]. intros g Hg b Hb. destruct (K g b Hg Hb) as (t & _ & D). eauto. }
  assert (raises (fun e => dep_exception_class e || value_error e = true) (finished (parse_dict w 1 (load file) 0))) as R.
  { unfold finished. destruct (parse_dict w 1 (load file) 0) as [cs o] eqn:P. cbn [snd]. destruct o as [x|]; [|apply raises_Ok]. apply raises_Err.
    destruct (dict_regular _ _ _ _ _ _ Ht P) as [D|(-> & _)]; [now rewrite (dep_class _ D)|reflexivity]. }
  destruct (finished (parse_dict w 1 (load file) 0)) as [x|e]; cbn [bind].
  2:{ cbn [show]. rewrite (R e eq_refl). discriminate. }
  generalize dependent (fst (parse_dict w 1 (load file) 0)). intros cs F. clear R.
  assert (exists d, mapM (fun c : chunk => index c 0) cs = Ok d /\ forall g, In g d -> forall b, In b (g_recs g) -> exists t, utf8_decode b = Ok t) as (d & -> & Fd).
  { induction cs as [|c cs IH]; cbn [mapM]; [exists []; split; [reflexivity|intros g []]|].
    destruct IH as (d & -> & Fd); [intros c' Hc'; apply F; now right|]. destruct (F c (or_introl eq_refl)) as [N Fc]. destruct c as [|g c]; [congruence|].
    exists (g :: d). split; [reflexivity|]. intros g' [<-|Hg]; [apply Fc; now left|now apply Fd]. }
  cbn [show]. apply show_ends. apply raises_bind; [|intros; apply raises_Ok].
  induction d as [|g d IH]; cbn [mapM]; [apply raises_Ok|]. apply raises_bind; [apply group_display_raises; apply Fd; now left|intros y _].
  apply raises_bind; [apply IH; intros g' Hg; apply Fd; now right|intros; apply raises_Ok].
Qed.

Lemma short_cents w r t e : reads w t r -> (let f := r_fields r in Forall (fun a : str => (List.length a <= 15)%nat) [f_a f; f_b f; f_c f; f_d f; f_e f]) -> cents r <> Err e.
Proof.
  intros R Sh C. destruct (AmountFacts.reads_printed _ _ _ R) as [zs Pz]. rewrite (AmountFacts.reads_cents _ _ _ zs R Pz) in C; [discriminate|].
  cbv zeta in Sh. unfold SpecAmount.printed_amounts in Pz. cbv zeta in Pz. clear - Pz Sh.
  induction Pz as [|a z l zs A F IH]; [constructor|]. inversion Sh as [|? ? L Sh']; subst. constructor; [exact (short_moderate _ _ _ A L)|exact (IH Sh')].
Qed.

Theorem button_ends w nprocs dep ks text : (1 <= nprocs)%nat -> dep <> [] -> Forall (fun g => g_recs g <> []) dep ->
  (forall key, entered_key text = Ok (Some key) -> List.length key = 32%nat /\ short_groups w dep) ->
  ends (verify_button w nprocs dep ks text).
Proof.
  intros NP NE Fu HK. unfold verify_button. destruct (entered_key text) as [key|e] eqn:K; [|discriminate].
  set (P := fun e => task_exception e = true).
  assert (forall e, verdict e -> P e) as HV by exact verdict_task.
  assert (forall k, key = Some k -> List.length k <> 32%nat -> P InvalidKey) as HI.
  { intros k -> N. destruct (HK k eq_refl) as [L _]. congruence. }
  assert (Forall (fun g => Forall (summed w P key) (g_recs g)) dep) as Sm.
  { apply Forall_forall. intros g Hg. apply Forall_forall. intros b Hb t r D R Kn e E. exfalso.
    destruct key as [k|]; [|congruence]. destruct (HK k eq_refl) as [_ Sh]. apply utf8_encode_decode in D. exact (short_cents w r t e R (Sh g b t r Hg Hb D R) E). }
  set (U := fun u => backend_of u = B_unique).
  assert (forall u i, U u -> U (used_add u i)) as HU by (intros u i; unfold U; now rewrite backend_add).
  assert (forall u i, U u -> raises P (used_check w u i)) as Hck.
  { intros u i Hu. apply used_check_raises; [exact HV|]. intros a b ->. discriminate. }
  assert (forall u v, U u -> U v -> raises P (used_merge1 w u v) /\ forall u', used_merge1 w u v = Ok u' -> U u') as HM.
  { intros u v Hu Hv. unfold U in *. destruct (merge1_raises P w u v HV) as [A B]; [congruence|congruence|]. split; [exact A|]. intros u' E. rewrite (B u' E). exact Hu. }
  assert (raises P (prepare_task w nprocs dep ks key) /\ forall args, prepare_task w nprocs dep ks key = Ok args -> Forall (task_ready w P key) args) as [R1 R2].
  { unfold prepare_task. pose proof (package_raises w P HV ks dep) as A. destruct (packageChunkWithVerifiers w ks dep) as [gs|e] eqn:Ek; cbn [bind].
    2:{ split; [apply raises_Err; now apply A|discriminate]. }
    pose proof (package_proper _ _ _ _ Ek) as Pr. apply package_recs in Ek.
    assert (assigned (numbered gs) <> []) as NA.
    { pose proof (numbered_assigned gs) as E. intros X. rewrite X in E. cbn [map] in E. symmetry in E. destruct dep as [|g l]; [congruence|]. cbn [map] in Ek.
      destruct gs as [|[r v] gs]; [discriminate|]. injection Ek as Er _. cbn [fst] in Er. apply Forall_inv in Fu. cbn [flat flat_map fst] in E. rewrite <- Er in Fu.
      apply app_eq_nil in E as [E _]. apply map_eq_nil in E. contradiction. }
    destruct (balance_spec (numbered gs) nprocs NP) as [[E _]|(pkgs & _ & B & As & L & Fp)]; [congruence|]. rewrite B. cbn [bind].
    assert (Forall (Forall (fun g => Forall (summed w P key) (fst g))) (map (map (with_verifiers gs)) pkgs)) as Fs.
    { rewrite Forall_map. apply Forall_forall. intros p Hp. rewrite Forall_map. apply Forall_forall. intros [recs i] Hg. cbn [with_verifiers fst].
      apply Forall_forall. intros b Hb. assert (In (b, i) (flat_map assigned pkgs)) as Hi.
      { apply in_flat_map. exists p. split; [exact Hp|]. unfold assigned. apply in_flat_map. exists (recs, i). split; [exact Hg|].
        cbn [fst snd]. apply in_map_iff. eauto. }
      rewrite As in Hi. apply in_flat_map in Hi as ([recs' i'] & Hn & Hb'). cbn [fst snd] in Hb'. apply in_map_iff in Hb' as (b' & E & Hb'). injection E as -> ->.
      unfold numbered in Hn. apply in_combine_l in Hn. rewrite Ek in Hn. apply in_map_iff in Hn as (g & <- & Hg').
      exact (proj1 (Forall_forall _ _) (proj1 (Forall_forall _ _) Sm g Hg') b Hb'). }
    assert (forall t, s_last new_register = Some t -> encodable t) as Hl by discriminate.
    split; [exact (proj1 (predict_raises w P HV key HI _ new_register Hl Fs))|]. intros args Ea.
    apply (ready w P HV key HI (map (map (with_verifiers gs)) pkgs) args new_register Hl); [|exact Fs|exact Ea].
    unfold all_proper. rewrite Forall_map. apply Forall_forall. intros p _. now apply with_proper. }
  apply show_ends in R1. destruct (prepare_task w nprocs dep ks key) as [args|e] eqn:Ep.
  2:{ unfold P in R1. destruct (show task_exception (Err e)) as [a|x|x] eqn:X; [cbn [show] in X; destruct (task_exception e); discriminate X|intros z Hz; discriminate Hz|now specialize (R1 x)]. }
  cbn [show]. cbv zeta. specialize (R2 args eq_refl).
  assert (Forall (fun s => ends s /\ forall u, s = Done u -> U u) (map (main_task w key) args)) as Fm.
  { rewrite Forall_map. eapply Forall_impl; [|exact R2]. cbn beta. intros a (A1 & A2 & A3). unfold main_task.
    destruct (groups_raises w P HV key HI U HU Hck None ltac:(discriminate) (fst a) (snd a) (used_new B_unique) A1 A2 eq_refl A3) as [G1 G2].
    split; [apply show_ends; apply raises_bind; [exact G1|intros; apply raises_Ok]|].
    intros u E. apply show_Done in E. apply bind_Ok in E as (ru & E & X). apply Ok_inj in X. subst u. now apply G2. }
  generalize dependent (map (main_task w key) args). intros results Fm. clear R1 R2 Ep args.
  assert (lost_in results = None) as ->.
  { induction Fm as [|s l [S _] F IH]; [reflexivity|]. cbn [lost_in]. destruct s as [a|x|x]; [exact IH|exact IH|now specialize (S x)]. }
  assert (ends (main_results results) /\ forall ids, main_results results = Done ids -> Forall U ids) as [E1 E2].
  { induction Fm as [|s l [S SU] F [IH1 IH2]]; cbn [main_results]; [split; [discriminate|]; intros ids E; injection E as <-; constructor|].
    destruct s as [a|x|x]; [|split; discriminate|now specialize (S x)]. destruct (main_results l) as [r|x|x]; [|split; discriminate|now specialize (IH1 x)].
    split; [discriminate|]. intros ids E. injection E as <-. constructor; [now apply SU|now apply IH2]. }
  destruct (main_results results) as [ids|x|x]; [|discriminate|now specialize (E1 x)].
  apply show_ends. apply raises_bind; [|intros; apply raises_Ok].
  exact (proj1 (used_merge_raises w P U HM (used_new B_unique) ids eq_refl (E2 ids eq_refl))).
Qed.

Theorem gui_ends w nprocs file dep tree ks text : (1 <= nprocs)%nat -> load_dep w file = Done (dep, tree) ->
  (forall key, typed_key text (Some key) -> List.length key = 32%nat /\ short_groups w dep) ->
  ends (verify_button w nprocs dep ks text).
Proof.
  intros NP L. apply load_dep_spec in L as (gs & D & NE & E & _). intros HK. apply button_ends; [exact NP| | |].
  - intros ->. inversion E as [X|]. symmetry in X. contradiction.
  - assert (Forall (fun g => gr_texts g <> []) (occupied gs)) as F.
    { apply Forall_forall. intros g Hg. unfold occupied in Hg. apply filter_In in Hg as [_ Hg]. destruct (gr_texts g); discriminate. }
    clear -E F. induction E as [|g dg l l' (T & _) E IH]; constructor.
    + apply Forall_inv in F. destruct T; [congruence|discriminate].
    + exact (IH (Forall_inv_tail F)).
  - intros key K. now apply HK, entered_typed.
Qed.
