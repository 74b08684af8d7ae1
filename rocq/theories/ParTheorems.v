(** Parallel verification of the chunks of a DEP is verification of the DEP. *)
From Coq Require Import Lia ZifyClasses ZifyNat ZifyBool.
From Verif Require Import PyBase World Codec PyFloat PyTime Algo Receipt ListFacts CodecFacts SpecReceipt ReceiptFacts
  DepBase Json Pem KeyStore VerifyReceipt State DepParser Verify SpecDep VerifyFacts StepFacts DepFacts SpecCluster ClusterFacts SeqFacts
  AcceptFacts DepTheorems PartsFacts SpecState StateFacts UpdateFacts ParFacts SpecChunks ChunkFacts DictFacts.
Open Scope N_scope.
Open Scope py_scope.

(** ** Chunks that contain the receipts of a DEP *)

Definition faithful (dgs : list dgroup) (chunks : list chunk) : Prop :=
  flat_map stamped chunks = stamped dgs
  /\ Forall full chunks /\ Forall (fun c => c <> []) chunks
  /\ (forall g, filled dgs = [g] -> Forall (fun c => List.length c = 1%nat) chunks).

Lemma window_filter dgs : forall a n, window a n (filter has_receipts dgs) = window a n dgs.
Proof.
  induction dgs as [|g dgs IH]; intros a n; [reflexivity|]. cbn [filter]. unfold has_receipts at 1.
  destruct (g_recs g) as [|b bs] eqn:E.
  - rewrite IH. cbn [window]. rewrite E. cbn [List.length]. rewrite skipn_nil, firstn_nil. cbn [filter].
    replace (a - 0)%nat with a by lia. replace (n - (0 - a))%nat with n by lia. reflexivity.
  - cbn [window]. now rewrite IH.
Qed.

Lemma size_filter dgs : size (filter has_receipts dgs) = size dgs.
Proof. unfold size. now rewrite stamped_filter. Qed.

Lemma chunks_single n dgs g : (1 <= n)%nat -> filled dgs = [g] -> Forall (fun c => c <> []) (chunks_of n dgs) ->
  Forall (fun c => List.length c = 1%nat) (chunks_of n dgs).
Proof.
  intros Hn E. unfold chunks_of. rewrite !Forall_map. apply Forall_impl. intros k. rewrite <- window_filter, filter_filled, E.
  cbn [window]. rewrite app_nil_r. cbn [filter]. destruct (has_receipts _); [reflexivity|congruence].
Qed.

Lemma full_nonempty n dgs chunks : delivers n dgs chunks -> (1 <= n)%nat -> Forall (fun c => c <> []) chunks.
Proof.
  intros (_ & _ & S) Hn. destruct chunks as [|c0 r0] eqn:E; [constructor|]. rewrite <- E in *.
  assert (chunks <> []) as NE by (rewrite E; discriminate). destruct (exists_last NE) as (l & c & El). destruct (S l c El) as [S1 S2].
  rewrite El. apply Forall_app. split.
  - eapply Forall_impl; [|exact S1]. cbn beta. intros x Hx ->. rewrite size_nil in Hx. lia.
  - constructor; [|constructor]. intros ->. rewrite size_nil in S2. lia.
Qed.

Lemma dict_faithful n dgs : faithful dgs (dict_chunks n dgs).
Proof.
  unfold dict_chunks. destruct n as [|n].
  - unfold faithful. split; [|split; [|split]].
    + rewrite <- stamped_filter. induction (filter has_receipts dgs) as [|g l IH]; [reflexivity|].
      cbn [map flat_map]. now rewrite IH, stamped_cons, stamped_cons, app_nil_r.
    + apply Forall_map, Forall_forall. intros g H. apply filter_In in H as [_ H]. constructor; [|constructor].
      unfold has_receipts in H. destruct (g_recs g); discriminate.
    + apply Forall_map, Forall_forall. intros g _. discriminate.
    + intros _ _. apply Forall_map, Forall_forall. reflexivity.
  - assert (1 <= S n)%nat as Hn by lia. pose proof (chunks_deliver (S n) dgs Hn) as D. pose proof (full_nonempty _ _ _ D Hn) as NE.
    destruct D as (A & B & C). split; [exact A|]. split; [exact B|]. split; [exact NE|]. intros g E. exact (chunks_single (S n) dgs g Hn E NE).
Qed.

(** ** Packages *)

Definition chunk_trust (w : world) (ks : keystore) (c : chunk) : Prop :=
  Forall (fun g => match g_cert g with
                   | Some x => trusted w ks x (g_chain g)
                   | None => List.length c = 1%nat
                   end) c.

Lemma package_spec w ks c p : hash_ok w ->
  packageChunkWithVerifiers w ks c = Ok p <-> chunk_trust w ks c /\ p = map (vg ks) c.
Proof.
  intros HO. unfold packageChunkWithVerifiers, chunk_trust. rewrite mapM_Ok. set (n := List.length c). clearbody n.
  assert (forall g v, package_group w ks (n =? 1)%nat g = Ok v <->
    match g_cert g with Some x => trusted w ks x (g_chain g) | None => n = 1%nat end /\ v = vg ks g) as G.
  { intros g v. unfold package_group, vg, verifier_of. destruct (g_cert g) as [x|].
    - rewrite <- verifyCert_spec by exact HO. destruct (verifyCert w x (g_chain g) ks) as [[]|]; cbn [bind].
      + split; [intros H; apply Ok_inj in H; auto|]. now intros [_ ->].
      + split; [discriminate|]. intros [H _]. discriminate.
    - destruct (Nat.eqb_spec n 1) as [E|E].
      + split; [intros H; apply Ok_inj in H; auto|]. now intros [_ ->].
      + split; [discriminate|]. intros [H _]. congruence. }
  revert p. induction c as [|g c IH]; intros p; cbn [map].
  - split; [intros F; inversion F; auto|]. intros [_ ->]. constructor.
  - split.
    + intros F. inversion F as [|? v ? p' H F']; subst. apply G in H as [H ->]. apply IH in F' as [F' ->]. split; [now constructor|reflexivity].
    + intros [F ->]. inversion F as [|? ? H F']; subst. constructor; [now apply G|]. now apply IH.
Qed.

Lemma packages_spec w ks cs ps : hash_ok w ->
  mapM (packageChunkWithVerifiers w ks) cs = Ok ps <-> Forall (chunk_trust w ks) cs /\ ps = map (map (vg ks)) cs.
Proof.
  intros HO. rewrite mapM_Ok. revert ps. induction cs as [|c cs IH]; intros ps; cbn [map].
  - split; [intros F; inversion F; auto|]. intros [_ ->]. constructor.
  - split.
    + intros F. inversion F as [|? v ? p' H F']; subst. apply package_spec in H as [H ->]; [|exact HO]. apply IH in F' as [F' ->].
      split; [now constructor|reflexivity].
    + intros [F ->]. inversion F as [|? ? H F']; subst. constructor; [now apply package_spec|]. now apply IH.
Qed.

Lemma flat_stamped ks l : flat (map (vg ks) l) = map (fun s => (fst s, verifier_of ks (fst (snd s)))) (stamped l).
Proof.
  induction l as [|g l IH]; [reflexivity|]. rewrite stamped_cons, map_app, map_map. cbn [fst snd].
  unfold flat in *. cbn [map flat_map]. rewrite IH. reflexivity.
Qed.

Lemma concat_stamped cs : stamped (concat cs) = flat_map stamped cs.
Proof. induction cs as [|c cs IH]; [reflexivity|]. cbn [concat flat_map]. now rewrite stamped_app, IH. Qed.

Lemma in_stamped b c ch l : In (b, (c, ch)) (stamped l) <-> exists g, In g l /\ In b (g_recs g) /\ g_cert g = c /\ g_chain g = ch.
Proof.
  unfold stamped. rewrite in_flat_map. split.
  - intros (g & G & H). apply in_map_iff in H as (b' & E & H). injection E as <- <- <-. eauto.
  - intros (g & G & H & <- & <-). exists g. split; [exact G|]. apply in_map_iff. eauto.
Qed.

(** The certificates of groups with receipts *)
Definition certs_in (l : list dgroup) (x : option cert * list cert) : Prop :=
  exists g, In g l /\ g_recs g <> [] /\ (g_cert g, g_chain g) = x.

Lemma certs_stamped l x : certs_in l x <-> exists b, In (b, x) (stamped l).
Proof.
  destruct x as [c ch]. split.
  - intros (g & G & N & E). injection E as <- <-. destruct (g_recs g) as [|b bs] eqn:R; [congruence|]. exists b. apply in_stamped. exists g.
    rewrite R. split; [exact G|]. split; [now left|]. auto.
  - intros (b & H). apply in_stamped in H as (g & G & H & <- & <-). exists g. split; [exact G|]. split; [|reflexivity].
    intros E. now rewrite E in H.
Qed.

Lemma faithful_certs dgs chunks x : faithful dgs chunks -> certs_in (concat chunks) x <-> certs_in (filled dgs) x.
Proof.
  intros (S & _). rewrite !certs_stamped. change (filled dgs) with (filter has_receipts dgs). rewrite stamped_filter, concat_stamped, S. reflexivity.
Qed.

Lemma filled_full dgs : full (filled dgs).
Proof.
  apply Forall_forall. intros g H. apply filter_In in H as [_ H]. destruct (g_recs g); discriminate.
Qed.

Lemma full_certs l : full l -> forall g, In g l -> certs_in l (g_cert g, g_chain g).
Proof. intros F g H. exists g. split; [exact H|]. split; [|reflexivity]. exact (proj1 (Forall_forall _ _) F g H). Qed.

Lemma trust_chunks w ks gs dgs chunks : Forall2 encoded gs dgs -> faithful dgs chunks ->
  trust_rule w ks (occupied gs) -> Forall (chunk_trust w ks) chunks.
Proof.
  intros E Fa T. apply (trust_tuples w ks _ _ (filled_occupied _ _ E)) in T. destruct T as [T|(g & Eg & N)].
  - apply Forall_forall. intros c Hc. apply Forall_forall. intros g Hg.
    assert (certs_in (concat chunks) (g_cert g, g_chain g)) as Ce.
    { apply full_certs; [|apply in_concat; eauto]. apply Forall_concat. apply Fa. }
    apply (faithful_certs _ _ _ Fa) in Ce as (g' & Hg' & _ & Ec). injection Ec as E1 E2.
    unfold certs_ok in T. rewrite Forall_forall in T. destruct (T g' Hg') as (x & Hx & Tx). rewrite <- E1, Hx, <- E2. exact Tx.
  - destruct Fa as (S & Fu & NE & L). specialize (L g Eg). apply Forall_forall. intros c Hc. rewrite Forall_forall in L. specialize (L c Hc).
    apply Forall_forall. intros g' Hg'.
    assert (certs_in (concat chunks) (g_cert g', g_chain g')) as Ce.
    { apply full_certs; [|apply in_concat; eauto]. now apply Forall_concat. }
    apply certs_stamped in Ce. rewrite concat_stamped, S, <- stamped_filter in Ce. apply certs_stamped in Ce as (g2 & H2 & _ & Ec).
    change (filter has_receipts dgs) with (filled dgs) in H2. rewrite Eg in H2. destruct H2 as [<-|[]]. injection Ec as E1 E2. now rewrite <- E1, N.
Qed.

Lemma chunks_trust w ks gs dgs chunks : Forall2 encoded gs dgs -> faithful dgs chunks -> certs_or_one gs ->
  Forall (chunk_trust w ks) chunks -> trust_rule w ks (occupied gs).
Proof.
  intros E Fa C T. apply (trust_tuples w ks _ _ (filled_occupied _ _ E)).
  assert (forall g c, In g (filled dgs) -> g_cert g = Some c -> trusted w ks c (g_chain g)) as H.
  { intros g c Hg Hc. assert (certs_in (filled dgs) (g_cert g, g_chain g)) as Ce by (apply full_certs; [apply filled_full|exact Hg]).
    apply (faithful_certs _ _ _ Fa) in Ce as (g' & Hg' & _ & Ec). injection Ec as E1 E2. apply in_concat in Hg' as (ch & Hch & Hg').
    rewrite Forall_forall in T. specialize (T ch Hch). unfold chunk_trust in T. rewrite Forall_forall in T. specialize (T g' Hg').
    rewrite E1, Hc, E2 in T. exact T. }
  pose proof (filled_occupied _ _ E) as E'. destruct C as [C|C].
  - left. apply Forall_forall. intros g Hg. destruct (g_cert g) as [c|] eqn:X; [eauto|]. exfalso.
    unfold all_certs in C. clear -C E' Hg X. induction E' as [|x y l l' (_ & A & _) E' IH]; [destruct Hg|].
    inversion C; subst. destruct Hg as [->|Hg]; [|now apply IH]. congruence.
  - destruct (occupied gs) as [|g0 [|g1 l]]; try discriminate C. destruct (filled dgs) as [|dg [|dg2 l']].
    + inversion E'.
    + destruct (g_cert dg) as [c|] eqn:X.
      * left. constructor; [|constructor]. exists c. split; [exact X|]. apply H; [now left|exact X].
      * right. exists dg. auto.
    + inversion E' as [|? ? ? ? _ E'']; subst. inversion E''.
Qed.

Lemma run_vg w ks key ps reg u dgs chunks : faithful dgs chunks -> filled dgs <> [] -> chunks <> [] ->
  verifyGroupsWithVerifiers w (concat (map (map (vg ks)) chunks)) key ps reg u =
  verifyGroupsWithVerifiers w (map (vg ks) (filled dgs)) key ps reg u.
Proof.
  intros (S & _ & NE & _) NF NC. rewrite <- concat_map. rewrite !groups_vseq.
  - now rewrite !flat_stamped, concat_stamped, S, <- (stamped_filter dgs).
  - destruct (filled dgs); [congruence|discriminate].
  - destruct chunks as [|c cs]; [congruence|]. inversion NE as [|? ? Hc _]; subst. destruct c; [congruence|discriminate].
Qed.

Lemma faithful_nonempty dgs chunks : faithful dgs chunks -> filled dgs <> [] -> chunks <> [].
Proof.
  intros (S & _) N ->. cbn [flat_map] in S. rewrite <- stamped_filter in S. change (filter has_receipts dgs) with (filled dgs) in S.
  pose proof (filled_full dgs) as F. destruct F as [|g l H F]; [congruence|].
  rewrite stamped_cons in S. destruct (g_recs g); [congruence|discriminate].
Qed.

(** ** Both ways of verification *)

Theorem par_dep w sch ks key dep gs dgs chunks ps reg u reg' u' : hash_ok w -> isolated sch -> usual reg -> guarded ps reg u ->
  dep_is w dep gs -> Forall2 encoded gs dgs -> filled dgs <> [] -> faithful dgs chunks ->
  (dep_body w ks key (parse_dict w 1 dep 0) (ps, reg, u) = Ok (reg', u') ->
   par_body w sch ks key (chunks, None) (ps, reg, u) = Ok (reg', u'))
  /\ (certs_or_one gs -> par_body w sch ks key (chunks, None) (ps, reg, u) = Ok (reg', u') ->
      dep_body w ks key (parse_dict w 1 dep 0) (ps, reg, u) = Ok (reg', u')).
Proof.
  intros HO Iso U G D E NF Fa. assert (chunks <> []) as NC by (eapply faithful_nonempty; eassumption). split.
  - intros B. assert (trust_rule w ks (occupied gs)) as T.
    { apply dep_body_spec in B as (items & p & (gs' & D' & T & _) & _); [|exact HO]. now rewrite (dep_is_fun _ _ _ _ D D'). }
    rewrite (dep_body_eq w ks key dep gs dgs) in B by assumption.
    apply par_body_spec; try assumption. cbn [fst snd]. split; [reflexivity|]. split; [exact NC|].
    exists (map (map (vg ks)) chunks). split.
    + apply packages_spec; [exact HO|]. split; [eapply trust_chunks; eassumption|reflexivity].
    + rewrite (run_vg w ks key ps reg u dgs chunks) by assumption. exact B.
  - intros C P. apply par_body_spec in P as (_ & _ & pkgs & K & V); try assumption. cbn [fst snd] in K.
    apply packages_spec in K as [K ->]; [|exact HO]. rewrite (run_vg w ks key ps reg u dgs chunks) in V by assumption.
    rewrite (dep_body_eq w ks key dep gs dgs) by (try assumption; eapply chunks_trust; eassumption). exact V.
Qed.

(** ** Usual clusters *)

Lemma absent_truthy o : absent o <-> truthy o = None.
Proof. unfold absent. destruct o as [[|c s]|]; cbn [truthy]; split; intros H; try destruct H; try congruence; auto. Qed.

Lemma start_of_last_app b r : start_of_last (b ++ [r]) = s_start r.
Proof. unfold start_of_last. now rewrite rev_app_distr. Qed.

Lemma usual_selected c idx before reg after : usual_cluster c -> selects c idx before reg after ->
  usual reg /\ guarded (start_of_last before) reg (c_used c).
Proof.
  intros (U & S & F) Se. destruct Se as [before reg after E|idx _ T].
  - rewrite E in U, S. assert (usual reg) as Ur by (apply Forall_elt in U; exact U). split; [exact Ur|].
    intros L P. apply F. rewrite E. rewrite removelast_app in S by discriminate. apply Forall_app in S as [S1 S2].
    assert (before = []) as ->.
    { destruct before as [|b0 bs] eqn:Eb; [reflexivity|]. exfalso. rewrite <- Eb in *.
      assert (before <> []) as NE by (rewrite Eb; discriminate). destruct (exists_last NE) as (l & r & El). rewrite El in S1, P.
      rewrite start_of_last_app in P. apply Forall_app in S1 as [_ S1]. inversion S1; subst. contradiction. }
    cbn [app] in *. assert (absent (s_start reg)) as A by now apply Ur. destruct after as [|a0 after].
    + constructor; [exact A|constructor].
    + exfalso. cbn [removelast] in S2. inversion S2; subst. contradiction.
  - split; [split; [split; intros _; now left|discriminate]|]. intros _ P. apply F. destruct T as [->|T]; [constructor|].
    exfalso. apply T. now apply absent_truthy.
Qed.

Lemma new_usual b : usual_cluster (new_cluster b).
Proof.
  split; [constructor|]. split; [constructor|]. intros _. cbn. destruct b; reflexivity.
Qed.

Lemma all_start l : Forall (fun r => ~ absent (s_start r)) (removelast l) -> l = [] \/ truthy (start_of_last l) <> None ->
  Forall (fun r => ~ absent (s_start r)) l.
Proof.
  intros S [->|T]; [constructor|]. destruct l as [|x l'] eqn:E; [constructor|]. rewrite <- E in *.
  assert (l <> []) as NE by (rewrite E; discriminate). destruct (exists_last NE) as (m & r & El). rewrite El in *.
  rewrite removelast_last in S. rewrite start_of_last_app in T. apply Forall_app. split; [exact S|]. constructor; [|constructor].
  intros A. apply T. now apply absent_truthy.
Qed.

Lemma sequence_start w key ps reg u p l : past_of w reg p -> usual reg -> valid_sequence w key ps reg u p l -> Forall (fun i => reads w (i_jws i) (i_rec i)) l -> l <> [] ->
  forall reg', register_after key reg p l reg' -> usual reg' /\ ~ absent (s_start reg').
Proof.
  intros P U V F NE reg' R. pose proof R as R'. apply (register_after_iff _ _ _ _ _ _ _ _ V) in R'.
  change (reg' = after key reg p l) in R'. rewrite R' in *.
  assert (usual (after key reg p l)) as U' by (eapply usual_after; eassumption). split; [exact U'|]. intros A. apply U' in A.
  destruct (exists_last NE) as (m & j & Em). destruct R as [_ R]. destruct (R m j Em) as (L & _). rewrite L in A.
  rewrite Em in F. apply Forall_app in F as [_ F]. inversion F as [|? ? Rj _]; subst. apply reads_nonempty in Rj.
  destruct A as [A|A]; [discriminate|]. apply Some_inj in A. contradiction.
Qed.

Theorem usual_kept w dep ks key c idx c' e : hash_ok w -> usual_cluster c -> verifyDEP w dep ks key c idx = (c', e) -> usual_cluster c'.
Proof.
  intros HO U H. destruct e as [e|].
  - apply with_register_Err in H as [->|(_ & T & ->)]; [exact U|]. destruct U as (U & S & F). unfold usual_cluster. cbn [c_regs c_used]. split; [|split].
    + apply Forall_app. split; [exact U|]. constructor; [|constructor]. split; [split; intros _; now left|discriminate].
    + rewrite removelast_last. now apply all_start.
    + intros A. apply Forall_app in A as [A _]. now apply F.
  - pose proof (fun b r a Se => usual_selected c idx b r a U Se) as Us.
    apply verifyDEP_spec in H as (b & reg & a & reg' & p & items & Se & D & P & V & R & ->); [|exact HO].
    destruct (Us _ _ _ Se) as [Ur _]. destruct D as (gs & _ & _ & Fi & NE).
    assert (Forall (fun i => reads w (i_jws i) (i_rec i)) items) as Fr.
    { clear -Fi. induction Fi as [|t i ts is (E & Rd & _) Fi IH]; constructor; [now rewrite E|exact IH]. }
    destruct (sequence_start w key _ reg _ p items P Ur V Fr NE reg' R) as [Ur' St]. destruct U as (U & S & F).
    unfold usual_cluster. cbn [c_regs c_used].
    assert (Forall (fun r => ~ absent (s_start r)) b /\ Forall usual (b ++ a)
            /\ Forall (fun r => ~ absent (s_start r)) (removelast a)) as (Sb & Uba & Sa).
    { destruct Se as [b reg a E|idx _ T].
      - rewrite E in U, S. apply Forall_app in U as [U1 U2]. inversion U2; subst. rewrite removelast_app in S by discriminate.
        apply Forall_app in S as [S1 S2]. split; [exact S1|]. split; [now apply Forall_app|]. destruct a; [constructor|].
        change (removelast (reg :: r :: a)) with (reg :: removelast (r :: a)) in S2. now inversion S2.
      - split; [now apply all_start|]. split; [now rewrite app_nil_r|constructor]. }
    split; [|split].
    + apply Forall_app in Uba as [U1 U2]. apply Forall_app. split; [exact U1|]. now constructor.
    + rewrite removelast_app by discriminate. apply Forall_app. split; [exact Sb|]. destruct a; [constructor|].
      change (removelast (reg' :: r :: a)) with (reg' :: removelast (r :: a)). now constructor.
    + intros A. exfalso. apply Forall_app in A as [_ A]. inversion A; subst. contradiction.
Qed.

(** ** The claims *)

(** The chunks of any parser *)
Theorem parallel_chunks w sch dep gs dgs chunks ks key c idx c' : hash_ok w -> isolated sch -> usual_cluster c ->
  dep_is w dep gs -> Forall2 encoded gs dgs -> filled dgs <> [] -> faithful dgs chunks ->
  (verifyDEP w dep ks key c idx = (c', None) -> verifyParsedDEP w sch (chunks, None) ks key c idx = (c', None))
  /\ (certs_or_one gs -> verifyParsedDEP w sch (chunks, None) ks key c idx = (c', None) -> verifyDEP w dep ks key c idx = (c', None)).
Proof.
  intros HO Iso U D E NF Fa. unfold verifyDEP, verifyParsedDEP. rewrite !with_register_Ok. split.
  - intros (b & reg & a & reg' & u' & Se & B & ->). exists b, reg, a, reg', u'. split; [exact Se|]. split; [|reflexivity].
    destruct (usual_selected _ _ _ _ _ U Se) as [Ur G].
    apply (par_dep w sch ks key dep gs dgs chunks (start_of_last b) reg (c_used c) reg' u'); assumption.
  - intros C (b & reg & a & reg' & u' & Se & B & ->). exists b, reg, a, reg', u'. split; [exact Se|]. split; [|reflexivity].
    destruct (usual_selected _ _ _ _ _ U Se) as [Ur G].
    apply (par_dep w sch ks key dep gs dgs chunks (start_of_last b) reg (c_used c) reg' u'); assumption.
Qed.

Lemma verifyDEP_parses w dep ks key c idx c' : verifyDEP w dep ks key c idx = (c', None) ->
  exists gs dgs, dep_is w dep gs /\ Forall2 encoded gs dgs /\ filled dgs <> [].
Proof.
  intros H. apply with_register_Ok in H as (b & reg & a & reg' & u' & _ & B & _). unfold dep_body in B.
  apply bind_Ok in B as (x & _ & B). apply bind_Ok in B as (y & Fi & _). unfold finished in Fi.
  destruct (parse_dict w 1 dep 0) as [cs e] eqn:P. cbn [snd] in Fi. destruct e; [discriminate|].
  apply parse_dict_spec in P as (gs & dgs & D & T & _ & NE). eauto.
Qed.

Theorem parallel_dict w sch dep nparts n ks key c idx c' : hash_ok w -> isolated sch -> usual_cluster c ->
  (verifyDEP w dep ks key c idx = (c', None) -> verifyParsedDEP w sch (parse_dict w nparts dep n) ks key c idx = (c', None))
  /\ ((forall gs, dep_is w dep gs -> certs_or_one gs) ->
      verifyParsedDEP w sch (parse_dict w nparts dep n) ks key c idx = (c', None) -> verifyDEP w dep ks key c idx = (c', None)).
Proof.
  intros HO Iso U. split.
  - intros H. destruct (verifyDEP_parses _ _ _ _ _ _ _ H) as (gs & dgs & D & E & NF).
    assert (parse_dict w nparts dep n = (dict_chunks (effective_size nparts dep n) dgs, None)) as ->.
    { apply parse_dict_chunks. exists gs, dgs. auto. }
    apply (parallel_chunks w sch dep gs dgs _ ks key c idx c' HO Iso U D E NF (dict_faithful _ dgs)). exact H.
  - intros C H.
    assert (snd (parse_dict w nparts dep n) = None) as N.
    { unfold verifyParsedDEP in H. apply with_register_Ok in H as (b & reg & a & reg' & u' & Se & B & ->).
      destruct (usual_selected _ _ _ _ _ U Se) as [Ur G]. apply par_body_spec in B; tauto. }
    destruct (parse_dict w nparts dep n) as [cs e] eqn:P. cbn [snd] in N. subst e.
    apply parse_dict_chunks in P as (gs & dgs & D & E & NF & ->).
    apply (parallel_chunks w sch dep gs dgs _ ks key c idx c' HO Iso U D E NF (dict_faithful (effective_size nparts dep n) dgs)); [now apply C|exact H].
Qed.

Theorem parallel_iff w sch dep nparts n ks key c idx c' : hash_ok w -> isolated sch -> usual_cluster c ->
  (forall gs, dep_is w dep gs -> certs_or_one gs) ->
  verifyParsedDEP w sch (parse_dict w nparts dep n) ks key c idx = (c', None) <->
  verifyDEP w dep ks key c idx = (c', None).
Proof. intros HO Iso U C. destruct (parallel_dict w sch dep nparts n ks key c idx c' HO Iso U) as [A B]. split; [now apply B|exact A]. Qed.

Theorem any_size w sch sch' dep nparts nparts' n n' ks key c idx c' : hash_ok w -> isolated sch -> isolated sch' -> usual_cluster c ->
  (forall gs, dep_is w dep gs -> certs_or_one gs) ->
  verifyParsedDEP w sch (parse_dict w nparts dep n) ks key c idx = (c', None) <->
  verifyParsedDEP w sch' (parse_dict w nparts' dep n') ks key c idx = (c', None).
Proof. intros HO I1 I2 U C. now rewrite !parallel_iff. Qed.

Theorem usual_closed w dep ks key c idx b : hash_ok w ->
  usual_cluster (new_cluster b)
  /\ (usual_cluster c -> usual_cluster (fst (verifyDEP w dep ks key c idx))).
Proof.
  intros HO. split; [apply new_usual|]. intros U. destruct (verifyDEP w dep ks key c idx) as [c' e] eqn:E.
  eapply usual_kept; eassumption.
Qed.

Lemma package_groups w ks c p : hash_ok w -> packageChunkWithVerifiers w ks c = Ok p ->
  p = map (fun g => (g_recs g, verifier_of ks (g_cert g))) c.
Proof. intros HO H. now apply package_spec in H as [_ H]. Qed.
