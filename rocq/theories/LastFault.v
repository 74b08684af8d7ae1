(** A package that fails after all others have succeeded: parallel verification
    raises its exception. *)
From Coq Require Import Lia.
From Verif Require Import PyBase World Codec PyFloat PyTime Algo Receipt ListFacts CodecFacts SpecReceipt ReceiptFacts
  DepBase Json KeyStore VerifyReceipt State DepParser Verify SpecDep VerifyFacts StepFacts DepFacts SpecCluster SeqFacts
  AcceptFacts RoundTrip2 StateFacts SpecState UpdateFacts ParFacts.
Open Scope N_scope.
Open Scope py_scope.

(** The package [p], before which there are the register [reg] and the used IDs [u] *)
Definition pkg_fails (w : world) (key : option bytes) (ps : option str) (reg : regstate) (u : used) (p : list vgroup) (e : exn) : Prop :=
  predict_groups w key reg p = Err e
  \/ (exists r, predict_groups w key reg p = Ok r)
     /\ (verifyGroupsWithVerifiers w p key ps reg (fresh_used u) = Err e
         \/ exists r n, verifyGroupsWithVerifiers w p key ps reg (fresh_used u) = Ok (r, n) /\ used_merge1 w u n = Err e).

Lemma predict_prefix w key ps a : forall reg u r1 u1, all_proper a -> usual reg -> guarded ps reg u ->
  verifyGroupsWithVerifiers w (concat a) key ps reg u = Ok (r1, u1) ->
  exists wa outs, (forall b, predict w key reg (a ++ b) = do wb <- predict w key r1 b; Ok (wa ++ wb))
    /\ usual r1 /\ guarded ps r1 u1 /\ backend_of u1 = backend_of u
    /\ run_ok w key ps (backend_of u) wa outs
    /\ forall more, used_merge w u (map snd outs ++ more) = used_merge w u1 more.
Proof.
  induction a as [|p a IH]; intros reg u r1 u1 Pr U G V.
  - cbn in V. apply Ok_inj in V. injection V as <- <-. exists [], []. split; [|split; [exact U|split; [exact G|split; [reflexivity|split; [constructor|reflexivity]]]]].
    intros b. cbn [app]. destruct (predict w key reg b); reflexivity.
  - inversion Pr as [|? ? Pp Pa]; subst. cbn [concat] in V. rewrite verify_app in V. apply bind_Ok in V as ([r0 u0] & V0 & V). cbn [fst snd] in V.
    destruct (predict_faithful _ _ _ _ _ _ _ _ Pp U V0) as [E0 U0]. destruct (guarded_after _ _ _ _ _ _ _ _ Pp G V0) as [G0 B0].
    destruct (IH r0 u0 r1 u1 Pa U0 G0 V) as (wa & outs & Ep & U1 & G1 & B1 & R & M).
    pose proof V0 as V0'. apply verify_used in V0' as (n & V2 & M1); [|exact Pp|exact G].
    exists ((p, reg) :: wa), ((r0, n) :: outs). split; [|split; [exact U1|split; [exact G1|split; [congruence|split]]]].
    + intros b. cbn [app predict]. rewrite E0. cbn [bind]. rewrite Ep. destruct (predict w key r1 b); reflexivity.
    + constructor; [exact V2|]. now rewrite <- B0.
    + intros more. cbn [map app used_merge snd]. rewrite M1. cbn [bind]. apply M.
Qed.

Lemma partition_app {A} (a b : list (result A)) :
  partition_results (a ++ b) = (fst (partition_results a) ++ fst (partition_results b), snd (partition_results a) ++ snd (partition_results b)).
Proof.
  induction a as [|[x|e] a IH]; cbn [app partition_results].
  - now destruct (partition_results b).
  - rewrite IH. destruct (partition_results a). reflexivity.
  - rewrite IH. destruct (partition_results a). reflexivity.
Qed.

Lemma run_last w sch key ps b wa outs p reg e : run_ok w key ps b wa outs ->
  task_size (sch_pool sch) (List.length (wa ++ [(p, reg)])) = 1%nat ->
  verifyGroupsWithVerifiers w p key ps reg (used_new b) = Err e -> run_batch w sch key ps b (wa ++ [(p, reg)]) = Err e.
Proof.
  intros R T V. unfold run_batch. cbv zeta. rewrite T, slices_one, map_map, map_app, partition_app. cbn [map].
  assert (exists oks, partition_results (map (fun x => run_task w key ps [x] (used_new b)) wa) = (oks, [])) as [oks ->].
  { clear -R. induction R as [|[q r] [r' u'] wa outs H R [oks IH]]; [now exists []|]. cbn [map]. 
    assert (run_task w key ps [(q, r)] (used_new b) = Ok ([r'], u')) as -> by (cbn [run_task fst snd] in *; now rewrite H). cbn [partition_results]. rewrite IH. cbn [fst snd]. eauto. }
  cbn [run_task fst snd]. rewrite V. cbn [bind partition_results fst snd app].
  assert (forall n, nth n [e] e = e) as -> by (intros [|[|n]]; reflexivity). reflexivity.
Qed.

Lemma collect_last w sch key ps wa outs p reg u u1 e : run_ok w key ps (backend_of u) wa outs ->
  (forall more, used_merge w u (map snd outs ++ more) = used_merge w u1 more) -> backend_of u1 = backend_of u ->
  task_size (sch_pool sch) (List.length (wa ++ [(p, reg)])) = 1%nat ->
  verifyGroupsWithVerifiers w p key ps reg (fresh_used u1) = Err e
    \/ (exists r n, verifyGroupsWithVerifiers w p key ps reg (fresh_used u1) = Ok (r, n) /\ used_merge1 w u1 n = Err e) ->
  collect w sch key ps (backend_of u) (wa ++ [(p, reg)]) u = Err e.
Proof.
  intros R M B T H. unfold fresh_used in H. rewrite B in H. unfold collect. destruct H as [H|(r & n & H & Mn)].
  - now rewrite (run_last w sch key ps _ wa outs p reg e R T H).
  - assert (run_batch w sch key ps (backend_of u) (wa ++ [(p, reg)]) = Ok (map fst (outs ++ [(r, n)]), map snd (outs ++ [(r, n)]))) as ->.
    { apply run_batch_ok; [exact T|]. exists (outs ++ [(r, n)]). split; [|reflexivity]. apply Forall2_app; [exact R|]. constructor; [exact H|constructor]. }
    cbn [bind fst snd]. rewrite map_app. cbn [map snd]. rewrite M. cbn [used_merge]. now rewrite Mn.
Qed.

Lemma app_snoc_split {A} (a b c : list A) x : a ++ b = c ++ [x] -> b <> [] -> exists b', b = b' ++ [x] /\ c = a ++ b'.
Proof.
  intros E N. destruct (exists_last N) as (b' & y & ->). rewrite app_assoc in E. apply app_inj_tail in E as [E ->]. eauto.
Qed.

Lemma par_pending_last w sch ks key ps p r1 u1 e batches : isolated sch -> Forall (batch_ok sch) batches ->
  forall pkgs pkgs0 wargs0 pre reg u, batch_ok sch pkgs0 -> all_proper pkgs0 -> usual reg -> guarded ps reg u ->
  predict w key reg pkgs0 = Ok wargs0 ->
  mapM (mapM (packageChunkWithVerifiers w ks)) batches = Ok pkgs -> pkgs0 ++ concat pkgs = pre ++ [p] ->
  verifyGroupsWithVerifiers w (concat pre) key ps reg u = Ok (r1, u1) -> pkg_fails w key ps r1 u1 p e ->
  par_batches w sch ks key ps (backend_of u) batches None (Some wargs0) reg u = Err e.
Proof.
  intros Iso. induction batches as [|chunks batches IH]; intros FB pkgs pkgs0 wargs0 pre reg u B0 Pr0 U G P0 K E V F; cbn [par_batches mapM] in *.
  - apply Ok_inj in K. subst pkgs. cbn [concat] in E. rewrite app_nil_r in E. subst pkgs0.
    apply Forall_app in Pr0 as [Pr0 Prp]. destruct (predict_prefix w key ps pre reg u r1 u1 Pr0 U G V) as (wa & outs & Ep & U1 & G1 & Bk & R & M).
    rewrite Ep in P0. cbn [predict] in P0. apply bind_Ok in P0 as (wb & P1 & P0). apply bind_Ok in P1 as (r2 & P1 & P2). cbn [bind] in P2.
    apply Ok_inj in P2. apply Ok_inj in P0. subst wb wargs0. destruct F as [F|[_ F]]; [congruence|].
    apply (collect_last w sch key ps wa outs p r1 u u1 e R M Bk); [|exact F]. apply isolated_task; [exact Iso|].
    apply Forall2_length in R. unfold batch_ok in B0. assert (List.length wa = List.length pre) as L.
    { specialize (Ep []). rewrite app_nil_r in Ep. cbn [predict bind] in Ep. rewrite app_nil_r in Ep. now apply predict_length in Ep. }
    rewrite app_length in *. cbn [List.length] in *. now rewrite L.
  - inversion FB as [|? ? B1 FB']; subst. apply bind_Ok in K as (pkgs1 & K1 & K). apply bind_Ok in K as (pkgs2 & K2 & K). apply Ok_inj in K. subst pkgs.
    rewrite K1. cbn [bind concat] in *.
    assert (batch_ok sch pkgs1) as B1' by (apply mapM_Ok in K1; unfold batch_ok; rewrite <- (Forall2_length _ _ _ K1); exact B1).
    assert (all_proper pkgs1) as Pr1 by (eapply package_all_proper; eassumption).
    apply app_snoc_split in E as (pre' & E & ->).
    2:{ destruct pkgs1; [destruct B1'; cbn in *; lia|discriminate]. }
    rewrite concat_app, verify_app in V. apply bind_Ok in V as ([rA uA] & VA & V). cbn [fst snd] in V.
    destruct (predict_prefix w key ps pkgs0 reg u rA uA Pr0 U G VA) as (wa & outs & Ep & UA & GA & Bk & R & M).
    assert (collect w sch key ps (backend_of u) wargs0 u = Ok (rA, uA)) as ->.
    { assert (List.length wargs0 = List.length pkgs0) as L by (eapply predict_length; eassumption).
      assert (pkgs0 <> []) as NE by (intros ->; destruct B0; cbn in *; lia).
      apply collect_ok; [rewrite L; now apply isolated_task|].
      apply batch_seq in VA as (wargs & outs' & o & P & R' & M' & E'); try assumption. rewrite P0 in P. apply Ok_inj in P. subst wargs. eauto. }
    cbn [bind fst snd].
    assert (predict w key rA pkgs1 = Err e \/ exists wargs1, predict w key rA pkgs1 = Ok wargs1) as [->|(wargs1 & P1)]; [|reflexivity|].
    { destruct (concat pkgs2) as [|y ys] eqn:Ec.
      - rewrite app_nil_r in E. subst pkgs1. apply Forall_app in Pr1 as [Pr1 _].
        destruct (predict_prefix w key ps pre' rA uA r1 u1 Pr1 UA GA V) as (wb & outs2 & Eb & _). rewrite Eb. cbn [predict].
        destruct F as [F|[[r2 F] _]]; rewrite F; cbn [bind]; [now left|]. right. eexists. reflexivity.
      - right. apply app_snoc_split in E as (q & _ & ->); [|discriminate]. rewrite concat_app, verify_app in V. apply bind_Ok in V as ([rB uB] & VB & _).
        destruct (predict_prefix w key ps pkgs1 rA uA rB uB Pr1 UA GA VB) as (wb & outs2 & Eb & _). specialize (Eb []). rewrite app_nil_r in Eb. rewrite Eb. cbn [predict bind]. eauto. }
    rewrite P1. cbn [bind]. rewrite <- Bk. eapply IH; eassumption.
Qed.

Theorem par_body_last w sch ks key chunks ps reg u pre p r1 u1 e : isolated sch -> usual reg -> guarded ps reg u ->
  mapM (packageChunkWithVerifiers w ks) chunks = Ok (pre ++ [p]) ->
  verifyGroupsWithVerifiers w (concat pre) key ps reg u = Ok (r1, u1) -> pkg_fails w key ps r1 u1 p e ->
  par_body w sch ks key (chunks, None) (ps, reg, u) = Err e.
Proof.
  intros Iso U G K V F. unfold par_body, getChunksForProcs. cbn [fst snd].
  destruct (chunks_for_procs_ok (sch_nprocs sch) chunks (proj1 Iso) [] ltac:(destruct Iso; cbn; lia)) as (A1 & A2 & A3).
  rewrite A1. cbn [app] in A2. set (bs := fst (chunks_for_procs (sch_nprocs sch) chunks [] None)) in *. clearbody bs.
  destruct bs as [|b bs].
  { cbn [concat] in A2. subst chunks. apply Ok_inj in K. destruct pre; discriminate K. }
  inversion A3 as [|? ? B1 A4]; subst. apply mapM_concat in K as (rs & K & E).
  cbn [mapM] in K. apply bind_Ok in K as (pkgs1 & K1 & K). apply bind_Ok in K as (pkgs2 & K2 & K). apply Ok_inj in K. subst rs.
  cbn [par_batches]. rewrite K1. cbn [bind fst snd]. cbn [concat] in E.
  assert (batch_ok sch pkgs1) as B1' by (apply mapM_Ok in K1; unfold batch_ok; rewrite <- (Forall2_length _ _ _ K1); exact B1).
  assert (all_proper pkgs1) as Pr1 by (eapply package_all_proper; eassumption). symmetry in E.
  assert (predict w key reg pkgs1 = Err e \/ exists wargs1, predict w key reg pkgs1 = Ok wargs1) as [->|(wargs1 & P1)]; [|reflexivity|].
  { destruct (concat pkgs2) as [|y ys] eqn:Ec.
    - rewrite app_nil_r in E. subst pkgs1. apply Forall_app in Pr1 as [Pr1 _].
      destruct (predict_prefix w key ps pre reg u r1 u1 Pr1 U G V) as (wb & outs2 & Eb & _). rewrite Eb. cbn [predict].
      destruct F as [F|[[r2 F] _]]; rewrite F; cbn [bind]; [now left|]. right. eexists. reflexivity.
    - right. apply app_snoc_split in E as (q & _ & ->); [|discriminate]. rewrite concat_app, verify_app in V. apply bind_Ok in V as ([rB uB] & VB & _).
      destruct (predict_prefix w key ps pkgs1 reg u rB uB Pr1 U G VB) as (wb & outs2 & Eb & _). specialize (Eb []). rewrite app_nil_r in Eb. rewrite Eb. cbn [predict bind]. eauto. }
  rewrite P1. cbn [bind]. eapply par_pending_last; eassumption.
Qed.
