(** Parallel verification accepts exactly what sequential verification of the packages accepts. *)
From Coq Require Import Lia.
From Verif Require Import PyBase World Codec PyFloat PyTime Algo Receipt ListFacts CodecFacts SpecReceipt ReceiptFacts
  DepBase Json KeyStore VerifyReceipt State DepParser Verify SpecDep VerifyFacts StepFacts DepFacts SpecCluster SeqFacts
  AcceptFacts RoundTrip2 StateFacts SpecState UpdateFacts.
Open Scope N_scope.
Open Scope py_scope.

Lemma Forall2_length {A B} (R : A -> B -> Prop) l l' : Forall2 R l l' -> List.length l = List.length l'.
Proof. induction 1; cbn [List.length]; congruence. Qed.

(** ** Used IDs apart *)

Lemma used_new_new b : fresh_used (used_new b) = used_new b.
Proof. destruct b; reflexivity. Qed.

Lemma fresh_new w b c l : fresh_ids w (used_new b) c l <-> fresh_ids w (used_new b) true l.
Proof.
  destruct l as [|x l]; [reflexivity|]. cbn [fresh_ids].
  assert (used_check w (used_new b) x = Ok tt) by (destruct b; reflexivity). tauto.
Qed.

Lemma effective_some w ps reg p q : past_of w reg p -> effective_past w ps p q ->
  is_some q = true \/ (absent (s_last reg) /\ absent ps).
Proof.
  intros P E. destruct p as [[s r]|]; cbn [effective_past] in E.
  - subst. now left.
  - destruct q as [[s r]|]; [now left|]. right. split; [exact P|exact E].
Qed.

Lemma fold_backend l : forall u, backend_of (fold_left used_add l u) = backend_of u.
Proof.
  induction l as [|x l IH]; intros u; [reflexivity|]. cbn [fold_left]. rewrite IH. destruct u; cbn [used_add]; [|reflexivity].
  destruct (mem x ids); reflexivity.
Qed.

Lemma valid_new w key ps reg u p l : past_of w reg p -> guarded ps reg u ->
  valid_sequence w key ps reg u p l <->
  valid_sequence w key ps reg (fresh_used u) p l /\ fresh_ids w u true (ids l).
Proof.
  intros P G. unfold valid_sequence. split.
  - intros (A & B & C & D & E). destruct l as [|i l0] eqn:El; [split; [|exact I]; tauto|]. rewrite <- El in *.
    assert (l <> []) as NE by (rewrite El; discriminate). destruct (E NE) as (q & E1 & E2 & E3 & E4).
    assert (fresh_ids w u true (ids l)) as F.
    { destruct (effective_some w ps reg p q P E1) as [S|[S1 S2]]; [now rewrite S in E4|].
      rewrite (G S1 S2) in *. unfold fresh_used in *. now apply fresh_new in E4. }
    split; [|exact F]. repeat (split; [assumption|]). intros _. exists q. repeat (split; [assumption|]).
    apply fresh_new. assert (exists v, use_ids w u (ids l) = Ok v) as [v V].
    { eexists. apply use_ids_spec. split; [exact F|reflexivity]. }
    apply merge1_spec in V as (n & V & _). now apply use_ids_spec in V as [V _].
  - intros [(A & B & C & D & E) F]. repeat (split; [assumption|]). intros NE. destruct (E NE) as (q & E1 & E2 & E3 & E4).
    exists q. repeat (split; [assumption|]).
    destruct (effective_some w ps reg p q P E1) as [S|[S1 S2]]; [now rewrite S|].
    rewrite (G S1 S2) in *. unfold fresh_used in *. now apply fresh_new.
Qed.

Lemma merge_new w u : used_merge1 w u (fresh_used u) = Ok u.
Proof. destruct u; reflexivity. Qed.

Theorem verify_used w groups key ps reg u reg' u' :
  Forall (fun g => proper (snd g)) groups -> guarded ps reg u ->
  verifyGroupsWithVerifiers w groups key ps reg u = Ok (reg', u') <->
  exists n, verifyGroupsWithVerifiers w groups key ps reg (fresh_used u) = Ok (reg', n) /\ used_merge1 w u n = Ok u'.
Proof.
  intros Pr G. destruct groups as [|g gs] eqn:Eg.
  - cbn [verifyGroupsWithVerifiers]. split.
    + intros H. apply Ok_inj in H. injection H as -> ->. exists (fresh_used u'). split; [reflexivity|apply merge_new].
    + intros (n & H & M). apply Ok_inj in H. injection H as -> <-. rewrite merge_new in M. apply Ok_inj in M. now subst.
  - rewrite <- Eg in *. assert (groups <> []) as NE by (rewrite Eg; discriminate). clear Eg g gs.
    rewrite groups_spec by assumption. split.
    + intros (p & items & P & F & V & R & ->). apply (valid_new w key ps reg u p items P G) in V as [V Fr].
      exists (used_after (fresh_used u) items). split.
      * apply groups_spec; [assumption..|]. exists p, items. auto.
      * assert (use_ids w u (ids items) = Ok (used_after u items)) as H by (apply use_ids_spec; auto).
        apply merge1_spec in H as (n & N & M). apply use_ids_spec in N as [_ ->]. exact M.
    + intros (n & H & M). apply groups_spec in H as (p & items & P & F & V & R & ->); [|assumption..].
      exists p, items. split; [exact P|]. split; [exact F|].
      assert (use_ids w u (ids items) = Ok u') as H.
      { apply merge1_spec. exists (used_after (fresh_used u) items). split; [|exact M].
        apply use_ids_spec. split; [|reflexivity]. destruct V as (_ & _ & _ & _ & V).
        destruct items as [|i items]; [exact I|]. destruct V as (q & _ & _ & _ & V); [discriminate|].
        unfold fresh_used in V. now apply fresh_new in V. }
      apply use_ids_spec in H as [Fr ->]. split; [|split; [exact R|reflexivity]].
      now apply (valid_new w key ps reg u p items P G).
Qed.

Lemma verify_app w a b key ps : forall reg u,
  verifyGroupsWithVerifiers w (a ++ b) key ps reg u =
  (do ru <- verifyGroupsWithVerifiers w a key ps reg u; verifyGroupsWithVerifiers w b key ps (fst ru) (snd ru)).
Proof.
  induction a as [|[g v] a IH]; intros reg u; [reflexivity|]. cbn [app verifyGroupsWithVerifiers].
  destruct (verifyGroup w g v key ps reg u) as [[r1 u1]|]; [|reflexivity]. cbn [bind fst snd]. apply IH.
Qed.

Lemma guarded_after w groups key ps reg u reg' u' : Forall (fun g => proper (snd g)) groups -> guarded ps reg u ->
  verifyGroupsWithVerifiers w groups key ps reg u = Ok (reg', u') -> guarded ps reg' u' /\ backend_of u' = backend_of u.
Proof.
  intros Pr G H. destruct groups as [|g gs] eqn:Eg.
  { cbn in H. apply Ok_inj in H. injection H as -> ->. auto. }
  rewrite <- Eg in *. apply groups_spec in H as (p & items & P & F & V & R & ->); [|rewrite Eg; discriminate|exact Pr].
  unfold used_after. split; [|apply fold_backend].
  destruct items as [|i l] eqn:Ei.
  - destruct R as [R _]. rewrite (R eq_refl). exact G.
  - rewrite <- Ei in *. assert (items <> []) as NE by (rewrite Ei; discriminate). destruct (exists_last NE) as (m & j & Em).
    destruct R as [_ R]. destruct (R m j Em) as (L & _). intros A. exfalso. rewrite L in A.
    apply item_reads in F. rewrite Em in F. apply Forall_app in F as [_ F]. inversion F as [|? ? Rj _]; subst.
    apply reads_nonempty in Rj. destruct A as [A|A]; [discriminate|]. apply Some_inj in A. contradiction.
Qed.

(** ** Batches *)

Local Notation outcome := (regstate * used)%type.
Definition run_ok (w : world) (key : option bytes) (ps : option str) (b : backend)
    (wargs : list (list vgroup * regstate)) (outs : list outcome) : Prop :=
  Forall2 (fun pr o => verifyGroupsWithVerifiers w (fst pr) key ps (snd pr) (used_new b) = Ok o) wargs outs.

Lemma slices_one {A} (l : list A) : slices 1 l = map (fun x => [x]) l.
Proof.
  unfold slices. induction l as [|x l IH]; [reflexivity|]. cbn [List.length slices_fuel firstn skipn map].
  now rewrite IH.
Qed.

Lemma partition_ok {A} (l : list (result A)) (a : list A) : partition_results l = (a, []) <-> l = map Ok a.
Proof.
  revert a. induction l as [|[x|e] l IH]; intros a; cbn [partition_results].
  - split; [intros H; injection H as <-; reflexivity|]. destruct a; [reflexivity|discriminate].
  - destruct (partition_results l) as [b es] eqn:P. cbn [fst snd]. split.
    + intros H. injection H as <- ->. cbn [map]. f_equal. now apply IH.
    + destruct a as [|y a]; [discriminate|]. cbn [map]. intros H. injection H as <- H. apply IH in H. now injection H as -> ->.
  - split; [discriminate|]. destruct a; discriminate.
Qed.

Lemma map_singletons {A B C} (f : list A -> B) (g : A -> C) (l : list A) : map f (map (fun x => [x]) l) = map (fun x => f [x]) l.
Proof. now rewrite map_map. Qed.

Lemma run_batch_ok w sch key ps b wargs res :
  task_size (sch_pool sch) (List.length wargs) = 1%nat ->
  run_batch w sch key ps b wargs = Ok res <->
  exists outs, run_ok w key ps b wargs outs /\ res = (map fst outs, map snd outs).
Proof.
  intros T. unfold run_batch. cbv zeta. rewrite T, slices_one, map_map.
  set (f := fun x : list vgroup * regstate => run_task w key ps [x] (used_new b)).
  assert (forall pr o, verifyGroupsWithVerifiers w (fst pr) key ps (snd pr) (used_new b) = Ok o <-> f pr = Ok ([fst o], snd o)) as Hf.
  { intros [p r] [r1 u1]. unfold f. cbn [run_task fst snd].
    destruct (verifyGroupsWithVerifiers w p key ps r (used_new b)) as [[r2 u2]|]; cbn [bind fst snd]; [|split; discriminate].
    split; intros H; apply Ok_inj in H; injection H as -> ->; reflexivity. }
  assert (forall pr x, f pr = Ok x -> exists o, x = ([fst o], snd o)) as Hx.
  { intros [p r] x. unfold f. cbn [run_task fst snd].
    destruct (verifyGroupsWithVerifiers w p key ps r (used_new b)) as [[r2 u2]|]; cbn [bind fst snd]; [|discriminate].
    intros H. apply Ok_inj in H. subst. now exists (r2, u2). }
  assert (forall outs, run_ok w key ps b wargs outs <-> map f wargs = map Ok (map (fun o : outcome => ([fst o], snd o)) outs)) as Hr.
  { clear T. unfold run_ok. induction wargs as [|pr wargs IH]; intros outs; destruct outs as [|o outs]; cbn [map].
    - split; [reflexivity|constructor].
    - split; [intros F; inversion F|discriminate].
    - split; [intros F; inversion F|discriminate].
    - split.
      + intros F. inversion F as [|? ? ? ? H F']; subst. apply Hf in H. rewrite H. f_equal. now apply IH.
      + intros H. injection H as H1 H2. constructor; [now apply Hf|now apply IH]. }
  destruct (partition_results (map f wargs)) as [oks [|e es]] eqn:P.
  - apply partition_ok in P. assert (exists outs : list outcome, oks = map (fun o => ([fst o], snd o)) outs) as [outs ->].
    { clear - P Hx. revert oks P. induction wargs as [|pr wargs IH]; intros [|o oks] P; cbn [map] in P; try discriminate P.
      - now exists [].
      - injection P as P1 P2. destruct (IH oks P2) as [outs ->]. destruct (Hx pr o P1) as [o' ->]. now exists (o' :: outs). }
    assert (flat_map fst (map (fun o : outcome => ([fst o], snd o)) outs) = map fst outs) as E1.
    { clear. induction outs as [|o outs IH]; [reflexivity|]. cbn [map flat_map app fst]. now rewrite IH. }
    assert (flat_map (fun o : list regstate * used => map (fun _ => snd o) (fst o)) (map (fun o : outcome => ([fst o], snd o)) outs) = map snd outs) as E2.
    { clear. induction outs as [|o outs IH]; [reflexivity|]. cbn [map flat_map app fst snd]. now rewrite IH. }
    rewrite E1, E2. split.
    + intros H. apply Ok_inj in H. subst. exists outs. split; [now apply Hr|reflexivity].
    + intros (outs' & R & ->). apply Hr in R. rewrite P in R.
      assert (outs = outs') as ->; [|reflexivity]. clear - R. revert outs' R.
      induction outs as [|[a c] outs IH]; intros [|[a' c'] outs'] R; cbn [map fst snd] in R; try discriminate R; [reflexivity|].
      injection R as -> -> R. f_equal. now apply IH.
  - split; [discriminate|]. intros (outs & R & _). apply Hr in R.
    assert (partition_results (map f wargs) = (map (fun o : outcome => ([fst o], snd o)) outs, [])) as Q by now apply partition_ok.
    rewrite Q in P. discriminate.
Qed.

Lemma collect_ok w sch key ps b wargs u reg' u' :
  task_size (sch_pool sch) (List.length wargs) = 1%nat ->
  collect w sch key ps b wargs u = Ok (reg', u') <->
  exists outs o, run_ok w key ps b wargs (outs ++ [o]) /\ used_merge w u (map snd (outs ++ [o])) = Ok u' /\ reg' = fst o.
Proof.
  intros T. unfold collect. split.
  - intros H. apply bind_Ok in H as (res & R & H). apply run_batch_ok in R as (outs & R & ->); [|exact T].
    cbn [fst snd] in H. apply bind_Ok in H as (u1 & M & H). rewrite <- map_rev in H.
    destruct (rev outs) as [|o r] eqn:E; [discriminate|]. cbn [map] in H. apply Ok_inj in H. injection H as <- <-.
    assert (outs = rev r ++ [o]) as -> by (rewrite <- (rev_involutive outs), E; reflexivity).
    exists (rev r), o. auto.
  - intros (outs & o & R & M & ->). apply bind_Ok. exists (map fst (outs ++ [o]), map snd (outs ++ [o])). split.
    + apply run_batch_ok; [exact T|]. eauto.
    + cbn [fst snd]. rewrite M. cbn [bind]. rewrite map_app, rev_app_distr. reflexivity.
Qed.

Lemma predict_length w key pkgs : forall reg wargs, predict w key reg pkgs = Ok wargs -> List.length wargs = List.length pkgs.
Proof.
  induction pkgs as [|p pkgs IH]; intros reg wargs H; cbn [predict] in H.
  - apply Ok_inj in H. now subst.
  - apply bind_Ok in H as (r1 & _ & H). apply bind_Ok in H as (rest & H1 & H). apply Ok_inj in H. subst.
    cbn [List.length]. f_equal. eauto.
Qed.

Definition all_proper (pkgs : list (list vgroup)) : Prop := Forall (Forall (fun g => proper (snd g))) pkgs.

Lemma batch_seq w key ps pkgs : forall reg u reg' u', pkgs <> [] -> all_proper pkgs -> usual reg -> guarded ps reg u ->
  (exists wargs outs o, predict w key reg pkgs = Ok wargs /\ run_ok w key ps (backend_of u) wargs (outs ++ [o])
     /\ used_merge w u (map snd (outs ++ [o])) = Ok u' /\ reg' = fst o)
  <-> verifyGroupsWithVerifiers w (concat pkgs) key ps reg u = Ok (reg', u').
Proof.
  induction pkgs as [|p pkgs IH]; intros reg u reg' u' NE Pr U G; [congruence|].
  inversion Pr as [|? ? Pp Prs]; subst. cbn [concat]. rewrite verify_app. split.
  - intros (wargs & outs & o & P & R & M & ->). cbn [predict] in P. apply bind_Ok in P as (r1 & P1 & P).
    apply bind_Ok in P as (rest & P2 & P). apply Ok_inj in P. subst wargs.
    destruct outs as [|o1 outs]; cbn [app] in R; inversion R as [|? ? ? ? V R']; subst; cbn [fst snd] in V.
    + inversion R'; subst. assert (pkgs = []) as ->.
      { apply predict_length in P2. now destruct pkgs. }
      cbn [app map used_merge] in M. apply bind_Ok in M as (u1 & M & M'). cbn [used_merge] in M'. apply Ok_inj in M'. subst u1.
      destruct o as [ro uo]. cbn [fst snd] in *.
      assert (verifyGroupsWithVerifiers w p key ps reg u = Ok (ro, u')) as -> by (apply verify_used; eauto).
      reflexivity.
    + cbn [app map used_merge] in M. apply bind_Ok in M as (u1 & M1 & M2). destruct o1 as [ro1 uo1]. cbn [fst snd] in *.
      assert (verifyGroupsWithVerifiers w p key ps reg u = Ok (ro1, u1)) as V1 by (apply verify_used; eauto).
      rewrite V1. cbn [bind fst snd]. destruct (predict_faithful _ _ _ _ _ _ _ _ Pp U V1) as [E1 U1].
      rewrite E1 in P1. apply Ok_inj in P1. subst r1.
      destruct (guarded_after _ _ _ _ _ _ _ _ Pp G V1) as [G1 B1].
      apply IH; [|exact Prs|exact U1|exact G1|].
      * intros ->. cbn in P2. apply Ok_inj in P2. subst rest. apply Forall2_length in R'. rewrite app_length in R'. cbn [List.length] in R'. lia.
      * exists rest, outs, o. rewrite B1. auto.
  - intros H. apply bind_Ok in H as ([r1 u1] & V1 & H). cbn [fst snd] in H.
    destruct (predict_faithful _ _ _ _ _ _ _ _ Pp U V1) as [E1 U1]. destruct (guarded_after _ _ _ _ _ _ _ _ Pp G V1) as [G1 B1].
    pose proof V1 as V1'. apply verify_used in V1' as (n & V2 & M1); [|exact Pp|exact G].
    destruct pkgs as [|p2 pkgs'] eqn:E.
    + cbn [concat verifyGroupsWithVerifiers] in H. apply Ok_inj in H. injection H as -> ->.
      exists [(p, reg)], [], (reg', n). cbn [predict app map used_merge]. rewrite E1. cbn [bind].
      split; [reflexivity|]. split; [constructor; [exact V2|constructor]|]. cbn [fst snd]. rewrite M1. auto.
    + rewrite <- E in *. apply IH in H as (wargs & outs & o & P & R & M & ->); [|rewrite E; discriminate|exact Prs|exact U1|exact G1].
      exists ((p, reg) :: wargs), ((r1, n) :: outs), o. cbn [predict app map used_merge]. rewrite E1. cbn [bind]. rewrite P. cbn [bind].
      split; [reflexivity|]. split.
      * constructor; [exact V2|]. now rewrite B1 in R.
      * cbn [snd]. rewrite M1. cbn [bind]. auto.
Qed.

(** ** The whole *)

Lemma isolated_task sch n : isolated sch -> (1 <= n <= sch_nprocs sch)%nat -> task_size (sch_pool sch) n = 1%nat.
Proof.
  intros [A B] N. unfold task_size. destruct (sch_pool sch) as [k|]; [|lia]. destruct B as [B1 B2]. unfold ceil_div.
  set (m := (4 * k)%nat) in *. assert (0 < m)%nat by lia.
  symmetry.   apply Nat.div_unique with (r := (n - 1)%nat); lia.
Qed.

Lemma package_proper w ks c p : packageChunkWithVerifiers w ks c = Ok p -> Forall (fun g => proper (snd g)) p.
Proof.
  intros H. apply mapM_Ok in H. induction H as [|g v c' p' H F IH]; constructor; [|exact IH].
  unfold package_group in H. destruct (g_cert g).
  - apply bind_Ok in H as (x & _ & H). apply Ok_inj in H. subst. left. eexists. reflexivity.
  - destruct (_ =? 1)%nat; [|discriminate]. apply Ok_inj in H. subst. right. eexists. reflexivity.
Qed.

Lemma package_all_proper w ks cs ps : mapM (packageChunkWithVerifiers w ks) cs = Ok ps -> all_proper ps.
Proof.
  intros H. apply mapM_Ok in H. induction H as [|c p cs' ps' H F IH]; constructor; [|exact IH]. eapply package_proper; eassumption.
Qed.

Definition batch_ok {A} (sch : schedule) (l : list A) : Prop := (1 <= List.length l <= sch_nprocs sch)%nat.

Lemma par_pending w sch ks key ps batches : isolated sch -> Forall (batch_ok sch) batches ->
  forall pkgs0 wargs0 reg u reg' u', batch_ok sch pkgs0 -> all_proper pkgs0 -> usual reg -> guarded ps reg u ->
  predict w key reg pkgs0 = Ok wargs0 ->
  par_batches w sch ks key ps (backend_of u) batches None (Some wargs0) reg u = Ok (reg', u') <->
  exists pkgs, mapM (mapM (packageChunkWithVerifiers w ks)) batches = Ok pkgs
    /\ verifyGroupsWithVerifiers w (concat pkgs0 ++ concat (concat pkgs)) key ps reg u = Ok (reg', u').
Proof.
  intros Iso. induction batches as [|chunks batches IH]; intros FB pkgs0 wargs0 reg u reg' u' B0 Pr0 U G P0; cbn [par_batches mapM].
  - assert (List.length wargs0 = List.length pkgs0) as L by (eapply predict_length; eassumption).
    assert (pkgs0 <> []) as NE by (intros ->; destruct B0; cbn in *; lia).
    assert (task_size (sch_pool sch) (List.length wargs0) = 1%nat) as T by (rewrite L; apply isolated_task; assumption).
    rewrite collect_ok by exact T. split.
    + intros (outs & o & R & M & E). exists []. split; [reflexivity|]. cbn [concat]. rewrite app_nil_r.
      apply batch_seq; try assumption. exists wargs0, outs, o. auto.
    + intros (pkgs & E & V). apply Ok_inj in E. subst pkgs. cbn [concat] in V. rewrite app_nil_r in V.
      apply batch_seq in V as (wargs & outs & o & P & R & M & E); try assumption. rewrite P0 in P. apply Ok_inj in P. subst wargs. eauto.
  - inversion FB as [|? ? B1 FB']; subst.
    assert (List.length wargs0 = List.length pkgs0) as L by (eapply predict_length; eassumption).
    assert (pkgs0 <> []) as NE by (intros ->; destruct B0; cbn in *; lia).
    assert (task_size (sch_pool sch) (List.length wargs0) = 1%nat) as T by (rewrite L; apply isolated_task; assumption).
    split.
    + intros H. apply bind_Ok in H as (pkgs1 & K1 & H). apply bind_Ok in H as ([r1 u1] & C & H). cbn [fst snd] in H.
      apply bind_Ok in H as (wargs1 & P1 & H). rewrite K1. cbn [bind].
      apply collect_ok in C as (outs & o & R & M & E); [|exact T].
      assert (verifyGroupsWithVerifiers w (concat pkgs0) key ps reg u = Ok (r1, u1)) as V.
      { apply batch_seq; try assumption. exists wargs0, outs, o. auto. }
      assert (Forall (fun g => proper (snd g)) (concat pkgs0)) as Pc by now apply Forall_concat.
      destruct (predict_faithful _ _ _ _ _ _ _ _ Pc U V) as [_ U1]. destruct (guarded_after _ _ _ _ _ _ _ _ Pc G V) as [G1 Bk].
      rewrite <- Bk in H. apply (IH FB' pkgs1) in H as (pkgs & K & H); try assumption.
      * exists (pkgs1 :: pkgs). rewrite K. split; [reflexivity|]. rewrite verify_app, V. cbn [bind fst snd concat].
        now rewrite concat_app.
      * apply mapM_Ok in K1. unfold batch_ok. rewrite <- (Forall2_length _ _ _ K1). exact B1.
      * eapply package_all_proper; eassumption.
    + intros (pkgs & K & H). apply bind_Ok in K as (pkgs1 & K1 & K). apply bind_Ok in K as (pkgs' & K2 & K). apply Ok_inj in K. subst pkgs.
      rewrite K1. cbn [bind]. rewrite verify_app in H. apply bind_Ok in H as ([r1 u1] & V & H). cbn [fst snd] in H.
      assert (Forall (fun g => proper (snd g)) (concat pkgs0)) as Pc by now apply Forall_concat.
      destruct (predict_faithful _ _ _ _ _ _ _ _ Pc U V) as [_ U1]. destruct (guarded_after _ _ _ _ _ _ _ _ Pc G V) as [G1 Bk].
      assert (collect w sch key ps (backend_of u) wargs0 u = Ok (r1, u1)) as ->.
      { apply collect_ok; [exact T|]. apply batch_seq in V as (wargs & outs & o & P & R & M & E); try assumption.
        rewrite P0 in P. apply Ok_inj in P. subst wargs. eauto. }
      cbn [bind fst snd]. cbn [concat] in H. rewrite concat_app in H.
      assert (all_proper pkgs1) as Pr1 by (eapply package_all_proper; eassumption).
      assert (batch_ok sch pkgs1) as B1'.
      { apply mapM_Ok in K1. unfold batch_ok. rewrite <- (Forall2_length _ _ _ K1). exact B1. }
      assert (pkgs1 <> []) as NE1 by (intros ->; destruct B1'; cbn in *; lia).
      pose proof H as H'. rewrite verify_app in H'. apply bind_Ok in H' as ([r2 u2] & V2 & _).
      apply batch_seq in V2 as (wargs & _ & _ & P & _ & _ & _); try assumption. rewrite P. cbn [bind].
      rewrite <- Bk. apply (IH FB' pkgs1); try assumption. exists pkgs'. auto.
Qed.

Lemma chunks_for_procs_error {A} n (cs : list A) : forall ret e, snd (chunks_for_procs n cs ret (Some e)) = Some e.
Proof.
  induction cs as [|c cs IH]; intros ret e; [reflexivity|]. cbn [chunks_for_procs]. cbv zeta. destruct (n <=? _)%nat; [|apply IH].
  cbn [s_cons snd]. apply IH.
Qed.

Lemma chunks_for_procs_ok {A} n (cs : list A) : (1 <= n)%nat -> forall ret, (List.length ret < n)%nat ->
  snd (chunks_for_procs n cs ret None) = None
  /\ concat (fst (chunks_for_procs n cs ret None)) = ret ++ cs
  /\ Forall (fun b => 1 <= List.length b <= n)%nat (fst (chunks_for_procs n cs ret None)).
Proof.
  intros Hn. induction cs as [|c cs IH]; intros ret L; cbn [chunks_for_procs].
  - destruct ret as [|r0 ret]; [cbn; auto|]. cbn [s_cons s_end fst snd concat]. split; [reflexivity|]. split; [reflexivity|].
    constructor; [cbn [List.length] in *; lia|constructor].
  - cbv zeta. rewrite app_length. cbn [List.length]. destruct (Nat.leb_spec n (List.length ret + 1)).
    + destruct (IH [] ltac:(cbn; lia)) as (A1 & A2 & A3). cbn [s_cons fst snd concat]. split; [exact A1|].
      split; [rewrite A2; now rewrite <- app_assoc|]. constructor; [rewrite app_length; cbn [List.length]; lia|exact A3].
    + destruct (IH (ret ++ [c])) as (A1 & A2 & A3); [rewrite app_length; cbn [List.length]; lia|].
      split; [exact A1|]. split; [rewrite A2; now rewrite <- app_assoc|exact A3].
Qed.

Lemma par_error w sch ks key ps b x batches : forall pending reg u,
  exists e, par_batches w sch ks key ps b batches (Some x) pending reg u = Err e.
Proof.
  induction batches as [|c cs IH]; intros pending reg u; cbn [par_batches]; [eauto|].
  destruct (mapM _ c); [|cbn; eauto]. cbn [bind]. destruct (match pending with None => _ | Some _ => _ end) as [ru|]; [|cbn; eauto].
  cbn [bind]. destruct (predict _ _ _ _); [|cbn; eauto]. cbn [bind]. apply IH.
Qed.

Lemma mapM_concat {A B} (f : A -> result B) (ls : list (list A)) r :
  mapM f (concat ls) = Ok r <-> exists rs, mapM (mapM f) ls = Ok rs /\ r = concat rs.
Proof.
  revert r. induction ls as [|l ls IH]; intros r; cbn [concat mapM].
  - split; [intros H; apply Ok_inj in H; subst; exists []; auto|]. intros (rs & H & ->). apply Ok_inj in H. subst. reflexivity.
  - rewrite mapM_Ok. split.
    + intros F. apply Forall2_app_inv_l in F as (r1 & r2 & F1 & F2 & ->). apply mapM_Ok in F1, F2.
      apply IH in F2 as (rs & F2 & ->). exists (r1 :: rs). rewrite F1. cbn [bind]. rewrite F2. auto.
    + intros (rs & H & ->). apply bind_Ok in H as (r1 & F1 & H). apply bind_Ok in H as (rs' & F2 & H). apply Ok_inj in H. subst.
      cbn [concat]. apply Forall2_app; [now apply mapM_Ok|]. apply mapM_Ok. apply IH. eauto.
Qed.

Theorem par_body_spec w sch ks key s ps reg u reg' u' :
  isolated sch -> usual reg -> guarded ps reg u ->
  par_body w sch ks key s (ps, reg, u) = Ok (reg', u') <->
  snd s = None /\ fst s <> [] /\
  exists pkgs, mapM (packageChunkWithVerifiers w ks) (fst s) = Ok pkgs
    /\ verifyGroupsWithVerifiers w (concat pkgs) key ps reg u = Ok (reg', u').
Proof.
  intros Iso U G. unfold par_body, getChunksForProcs. cbv zeta. destruct s as [chunks [x|]]; cbn [fst snd].
  - rewrite chunks_for_procs_error. destruct (par_error w sch ks key ps (backend_of u) x (fst (chunks_for_procs (sch_nprocs sch) chunks [] (Some x))) None reg u) as [e ->].
    split; [discriminate|]. intros [H _]. discriminate.
  - destruct (chunks_for_procs_ok (sch_nprocs sch) chunks (proj1 Iso) [] ltac:(destruct Iso; cbn; lia)) as (A1 & A2 & A3).
    rewrite A1. cbn [app] in A2. set (bs := fst (chunks_for_procs (sch_nprocs sch) chunks [] None)) in *. clearbody bs.
    destruct bs as [|b bs].
    + cbn [concat] in A2. subst chunks. cbn [par_batches]. split; [discriminate|]. intros (_ & H & _). congruence.
    + inversion A3 as [|? ? B1 A4]; subst.
      assert (chunks_ne : concat (b :: bs) <> []).
      { destruct b; [cbn in B1; lia|discriminate]. }
      cbn [par_batches]. split.
      * intros H. split; [reflexivity|]. split; [exact chunks_ne|]. apply bind_Ok in H as (pkgs1 & K1 & H). cbn [bind fst snd] in H.
        apply bind_Ok in H as (wargs & P & H). apply (par_pending w sch ks key ps bs Iso A4 pkgs1) in H as (pkgs & K & V); try assumption.
        -- exists (pkgs1 ++ concat pkgs). split; [|now rewrite concat_app]. cbn [concat]. apply mapM_app; [exact K1|].
           apply mapM_concat. eauto.
        -- apply mapM_Ok in K1. unfold batch_ok. now rewrite <- (Forall2_length _ _ _ K1).
        -- eapply package_all_proper; eassumption.
      * intros (_ & _ & pkgs & K & V). cbn [concat] in K. apply mapM_Ok in K. apply Forall2_app_inv_l in K as (pkgs1 & pkgs2 & K1 & K2 & ->).
        pose proof (Forall2_length _ _ _ K1) as L1. apply mapM_Ok in K1, K2. rewrite K1. cbn [bind fst snd]. rewrite concat_app in V.
        assert (all_proper pkgs1) as Pr1 by (eapply package_all_proper; eassumption).
        assert (batch_ok sch pkgs1) as B1' by (unfold batch_ok; now rewrite <- L1).
        assert (pkgs1 <> []) as NE1 by (intros ->; destruct B1'; cbn in *; lia).
        pose proof V as V'. rewrite verify_app in V'. apply bind_Ok in V' as ([r2 u2] & V2 & _).
        apply batch_seq in V2 as (wargs & _ & _ & P & _ & _ & _); try assumption. rewrite P. cbn [bind].
        apply (par_pending w sch ks key ps bs Iso A4 pkgs1); try assumption. apply mapM_concat in K2 as (rs & K2 & ->). eauto.
Qed.
