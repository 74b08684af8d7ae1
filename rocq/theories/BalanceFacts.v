(** Facts about the distribution of work. *)
From Coq Require Import Lia ZifyClasses ZifyNat ZifyBool.
From Verif Require Import PyBase World Codec Receipt DepBase Json Pem KeyStore VerifyReceipt State DepParser Verify ListFacts
  RoundTrip2 SpecDep SpecCluster SpecState StateFacts DepFacts SeqFacts ClusterFacts AcceptFacts UpdateFacts ParFacts SpecChunks ChunkFacts DictFacts.
Open Scope N_scope.
Open Scope py_scope.

(** ** Rounding up *)

Lemma ceil_bound t p k : (1 <= p)%nat -> (1 <= k)%nat -> (t <= p * k)%nat -> (Nat.div (t + Nat.pred k) k <= p)%nat.
Proof.
  intros P K H. apply Nat.lt_succ_r. apply Nat.div_lt_upper_bound; [lia|]. nia.
Qed.

Lemma ceil_covers t p : (1 <= p)%nat -> (t <= p * ceil_div t p)%nat.
Proof.
  intros P. unfold ceil_div. pose proof (Nat.div_mod (t + Nat.pred p) p ltac:(lia)) as E.
  pose proof (Nat.mod_upper_bound (t + Nat.pred p) p ltac:(lia)). lia.
Qed.

Lemma ceil_pos t p : (1 <= p)%nat -> (1 <= t)%nat -> (1 <= ceil_div t p)%nat.
Proof. intros P T. pose proof (ceil_covers t p P). destruct (ceil_div t p); lia. Qed.

Lemma ceil_zero p : (1 <= p)%nat -> ceil_div 0 p = 0%nat.
Proof. intros P. unfold ceil_div. apply Nat.div_small. lia. Qed.

(** ** Slices *)

Lemma slices_fuel_spec {A} n : (1 <= n)%nat -> forall fuel (l : list A), (List.length l <= fuel)%nat ->
  concat (slices_fuel fuel n l) = l
  /\ (forall b s a, slices_fuel fuel n l = b ++ s :: a -> (1 <= List.length s <= n)%nat /\ (a <> [] -> List.length s = n))
  /\ List.length (slices_fuel fuel n l) = number_of_chunks n (List.length l).
Proof.
  intros N. induction fuel as [|fuel IH]; intros l F.
  - destruct l; [|cbn in F; lia]. cbn. split; [reflexivity|]. split; [intros [|] ? ? E; discriminate|].
    unfold number_of_chunks. symmetry. apply Nat.div_small. lia.
  - destruct l as [|x l'] eqn:El.
    { cbn. split; [reflexivity|]. split; [intros [|] ? ? E; discriminate|]. unfold number_of_chunks. symmetry. apply Nat.div_small. lia. }
    rewrite <- El in *. assert (1 <= List.length l)%nat as L1 by (rewrite El; cbn; lia).
    replace (slices_fuel (S fuel) n l) with (firstn n l :: slices_fuel fuel n (skipn n l)) by (rewrite El; reflexivity).
    assert (List.length (skipn n l) <= fuel)%nat as F' by (rewrite skipn_length; lia). destruct (IH _ F') as (A1 & A2 & A3). split; [|split].
    + cbn [concat]. rewrite A1. apply firstn_skipn.
    + intros b s a E. destruct b as [|b0 b].
      * cbn [app] in E. injection E as <- <-. rewrite firstn_length. split; [lia|]. intros NE.
        destruct (Nat.le_gt_cases n (List.length l)) as [G|G]; [lia|]. exfalso. apply NE. rewrite skipn_all2 by lia. now destruct fuel.
      * cbn [app] in E. injection E as _ E. now apply (A2 b).
    + cbn [List.length]. rewrite A3, skipn_length. unfold number_of_chunks.
      destruct (Nat.le_gt_cases n (List.length l)) as [G|G].
      * replace (List.length l + Nat.pred n)%nat with (List.length l - n + Nat.pred n + 1 * n)%nat by lia.
        rewrite Nat.div_add by lia. lia.
      * replace (List.length l - n)%nat with 0%nat by lia. rewrite (Nat.div_small (0 + _)) by lia.
        apply (Nat.div_unique _ _ _ (Nat.pred (List.length l))); lia.
Qed.

Lemma slices_spec {A} n (l : list A) : (1 <= n)%nat ->
  concat (slices n l) = l
  /\ (forall b s a, slices n l = b ++ s :: a -> (1 <= List.length s <= n)%nat /\ (a <> [] -> List.length s = n))
  /\ List.length (slices n l) = number_of_chunks n (List.length l).
Proof. intros N. now apply slices_fuel_spec. Qed.

(** ** balanceGroupsWithVerifiers *)

Lemma group_by_spec {A} (l : list (A * nat)) : assigned (group_by l) = l /\ Forall (fun g => fst g <> []) (group_by l)
  /\ alternating (group_by l).
Proof.
  induction l as [|[a v] r (I1 & I2 & I3)]; [repeat constructor|]. cbn [group_by]. destruct (group_by r) as [|[as_ v'] gs].
  - cbn in I1. subst r. split; [reflexivity|]. split; [|exact I]. constructor; [discriminate|constructor].
  - inversion I2 as [|? ? N1 N2]; subst. cbn [fst] in N1. destruct (Nat.eqb_spec v v') as [->|NE].
    + split; [reflexivity|]. split; [constructor; [discriminate|exact N2]|]. exact I3.
    + split; [reflexivity|]. split; [constructor; [discriminate|exact I2]|]. cbn [alternating snd]. now split.
Qed.

Lemma balance_spec {A} (groups : list (list A * nat)) np : (1 <= np)%nat ->
  (assigned groups = [] /\ balanceGroupsWithVerifiers groups np = Err PyValueError)
  \/ exists pkgs, assigned groups <> [] /\ balanceGroupsWithVerifiers groups np = Ok pkgs
      /\ flat_map assigned pkgs = assigned groups
      /\ (1 <= List.length pkgs <= np)%nat
      /\ Forall (fun p => assigned p <> [] /\ Forall (fun g => fst g <> []) p /\ alternating p
           /\ (List.length (assigned p) <= ceil_div (List.length (assigned groups)) np)%nat) pkgs.
Proof.
  intros P. unfold balanceGroupsWithVerifiers. fold (assigned groups). cbv zeta. destruct (assigned groups) as [|x l'] eqn:E.
  - left. split; [reflexivity|]. cbn [List.length]. rewrite ceil_zero by exact P. reflexivity.
  - right. rewrite <- E. set (l := assigned groups) in *. assert (1 <= List.length l)%nat as L by (rewrite E; cbn; lia).
    pose proof (ceil_pos _ _ P L) as C. pose proof (ceil_covers (List.length l) np P) as V. set (per := ceil_div (List.length l) np) in *.
    exists (map group_by (slices per l)). split; [rewrite E; discriminate|]. split.
    { destruct (Nat.eqb_spec per 0); [lia|reflexivity]. }
    destruct (slices_spec per l C) as (S1 & S2 & S3). split.
    { rewrite flat_map_concat_map, map_map. rewrite <- S1 at 2. f_equal. rewrite <- (map_id (slices per l)) at 2. apply map_ext.
      intros a. apply group_by_spec. }
    split.
    { rewrite map_length, S3. unfold number_of_chunks. split; [|apply ceil_bound; [exact P|exact C|lia]]. apply (ceil_pos _ _ C L). }
    apply Forall_forall. intros p Hp. apply in_map_iff in Hp as (s & <- & Hs). apply in_split in Hs as (b & a & Hs).
    destruct (group_by_spec s) as (G1 & G2 & G3). rewrite G1. destruct (S2 _ _ _ Hs) as [Len _].
    split; [intros X; rewrite X in Len; cbn in Len; lia|]. split; [exact G2|]. split; [exact G3|]. lia.
Qed.

(** ** getChunksForProcs *)

Lemma batches_spec {A} n (cs : list A) e : (1 <= n)%nat -> forall ret, (List.length ret < n)%nat ->
  snd (chunks_for_procs n cs ret e) = e
  /\ Forall (fun b => (1 <= List.length b <= n)%nat) (fst (chunks_for_procs n cs ret e))
  /\ exists rest, concat (fst (chunks_for_procs n cs ret e)) ++ rest = ret ++ cs /\ (e = None -> rest = []) /\ (List.length rest < n)%nat.
Proof.
  intros N. induction cs as [|c cs IH]; intros ret R; cbn [chunks_for_procs].
  - destruct e as [x|].
    + split; [reflexivity|]. split; [constructor|]. exists ret. rewrite app_nil_r. split; [reflexivity|]. split; [discriminate|exact R].
    + destruct ret as [|r0 ret'] eqn:E.
      * split; [reflexivity|]. split; [constructor|]. exists []. auto.
      * rewrite <- E in *. split; [reflexivity|]. split.
        { constructor; [|constructor]. rewrite E in *. cbn in *. lia. }
        exists []. cbn [s_cons fst s_end concat]. rewrite !app_nil_r. split; [reflexivity|]. split; [auto|cbn; lia].
  - assert (List.length (ret ++ [c]) = S (List.length ret)) as L by (rewrite app_length; cbn; lia).
    destruct (Nat.leb_spec n (List.length (ret ++ [c]))) as [G|G].
    + destruct (IH [] ltac:(cbn; lia)) as (I1 & I2 & rest & I3 & I4 & I5). split; [exact I1|]. split.
      * constructor; [lia|exact I2].
      * exists rest. cbn [s_cons fst concat]. rewrite <- app_assoc, I3. split; [now rewrite <- app_assoc|auto].
    + destruct (IH _ G) as (I1 & I2 & rest & I3 & I4 & I5). split; [exact I1|]. split; [exact I2|]. exists rest.
      split; [now rewrite I3, <- app_assoc|auto].
Qed.

(** ** The number of chunks *)

Lemma elements_list l t : elements (JList l) t -> List.length l = List.length t.
Proof.
  unfold elements. intros H. destruct H as [E|H]; [|destruct H as [(s & E & _)|(d & E & _)]; discriminate]. injection E as ->. now rewrite map_length.
Qed.

Lemma total_size w d js gs dgs : Forall2 (group_is w) js gs -> Forall2 encoded gs dgs ->
  dict_get d k_bg = Some (JList js) -> arrays (JDict d) -> totalRecsInDictDEP d = size dgs.
Proof.
  intros F E D Ar. specialize (Ar d js eq_refl D). unfold totalRecsInDictDEP. rewrite D. clear D. revert dgs E.
  induction F as [|j g js gs (dd & jr & sc & chain & -> & K & El & _) F IH]; intros dgs E.
  - now inversion E.
  - inversion E as [|? dg ? dgs' (E1 & _) E']; subst. inversion Ar as [|? ? A1 A2]; subst.
    cbn [map list_sum fold_right]. change (fold_right Nat.add 0%nat) with list_sum. rewrite (IH A2 dgs' E').
    unfold size. rewrite stamped_cons, app_length, map_length. f_equal. unfold nrecs_of. rewrite K.
    destruct (A1 dd jr eq_refl K) as (l & ->). rewrite (elements_list _ _ El). now apply Forall2_length in E1.
Qed.

Lemma parts_bound w np dep chunks : (1 < np)%nat -> arrays dep -> parse_dict w np dep 0 = (chunks, None) ->
  (1 <= List.length chunks <= np)%nat /\ exists gs dgs, dep_is w dep gs /\ Forall2 encoded gs dgs /\ delivers (ceil_div (size dgs) np) dgs chunks.
Proof.
  intros P Ar H. apply parse_dict_chunks in H as (gs & dgs & D & E & NF & ->). pose proof D as (d & js & -> & K & F).
  cbn [effective_size]. replace ((1 <? np) && (0 =? 0))%nat with true by (destruct (Nat.ltb_spec 1 np); [reflexivity|lia]).
  rewrite (total_size w d js gs dgs F E K Ar).
  assert (1 <= size dgs)%nat as S1.
  { unfold size. rewrite <- stamped_filter. destruct (filter has_receipts dgs) as [|g l] eqn:X; [now contradiction NF|].
    assert (In g (filter has_receipts dgs)) as Hg by (rewrite X; now left). apply filter_In in Hg as [_ Hg]. unfold has_receipts in Hg.
    rewrite stamped_cons, app_length, map_length. destruct (g_recs g); [discriminate|cbn; lia]. }
  pose proof (ceil_pos _ np ltac:(lia) S1) as C. pose proof (ceil_covers (size dgs) np ltac:(lia)) as V.
  destruct (ceil_div (size dgs) np) as [|m] eqn:M; [lia|]. cbn [dict_chunks]. split.
  - unfold chunks_of. rewrite map_length, seq_length. unfold number_of_chunks. split; [|apply ceil_bound; lia].
    apply (ceil_pos _ _ C S1).
  - exists gs, dgs. split; [exact D|]. split; [exact E|]. rewrite M. apply chunks_deliver. lia.
Qed.

(** ** Packages that share the object for the used IDs *)

Lemma batch_one w sch1 sch2 key ps b pkg : task_size (sch_pool sch1) 1 = 1%nat -> task_size (sch_pool sch2) 1 = 1%nat ->
  run_batch w sch1 key ps b [pkg] = run_batch w sch2 key ps b [pkg].
Proof.
  intros T1 T2. unfold run_batch. cbn [List.length]. rewrite T1, T2. cbn [slices slices_fuel List.length firstn skipn map].
  destruct (run_task w key ps [pkg] (used_new b)); cbn [partition_results fst snd]; [reflexivity|].
  destruct (sch_pick sch1 [e]) as [|[|]], (sch_pick sch2 [e]) as [|[|]]; reflexivity.
Qed.

Lemma task_one sch : (match sch_pool sch with Some p => (1 <= p)%nat | None => True end) -> task_size (sch_pool sch) 1 = 1%nat.
Proof.
  destruct (sch_pool sch) as [p|]; [|reflexivity]. intros P. unfold task_size, ceil_div. symmetry.
  apply (Nat.div_unique _ _ _ 0%nat); lia.
Qed.

Theorem one_chunk w sch1 sch2 ks key c cl idx : (1 <= sch_nprocs sch1)%nat -> (1 <= sch_nprocs sch2)%nat ->
  (match sch_pool sch1 with Some p => (1 <= p)%nat | None => True end) ->
  (match sch_pool sch2 with Some p => (1 <= p)%nat | None => True end) ->
  verifyParsedDEP w sch1 ([c], None) ks key cl idx = verifyParsedDEP w sch2 ([c], None) ks key cl idx.
Proof.
  intros N1 N2 P1 P2. apply task_one in P1, P2.
  assert (forall info, par_body w sch1 ks key ([c], None) info = par_body w sch2 ks key ([c], None) info) as E.
  { intros [[ps reg] u]. unfold par_body, getChunksForProcs. cbn [fst snd chunks_for_procs app List.length]. cbv zeta.
    assert (forall n, (1 <= n)%nat -> (if (n <=? 1)%nat then s_cons [c] s_end else s_cons [c] s_end) = ([[c]], None)) as E1
      by (intros n _; now destruct (n <=? 1)%nat).
    rewrite !E1 by assumption. cbn [fst snd par_batches mapM]. destruct (packageChunkWithVerifiers w ks c) as [pkg|]; [|reflexivity].
    cbn [bind predict fst snd]. destruct (predict_groups w key reg pkg) as [reg'|]; [|reflexivity]. cbn [bind]. unfold collect.
    rewrite (batch_one w sch1 sch2) by assumption. reflexivity. }
  unfold verifyParsedDEP, with_register. destruct (getCashRegisterInfo cl idx) as [c' info]. destruct info as [i|]; [|reflexivity].
  cbn [bind]. rewrite E. reflexivity.
Qed.

(** IDs are recorded with the default backend. *)
Definition some_ids (u : used) : Prop := match u with Unique ids => ids <> [] | Natural _ _ => True end.

Lemma add_some u i : some_ids (used_add u i).
Proof.
  destruct u as [ids|]; [|exact I]. cbn [used_add]. destruct (mem i ids) eqn:M; cbn [some_ids].
  - intros ->. discriminate.
  - destruct ids; discriminate.
Qed.

Lemma step_some w v key ps s cr s' : verify_step w v key ps s cr = Ok s' -> some_ids (vs_used s').
Proof.
  unfold verify_step. intros H. apply bind_Ok in H as (r & _ & H). apply bind_Ok in H as (rn & _ & H). cbv zeta in H.
  apply bind_Ok in H as (ini & _ & H). apply bind_Ok in H as (x & _ & H). apply bind_Ok in H as (cn & _ & H).
  apply bind_Ok in H as (c & _ & H). apply Ok_inj in H. subst s'. cbn [vs_used]. apply add_some.
Qed.

Lemma loop_some w v key ps group : forall s s', verify_loop w v key ps s group = Ok s' ->
  group <> [] \/ some_ids (vs_used s) -> some_ids (vs_used s').
Proof.
  induction group as [|cr group IH]; intros s s' H G; cbn [verify_loop] in H.
  - apply Ok_inj in H. subst. destruct G; [congruence|assumption].
  - apply bind_Ok in H as (s1 & H1 & H). apply (IH s1 s' H). right. eapply step_some; exact H1.
Qed.

Lemma groups_some w key ps groups : forall reg u reg' u', verifyGroupsWithVerifiers w groups key ps reg u = Ok (reg', u') ->
  Exists (fun g => fst g <> []) groups \/ some_ids u -> some_ids u'.
Proof.
  induction groups as [|[recs v] groups IH]; intros reg u reg' u' H G; cbn [verifyGroupsWithVerifiers] in H.
  - injection H as <- <-. destruct G as [G|G]; [inversion G|exact G].
  - apply bind_Ok in H as ([r1 u1] & H1 & H). cbn [fst snd] in H. apply (IH r1 u1 reg' u' H).
    unfold verifyGroup in H1. apply bind_Ok in H1 as (po & _ & H1). apply bind_Ok in H1 as (s & H1 & E).
    injection E as _ <-. destruct G as [G|G].
    + inversion G as [? ? G1|? ? G1]; subst; [|now left]. right. eapply loop_some; [exact H1|]. now left.
    + right. eapply loop_some; [exact H1|]. now right.
Qed.

Lemma task_some w key ps pkgs : forall u regs u', run_task w key ps pkgs u = Ok (regs, u') -> pkgs <> [] ->
  Forall (fun p => Exists (fun g => fst g <> []) (fst p)) pkgs -> some_ids u' /\ List.length regs = List.length pkgs.
Proof.
  induction pkgs as [|[p reg] pkgs IH]; intros u regs u' H NE F; [congruence|]. cbn [run_task] in H.
  apply bind_Ok in H as ([r1 u1] & H1 & H). cbn [fst snd] in H. apply bind_Ok in H as ([rs u2] & H2 & H). cbn [fst snd] in H.
  injection H as <- <-. inversion F as [|? ? F1 F2]; subst. cbn [fst] in F1. destruct pkgs as [|q pkgs'] eqn:E.
  - cbn [run_task] in H2. injection H2 as <- <-. split; [|reflexivity]. eapply groups_some; [exact H1|]. now left.
  - rewrite <- E in *. destruct (IH u1 rs u2 H2) as [I1 I2]; [rewrite E; discriminate|exact F2|]. split; [exact I1|]. cbn [List.length]. now rewrite I2.
Qed.

Lemma merge_ids_mem w ids : forall u u', used_merge_ids w (Unique u) ids = Ok u' ->
  exists l, u' = Unique l /\ (forall i, In i u \/ In i ids -> In i l).
Proof.
  induction ids as [|i ids IH]; intros u u' H; cbn [used_merge_ids] in H.
  - apply Ok_inj in H. subst. exists u. split; [reflexivity|]. intros i [Hi|[]]. exact Hi.
  - apply bind_Ok in H as (x & C & H). cbn [used_add] in H. destruct (mem i u) eqn:M.
    + apply IH in H as (l & -> & Hl). exists l. split; [reflexivity|]. intros j [Hj|[<-|Hj]]; apply Hl; auto. left. now apply mem_In.
    + apply IH in H as (l & -> & Hl). exists l. split; [reflexivity|]. intros j [Hj|[<-|Hj]]; apply Hl; auto;
        left; apply in_or_app; auto. right. now left.
Qed.

Lemma merge_same w u v rest r : backend_of u = B_unique -> some_ids v -> used_merge w u (v :: v :: rest) = Ok r -> False.
Proof.
  intros B S H. destruct u as [ids|]; [|discriminate]. cbn [used_merge] in H. apply bind_Ok in H as (u1 & H1 & H).
  destruct v as [[|i l]|]; cbn [some_ids] in S; [congruence| |discriminate].
  cbn [used_merge1] in H1. apply merge_ids_mem in H1 as (l1 & -> & Hl). apply bind_Ok in H as (u2 & H2 & _).
  cbn [used_merge1 used_merge_ids] in H2. apply bind_Ok in H2 as (x & C & _). cbn [used_check] in C.
  assert (mem i l1 = true) as M by (apply mem_In; apply Hl; right; now left). rewrite M in C. discriminate.
Qed.

Lemma batch_shared w sch key ps b pkgs u r : backend_of u = B_unique -> (2 <= List.length pkgs)%nat ->
  (2 <= task_size (sch_pool sch) (List.length pkgs))%nat ->
  Forall (fun p => Exists (fun g => fst g <> []) (fst p)) pkgs ->
  collect w sch key ps b pkgs u = Ok r -> False.
Proof.
  intros B L T F H. unfold collect in H. apply bind_Ok in H as (res & R & H). apply bind_Ok in H as (u' & M & _).
  unfold run_batch in R. destruct pkgs as [|p1 [|p2 rest]] eqn:E; [cbn in L; lia|cbn in L; lia|]. rewrite <- E in *.
  cbv zeta in R. destruct (task_size (sch_pool sch) (List.length pkgs)) as [|[|ts]] eqn:Et; [lia|lia|].
  assert (slices (S (S ts)) pkgs = (p1 :: p2 :: firstn ts rest) :: slices_fuel (List.length (p2 :: rest)) (S (S ts)) (skipn ts rest)) as Es
    by (rewrite E; reflexivity).
  match type of R with context [slices ?n ?l] => change n with (task_size (sch_pool sch) (List.length pkgs)) in R; rewrite Et in R;
    change (slices (S (S ts)) l) with (slices (S (S ts)) pkgs) in R end. rewrite Es in R. cbn [map] in R.
  assert (Forall (fun p => Exists (fun g => fst g <> []) (fst p)) (p1 :: p2 :: firstn ts rest)) as F'.
  { rewrite E in F. inversion F as [|? ? F1 F2]; subst. inversion F2 as [|? ? F3 F4]; subst. constructor; [exact F1|].
    constructor; [exact F3|]. rewrite <- (firstn_skipn ts rest) in F4. now apply Forall_app in F4. }
  destruct (run_task w key ps (p1 :: p2 :: firstn ts rest) (used_new b)) as [[regs fin]|e] eqn:Rt.
  - apply task_some in Rt as [S Len]; [|discriminate|exact F']. cbn [partition_results] in R.
    destruct (partition_results (map _ _)) as [oks [|x xs]]; cbn [fst snd] in R; [|discriminate].
    apply Ok_inj in R. subst res. cbn [flat_map fst snd] in M. destruct regs as [|g1 [|g2 regs]]; try (cbn in Len; lia).
    cbn [map app] in M. eapply merge_same; eassumption.
  - cbn [partition_results] in R. destruct (partition_results (map _ _)) as [oks es]. cbn [fst snd] in R. discriminate.
Qed.

Lemma first_batch {A} n (cs : list A) e : (1 <= n)%nat -> cs <> [] ->
  e = None \/ (n <= List.length cs)%nat ->
  exists b bs, fst (chunks_for_procs n cs [] e) = b :: bs /\ List.length b = Nat.min n (List.length cs) /\ exists tl, cs = b ++ tl.
Proof.
  intros N NE H.
  enough (forall cs ret, (List.length ret < n)%nat -> ret ++ cs <> [] -> e = None \/ (n <= List.length (ret ++ cs))%nat ->
    exists b bs, fst (chunks_for_procs n cs ret e) = b :: bs /\ List.length b = Nat.min n (List.length (ret ++ cs))
      /\ exists tl, ret ++ cs = b ++ tl) as X by (apply (X cs []); [cbn; lia|exact NE|exact H]).
  clear cs NE H. induction cs as [|c cs IH]; intros ret R NE H; cbn [chunks_for_procs].
  - rewrite app_nil_r in *. destruct H as [->|H]; [|lia]. destruct ret as [|r0 ret']; [congruence|]. exists (r0 :: ret'), [].
    split; [reflexivity|]. split; [lia|]. exists []. now rewrite app_nil_r.
  - assert (List.length (ret ++ [c]) = S (List.length ret)) as L by (rewrite app_length; cbn; lia).
    destruct (Nat.leb_spec n (List.length (ret ++ [c]))) as [G|G].
    + exists (ret ++ [c]), (fst (chunks_for_procs n cs [] e)). split; [reflexivity|]. rewrite !app_length in *. cbn [List.length] in *. split; [lia|].
      exists cs. now rewrite <- app_assoc.
    + replace (ret ++ c :: cs) with ((ret ++ [c]) ++ cs) in * by now rewrite <- app_assoc. apply IH; assumption.
Qed.

Lemma package_receipts w ks c p : packageChunkWithVerifiers w ks c = Ok p -> with_receipts c -> Exists (fun g => fst g <> []) p.
Proof.
  unfold packageChunkWithVerifiers, with_receipts. generalize (List.length c =? 1)%nat. intros one H E. apply mapM_Ok in H. induction H as [|g v l l' H F IH]; [inversion E|].
  apply Exists_cons in E as [X|X]; [|right; now apply IH]. left. unfold package_group in H. destruct (g_cert g).
  - apply bind_Ok in H as (? & _ & H). apply Ok_inj in H. now subst v.
  - destruct one; [|discriminate]. apply Ok_inj in H. now subst v.
Qed.

Lemma predict_fst w key pkgs : forall reg wargs, predict w key reg pkgs = Ok wargs -> map fst wargs = pkgs.
Proof.
  induction pkgs as [|p pkgs IH]; intros reg wargs H; cbn [predict] in H; [apply Ok_inj in H; now subst|].
  apply bind_Ok in H as (reg' & _ & H). apply bind_Ok in H as (rest & H1 & H). apply Ok_inj in H. subst. cbn [map fst]. f_equal. eauto.
Qed.

Theorem shared_rejected w sch s ks key c idx : backend_of (c_used c) = B_unique -> (1 <= sch_nprocs sch)%nat ->
  Forall with_receipts (fst s) -> (2 <= List.length (fst s))%nat -> (2 <= sch_nprocs sch)%nat ->
  (2 <= task_size (sch_pool sch) (Nat.min (sch_nprocs sch) (List.length (fst s))))%nat ->
  snd (verifyParsedDEP w sch s ks key c idx) <> None.
Proof.
  intros B N F L N2 T E. unfold verifyParsedDEP in E. destruct (with_register c idx (par_body w sch ks key s)) as [c' e] eqn:W.
  cbn [snd] in E. subst e. apply with_register_Ok in W as (b & reg & a & reg' & u' & _ & W & _). unfold par_body in W.
  unfold getChunksForProcs in W. cbv zeta in W. destruct s as [cs e]. cbn [fst snd] in *.
  assert (snd (chunks_for_procs (sch_nprocs sch) cs [] e) = e) as Ee by (apply batches_spec; cbn; lia). rewrite Ee in W.
  destruct e as [x|].
  { destruct (par_error w sch ks key (start_of_last b) (backend_of (c_used c)) x (fst (chunks_for_procs (sch_nprocs sch) cs [] (Some x))) None reg (c_used c)) as [e X].
    rewrite X in W. discriminate. }
  destruct (first_batch (sch_nprocs sch) cs None N) as (b1 & bs & Eb & Lb & tl & Ecs); [destruct cs; [cbn in L; lia|discriminate]|now left|].
  rewrite Eb in W. cbn [par_batches] in W. apply bind_Ok in W as (pkgs & K & W). cbn [bind fst snd] in W. apply bind_Ok in W as (wargs & P & W).
  assert (List.length wargs = List.length b1) as Lw.
  { rewrite (predict_length _ _ _ _ _ P). apply mapM_Ok in K. symmetry. eapply Forall2_length; exact K. }
  assert (Forall (fun p => Exists (fun g => fst g <> []) (fst p)) wargs) as Fw.
  { apply predict_fst in P. apply mapM_Ok in K. rewrite Ecs in F. apply Forall_app in F as [F _]. clear -P K F. revert wargs P.
    induction K as [|x p l l' H K IH]; intros wargs P; [destruct wargs; [constructor|discriminate]|].
    destruct wargs as [|wa wargs]; [discriminate|]. injection P as P1 P2. inversion F as [|? ? F1 F2]; subst. constructor; [|now apply IH].
    eapply package_receipts; eassumption. }
  assert (forall r, collect w sch key (start_of_last b) (backend_of (c_used c)) wargs (c_used c) = Ok r -> False) as C.
  { intros r. rewrite Lb in Lw. apply batch_shared; [exact B| | |exact Fw].
    - refine (eq_ind_r (fun n => (2 <= n)%nat) _ Lw). lia.
    - refine (eq_ind_r (fun n => (2 <= task_size (sch_pool sch) n)%nat) T Lw). }
  destruct bs as [|b2 bs]; cbn [par_batches] in W; [now apply C in W|]. apply bind_Ok in W as (pk2 & _ & W). apply bind_Ok in W as (ru & W & _). now apply C in W.
Qed.

Lemma batches_of {A} (s : stream A) n : (1 <= n)%nat ->
  snd (getChunksForProcs s n) = snd s
  /\ Forall (fun b => (1 <= List.length b <= n)%nat) (fst (getChunksForProcs s n))
  /\ exists rest, concat (fst (getChunksForProcs s n)) ++ rest = fst s
     /\ (snd s = None -> rest = []) /\ (List.length rest < n)%nat.
Proof. intros N. exact (batches_spec n (fst s) (snd s) N [] ltac:(cbn; lia)). Qed.
