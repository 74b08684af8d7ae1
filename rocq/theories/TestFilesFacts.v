(** The files of run_test.py: when they are written, and that verify.py accepts them. *)
From Coq Require Import Lia ZifyClasses ZifyN ZifyNat ZifyBool Floats.SpecFloat Permutation.
From Verif Require Import PyBase ListFacts World Codec PyFloat PyTime Receipt Pem Json KeyStore KeyFacts VerifyReceipt State StateFacts DepParser Verify DepExport
  SpecReceipt SpecDep SpecCluster SpecAmount SpecKeys SpecPool SpecState SpecDoc SpecChunks CashReg SpecCashReg AcceptFacts IncTheorems ParTheorems
  Override RunTest SpecRunTest RunTestSeq TestVerify SpecTestVerify TestVerifyFacts TestSetup SpecSetup SetupFacts SetupTest Cli SpecCli CliFacts KeyStoreCliFacts TestFiles SpecTestFiles.
Open Scope N_scope.
Local Ltac Zify.zify_post_hook ::= Z.div_mod_to_equations.

(** ** The command line *)

Definition flat_pairs (pairs : list (str * str)) : list str := List.concat (map (fun f : str * str => [fst f; snd f]) pairs).
Lemma flat_length pairs : List.length (flat_pairs pairs) = (2 * List.length pairs)%nat.
Proof. unfold flat_pairs. induction pairs as [|p l IH]; cbn [map List.concat app List.length]; lia. Qed.

Lemma read_material_spec read n : forall rest mats, (2 * n <= List.length rest)%nat ->
  read_material read n rest = Ok mats <->
  exists pairs tail, rest = flat_pairs pairs ++ tail /\ List.length pairs = n
    /\ Forall2 (fun f mat => read (fst f) = Ok (snd mat) /\ read (snd f) = Ok (fst mat)) pairs mats.
Proof.
  induction n as [|n IH]; intros rest mats L; cbn [read_material].
  - split.
    + intros H. apply Ok_inj in H. subst mats. exists [], rest. repeat split; constructor.
    + intros (pairs & tail & _ & E & F). destruct pairs; [|discriminate E]. inversion F. reflexivity.
  - destruct rest as [|a [|b r]]; cbn [List.length] in L; [lia|lia|].
    assert (2 * n <= List.length r)%nat as L' by lia. split.
    + intros (pub & P & (priv & Q & (l & R & H)%bind_Ok)%bind_Ok)%bind_Ok. apply Ok_inj in H. subst mats.
      apply IH in R as (pairs & tail & -> & E & F); [|exact L']. exists ((a, b) :: pairs), tail. split; [reflexivity|]. split; [cbn [List.length]; now rewrite E|].
      constructor; [now split|exact F].
    + intros (pairs & tail & E & Ln & F). destruct pairs as [|[a' b'] pairs]; [discriminate Ln|]. inversion F as [|? [pub priv] ? mats' [H1 H2] F']; subst.
      cbn [flat_pairs map List.concat app fst snd] in E, H1, H2. injection E as -> -> E. rewrite H2. cbn [bind]. rewrite H1. cbn [bind].
      assert (read_material read n r = Ok mats') as ->; [|reflexivity]. apply IH; [exact L'|]. exists pairs, tail. split; [exact E|]. split; [now injection Ln|exact F'].
Qed.

Lemma mode_neq : str_eqb (lit "open") (lit "closed") = false.
Proof. reflexivity. Qed.

Theorem files_iff w m spec read args files :
  run_test_py w m spec read args = E_wrote files <->
  exists closed sp mats size deps store, command w spec read args closed sp mats size
    /\ runTest_full w m sp mats closed size = Ok (deps, store)
    /\ files = (container_name, store) :: dep_files deps.
Proof.
  split.
  - unfold run_test_py. destruct args as [|mode [|file rest]]; [discriminate..|]. destruct (Nat.ltb_spec (List.length (mode :: file :: rest)) 4) as [|L4]; [discriminate|]. cbn [List.length] in *.
    assert (forall b : bool, negb (str_eqb mode (lit "closed")) && negb (str_eqb mode (lit "open")) = b -> b = false -> mode = if str_eqb mode (lit "closed") then lit "closed" else lit "open") as Md.
    { intros b <- E. destruct (str_eqb mode (lit "closed")) eqn:E1; [now apply str_eqb_eq|]. destruct (str_eqb mode (lit "open")) eqn:E2; [now apply str_eqb_eq|discriminate E]. }
    destruct (negb (str_eqb mode (lit "closed")) && negb (str_eqb mode (lit "open"))); [discriminate|]. specialize (Md false eq_refl eq_refl).
    set (closed := str_eqb mode (lit "closed")) in *. clearbody closed. destruct (spec file) as [sp|e] eqn:Esp; [|discriminate].
    remember (1 + Z.of_nat (S (S (List.length rest))))%Z as argc eqn:Ec.
    destruct (negb (argc =? ts_number sp * 2 + 3)%Z && negb (argc =? ts_number sp * 2 + 3 + 1)%Z) eqn:Ea; [discriminate|].
    assert (forall size tail, (exists pre, rest = pre ++ tail /\ Z.of_nat (List.length pre) = (2 * ts_number sp)%Z) ->
      match size with None => tail = [] | Some n => exists t, tail = [t] /\ py_int w 10 t = Some (Z.of_nat n) /\ (5 <= n <= 16)%nat end ->
      match (do mats <- read_material read (Z.to_nat (ts_number sp)) rest; runTest_full w m sp mats closed size) with
      | Err e => E_raised e | Ok (deps, ks) => E_wrote ((container_name, ks) :: dep_files deps) end = E_wrote files ->
      exists closed sp mats size deps store, command w spec read (mode :: file :: rest) closed sp mats size
        /\ runTest_full w m sp mats closed size = Ok (deps, store) /\ files = (container_name, store) :: dep_files deps) as K.
    { intros size tail (pre & Er & Lp) St H. destruct (do mats <- _; _) as [[deps ks]|e] eqn:E; [|discriminate H]. injection H as <-.
      apply bind_Ok in E as (mats & Rm & E). apply read_material_spec in Rm as (pairs & tl & Et & Ln & F); [|rewrite Er, app_length; lia].
      assert (tl = tail) as ->. { assert (pre = flat_pairs pairs) as ->; [|rewrite Er in Et; now apply app_inv_head in Et].
        rewrite Er in Et. apply (f_equal (firstn (List.length pre))) in Et. rewrite firstn_app, firstn_all, Nat.sub_diag, firstn_O, app_nil_r in Et.
        assert (List.length pre = List.length (flat_pairs pairs)) as El by (rewrite flat_length; lia). rewrite El in Et.
        now rewrite firstn_app, firstn_all, Nat.sub_diag, firstn_O, app_nil_r in Et. }
      exists closed, sp, mats, size, deps, ks. split; [|now split]. exists file, pairs, tail. split; [rewrite <- Md; fold (flat_pairs pairs); now rewrite <- Et|].
      split; [exact Esp|]. split; [lia|]. split; [|now split]. intros ->. cbn [List.length] in Ln.
      assert (List.length tail <= 1)%nat as Lt by (destruct size; [destruct St as (t & -> & _)|subst tail]; cbn [List.length]; lia).
      rewrite Er, app_length in L4. lia. }
    destruct (Z.eqb_spec (argc mod 2) 1) as [Od|Ev].
    + intros H. apply (K None []); [|reflexivity|exact H]. exists rest. rewrite app_nil_r. split; [reflexivity|lia].
    + destruct (py_int w 10 (last rest [])) as [z|] eqn:Ez; [|discriminate]. destruct ((z <? 5)%Z || (16 <? z)%Z) eqn:Er; [discriminate|].
      intros H. apply (K (Some (Z.to_nat z)) [last rest []]); [| |exact H].
      * exists (removelast rest). assert (rest <> []) as Nr by (intros ->; cbn [List.length] in L4; lia). split; [now apply app_removelast_last|].
        assert (List.length rest = List.length (removelast rest) + 1)%nat as El by (rewrite (app_removelast_last [] Nr) at 1; now rewrite app_length). lia.
      * exists (last rest []). split; [reflexivity|]. rewrite Ez. split; [f_equal; lia|lia].
  - intros (closed & sp & mats & size & deps & store & (file & pairs & tail & -> & Esp & En & Np & F & St) & Rt & ->).
    unfold run_test_py. fold (flat_pairs pairs). set (rest := flat_pairs pairs ++ tail).
    assert (List.length rest = 2 * List.length pairs + List.length tail)%nat as Lr by (unfold rest; rewrite app_length, flat_length; lia).
    assert (1 <= List.length pairs)%nat as Lp by (destruct pairs; [contradiction|cbn [List.length]; lia]).
    cbn [List.length]. replace (S (S (List.length rest)) <? 4)%nat with false by lia.
    assert (str_eqb (if closed then lit "closed" else lit "open") (lit "closed") = closed) as -> by (destruct closed; reflexivity).
    assert (negb closed && negb (str_eqb (if closed then lit "closed" else lit "open") (lit "open")) = false) as -> by (destruct closed; reflexivity).
    rewrite Esp. cbv zeta.
    assert (read_material read (Z.to_nat (ts_number sp)) rest = Ok mats) as Rm.
    { apply read_material_spec; [lia|]. exists pairs, tail. split; [reflexivity|]. split; [lia|exact F]. }
    destruct size as [n|].
    + destruct St as (t & -> & Et & Ln). cbn [List.length] in Lr.
      replace (negb (1 + Z.of_nat (S (S (List.length rest))) =? ts_number sp * 2 + 3)%Z && negb (1 + Z.of_nat (S (S (List.length rest))) =? ts_number sp * 2 + 3 + 1)%Z) with false by lia.
      replace ((1 + Z.of_nat (S (S (List.length rest)))) mod 2 =? 1)%Z with false by lia.
      replace (last rest []) with t by (unfold rest; now rewrite last_last). rewrite Et.
      replace ((Z.of_nat n <? 5)%Z || (16 <? Z.of_nat n)%Z) with false by lia. rewrite Nat2Z.id, Rm. cbn [bind]. now rewrite Rt.
    + subst tail. cbn [List.length] in Lr.
      replace (negb (1 + Z.of_nat (S (S (List.length rest))) =? ts_number sp * 2 + 3)%Z && negb (1 + Z.of_nat (S (S (List.length rest))) =? ts_number sp * 2 + 3 + 1)%Z) with false by lia.
      replace ((1 + Z.of_nat (S (S (List.length rest)))) mod 2 =? 1)%Z with true by lia. rewrite Rm. cbn [bind]. now rewrite Rt.
Qed.

(** ** The key store has no key twice *)

Lemma make_device_nodup w m sp closed i mat ks d ks' : make_device w m sp closed i mat ks = Ok (d, ks') -> NoDup (map fst ks) -> NoDup (map fst ks').
Proof.
  intros (priv & _ & (((serial & priv') & top & below) & _ & (ks1 & K & (ns & _ & H)%bind_Ok)%bind_Ok)%bind_Ok)%bind_Ok N.
  apply Ok_inj in H. injection H as _ <-.
  assert (NoDup (map fst ks1)) as N1.
  { destruct (negb closed || ts_multi sp); [|apply Ok_inj in K; now subst]. apply bind_Ok in K as ([] & _ & K); [apply Ok_inj in K; now subst|].
    apply bind_Ok in K as (co & _ & (tl & _ & K)%bind_Ok). unfold putPEMCert in K. apply bind_Ok in K as (c & _ & K). apply Ok_inj in K. subst ks1. now apply nodup_set. }
  destruct (closed || ts_public sp); [|exact N1]. now apply nodup_set.
Qed.
Lemma make_devices_nodup w m sp closed : forall mats i ks devs ks', make_devices w m sp closed i mats ks = Ok (devs, ks') -> NoDup (map fst ks) -> NoDup (map fst ks').
Proof.
  induction mats as [|mat mats IH]; intros i ks devs ks' H N; cbn [make_devices] in H; [apply Ok_inj in H; injection H as _ <-; exact N|].
  apply bind_Ok in H as ([d k1] & E & ([ds k2] & E2 & H)%bind_Ok). apply Ok_inj in H. cbn [fst snd] in *. injection H as _ <-.
  apply (IH _ _ _ _ E2). exact (make_device_nodup _ _ _ _ _ _ _ _ _ E N).
Qed.

(** ** Registers *)

Definition freshb (dep : json) : bool := match member dep k_continued with Some (JBool true) => false | _ => true end.
Lemma freshb_spec dep : freshb dep = true <-> ~ continued dep.
Proof.
  unfold freshb, continued, member. destruct dep as [| | | | | |dd]; try (split; [intros _ (d1 & E & _); discriminate E|reflexivity]).
  fold k_continued. destruct (dict_get dd k_continued) as [v|] eqn:E.
  - destruct v as [|bb| | | | |]; try (split; [intros _ (d1 & H & E1); injection H as <-; congruence|reflexivity]).
    destruct bb; [|split; [intros _ (d1 & H & E1); injection H as <-; congruence|reflexivity]].
    split; [discriminate|]. intros H. exfalso. apply H. eauto.
  - split; [intros _ (d1 & H & E1); injection H as <-; congruence|reflexivity].
Qed.

Section Registers.
Variable deps : list json.

Definition news (k : nat) : list nat := filter (fun j => match nth_error deps j with Some d => freshb d | None => false end) (List.seq 0 k).
Lemma news_In k j : In j (news k) <-> (j < k)%nat /\ exists d, nth_error deps j = Some d /\ ~ continued d.
Proof.
  unfold news. rewrite filter_In, in_seq. split.
  - intros [L H]. split; [lia|]. destruct (nth_error deps j) as [d|]; [|discriminate]. exists d. split; [reflexivity|]. now apply freshb_spec.
  - intros (L & d & E & N). split; [lia|]. rewrite E. now apply freshb_spec.
Qed.
Lemma news_nodup k : NoDup (news k).
Proof. apply NoDup_filter, seq_NoDup. Qed.
Lemma news_count k l : NoDup l -> (forall j, In j l <-> (j < k)%nat /\ exists d, nth_error deps j = Some d /\ ~ continued d) -> List.length l = List.length (news k).
Proof.
  intros N H. apply Permutation_length, NoDup_Permutation; [exact N|apply news_nodup|]. intros j. now rewrite H, news_In.
Qed.
Lemma news_S k d : nth_error deps k = Some d -> List.length (news (S k)) = if freshb d then S (List.length (news k)) else List.length (news k).
Proof.
  intros E. unfold news. replace (S k) with (k + 1)%nat by lia. rewrite seq_app, filter_app, app_length. cbn [List.seq filter Nat.add]. rewrite E.
  destruct (freshb d); cbn [List.length]; lia.
Qed.

(** What is known when the DEPs before number [length regs] are verified *)
Definition known (regs : list nat) (n : nat) : Prop :=
  n = List.length (news (List.length regs)) /\ forall j r, (j < List.length regs)%nat -> (register_of deps j r <-> nth_error regs j = Some r).

Lemma known_nil : known [] 0.
Proof. split; [reflexivity|]. intros j r L. cbn [List.length] in L. lia. Qed.

Lemma known_next regs n dep r n' : known regs n -> nth_error deps (List.length regs) = Some dep -> dep_register regs n dep = Ok (r, n') ->
  known (regs ++ [r]) n' /\ forall r', register_of deps (List.length regs) r' <-> r' = r.
Proof.
  intros (En & R) Ed H.
  assert ((forall r', register_of deps (List.length regs) r' <-> r' = r) /\ n' = List.length (news (S (List.length regs)))) as [X Y].
  { rewrite (news_S _ dep Ed). unfold dep_register in H. destruct (freshb dep) eqn:Fb.
    - assert (r = n /\ n' = S n) as [-> ->].
      { unfold freshb in Fb. destruct (member dep k_continued) as [[| [] | | | | |]|]; try discriminate Fb; apply Ok_inj in H; injection H as <- <-; now split. }
      split; [|now rewrite En]. apply freshb_spec in Fb. intros r'. split.
      + intros Ro. inversion Ro as [k d l E1 _ N1 H1 Ek Er|k d j r0 E1 C1 _ _ _ Ek Er]; subst; [now apply news_count|].
        rewrite E1 in Ed. injection Ed as <-. contradiction.
      + intros ->. rewrite En. apply (ro_new deps _ dep); [exact Ed|exact Fb|apply news_nodup|]. intros j. apply news_In.
    - assert (continued dep) as Co. { unfold freshb, continued, member in *. destruct dep; try discriminate Fb. fold k_continued in *. exists d. split; [reflexivity|].
        destruct (dict_get d k_continued) as [[| [] | | | | |]|]; try discriminate Fb; reflexivity. }
      pose proof Co as (d & -> & Cd). cbn [member] in H. fold k_continued in Cd. rewrite Cd in H.
      destruct (dict_get d k_previous) as [[| |z| | | |]|] eqn:Ep; try discriminate H. destruct (Z.ltb_spec z 0); [discriminate H|].
      apply bind_Ok in H as (r1 & It & H). apply Ok_inj in H. injection H as <- <-. unfold item_at in It. destruct (nth_error regs (Z.to_nat z)) as [r2|] eqn:En2; [|discriminate It]. apply Ok_inj in It. subst r2.
      assert (Z.to_nat z < List.length regs)%nat as Lz by (apply nth_error_Some; now rewrite En2).
      split; [|exact En]. intros r'. split.
      + intros Ro. inversion Ro as [k dd l E1 N1 _ _ Ek Er|k dd j r0 E1 _ P1 Lj Rj Ek Er]; subst.
        * rewrite E1 in Ed. injection Ed as ->. contradiction.
        * rewrite E1 in Ed. injection Ed as ->. fold k_previous in P1. rewrite Ep in P1. injection P1 as ->. rewrite Nat2Z.id in En2. apply R in Rj; [|exact Lj]. congruence.
      + intros ->. apply (ro_continued deps _ d (Z.to_nat z)); [exact Ed|exact Co|fold k_previous; rewrite Z2Nat.id by lia; exact Ep|exact Lz|]. now apply R. }
  split; [|exact X]. split; [rewrite app_length; cbn [List.length]; now replace (List.length regs + 1)%nat with (S (List.length regs)) by lia|].
  intros j r' L. rewrite app_length in L. cbn [List.length] in L. destruct (Nat.eq_dec j (List.length regs)) as [->|Nj].
  - rewrite X, nth_error_app2, Nat.sub_diag by lia. cbn [nth_error]. split; [now intros ->|intros E; now injection E].
  - rewrite nth_error_app1 by lia. apply R. lia.
Qed.
End Registers.

(** ** Verification of the files *)

Lemma load_verify w dep ks key c idx c' : hash_ok w -> exported w dep -> verifyDEP w dep ks key c idx = (c', None) ->
  verifyDEP w (load dep) ks key c idx = (c', None) /\ regular_file w dep.
Proof.
  intros HO X V. pose proof (exported_regular w dep ks key c idx c' HO X V) as (gs & D & P & C). split; [|split; [exact P|exists gs; now split]].
  apply verifyDEP_spec in V as (b & reg & a & reg' & p & items & Sl & (gs' & D' & T) & R); [|exact HO].
  apply verifyDEP_spec; [exact HO|]. exists b, reg, a, reg', p, items. split; [exact Sl|]. split; [|exact R]. exists gs'. split; [|exact T].
  rewrite (SeqFacts.dep_is_fun w dep gs' gs D'); [now apply load_doc|]. clear -X D D'. destruct (exported_doc w dep gs' X D') as [D2 _].
  assert (gs = gs') as ->; [|exact D']. exact (SeqFacts.dep_is_fun w (load dep) gs gs' (load_doc _ _ _ D) (load_doc _ _ _ D2)).
Qed.

Lemma deps_verified w b pick store ks key all : hash_ok w -> loadKeyFromJson (load store) = Ok key -> readStoreFromJson w (load store) = Ok ks ->
  forall deps before c regs n cf, all = before ++ deps -> List.length regs = List.length before -> known all regs n ->
  Forall (exported w) deps -> usual_cluster c -> wf_used (c_used c) -> verify_deps w ks key c regs n deps = T_ok cf ->
  (forall k, (k < List.length deps)%nat -> exists r, register_of all (List.length before + k) r)
  /\ forall runs, map snd runs = deps ->
    (forall k r par size file, nth_error runs k = Some (r, par, size, file) -> register_of all (List.length before + k) r /\ (1 <= par)%nat) ->
    verified_each w b pick store runs (cluster_to_json c) (cluster_to_json cf).
Proof.
  intros HO Ek Es. induction deps as [|dep deps IH]; intros before c regs n cf Ea Lr Kn Ex U W V.
  - cbn [verify_deps] in V. injection V as <-. split; [intros k L; cbn [List.length] in L; lia|].
    intros runs E _. destruct runs; [|discriminate E]. reflexivity.
  - cbn [verify_deps] in V. destruct (dep_register regs n dep) as [[r n']|e] eqn:Er; [|discriminate V].
    destruct (verifyDEP w dep ks key c (Some (Z.of_nat r))) as [c' [e|]] eqn:Ev; [discriminate V|]. destruct (check_total dep c' r) as [o|] eqn:Et.
    { exfalso. subst o. revert Et. unfold check_total. destruct (member dep k_total) as [[]|]; try discriminate. destruct (nonzero _); [|discriminate]. destruct (py_round _); [|discriminate].
      destruct (nth_error _ _); [|discriminate]. destruct (_ =? _)%Z; discriminate. }
    destruct (known_next all regs n dep r n' Kn) as [Kn' Rg]; [rewrite Ea, Lr, nth_error_app2, Nat.sub_diag by lia; reflexivity|exact Er|]. rewrite Lr in Rg.
    pose proof (Forall_inv Ex) as X1. apply Forall_inv_tail in Ex.
    destruct (load_verify w dep ks key c _ c' HO X1 Ev) as [Lv Rf].
    assert (usual_cluster c') as U' by exact (usual_kept _ _ _ _ _ _ _ _ HO U Ev).
    assert (wf_used (c_used c')) as W' by exact (verify_wf _ _ _ _ _ _ _ _ HO W Ev).
    destruct (IH (before ++ [dep]) c' (regs ++ [r]) n' cf) as [I1 I2].
    { now rewrite Ea, <- app_assoc. } { now rewrite !app_length, Lr. } { exact Kn'. } { exact Ex. } { exact U'. } { exact W'. } { exact V. }
    assert (forall k, List.length (before ++ [dep]) + k = List.length before + S k)%nat as Sh by (intros k; rewrite app_length; cbn [List.length]; lia).
    split.
    + intros [|k] L; [exists r; rewrite Nat.add_0_r; now apply Rg|]. cbn [List.length] in L. destruct (I1 k) as [r' Hr]; [lia|]. exists r'. now rewrite <- Sh.
    + intros runs E H. destruct runs as [|[[[r0 par] size] file] runs]; [discriminate E|]. cbn [map snd] in E. injection E as -> E. cbn [verified_each].
      destruct (H 0%nat r0 par size dep eq_refl) as [H0 Lp]. rewrite Nat.add_0_r in H0. apply Rg in H0. subst r0.
      exists (cluster_to_json c'). split.
      * apply verify_py_spec; [exact HO|exact Lp| |exact Rf|].
        { apply (read_written_usual _ c); [now apply cluster_file_roundtrip|exact U]. }
        exists key, ks, c, c'. split; [exact Ek|]. split; [exact Es|]. split; [unfold read_state; cbn [va_state]; now apply cluster_file_roundtrip|]. split; [exact Lv|reflexivity].
      * apply I2; [exact E|]. intros k r0 p0 s0 f0 Hk. rewrite Sh. exact (H (S k) r0 p0 s0 f0 Hk).
Qed.

Lemma first_register b body : with_register (new_cluster b) None body = with_register (new_cluster b) (Some 0%Z) body.
Proof. destruct b; reflexivity. Qed.

Lemma one_verified w b pick store ks key dep par size stdin cf : hash_ok w -> loadKeyFromJson (load store) = Ok key -> readStoreFromJson w (load store) = Ok ks ->
  exported w dep -> verify_deps w ks key (new_cluster b) [] 0 [dep] = T_ok cf -> (1 <= par)%nat ->
  verify_py w b pick (VerifyArgs false A_none par size) store stdin dep = Ok None.
Proof.
  intros HO Ek Es X V Lp. cbn [verify_deps] in V. destruct (dep_register [] 0 dep) as [[r n]|e] eqn:Er; [|discriminate V].
  assert (r = 0%nat) as ->.
  { destruct (known_next [dep] [] 0 dep r n (known_nil _) eq_refl Er) as [_ H]. specialize (H r). cbn [List.length] in H. pose proof (proj2 H eq_refl) as Ro.
    inversion Ro as [k d l _ _ N1 H1 Ek' Er'|k d j r0 _ _ _ Lj _ Ek' Er']; subst; [|lia]. destruct l as [|x l]; [reflexivity|]. destruct (proj1 (H1 x) (or_introl eq_refl)) as [L _]. lia. }
  destruct (verifyDEP w dep ks key (new_cluster b) (Some (Z.of_nat 0))) as [c' [e|]] eqn:Ev; [discriminate V|].
  destruct (load_verify w dep ks key _ _ c' HO X Ev) as [Lv Rf].
  change (verify_py w b pick (VerifyArgs false A_none par size) store stdin dep) with (verify_py w b pick (VerifyArgs false A_none par size) store (verify_py_new b) dep).
  apply verify_py_spec; [exact HO|exact Lp| |exact Rf|].
  { apply (read_written_usual _ (new_cluster b)); [apply cluster_file_roundtrip; destruct b; constructor|apply new_usual]. }
  exists key, ks, (new_cluster b), c'. split; [exact Ek|]. split; [exact Es|]. split; [reflexivity|]. split; [|reflexivity].
  unfold register_index. cbn [va_register]. unfold verifyDEP in *. now rewrite first_register.
Qed.

Lemma store_key w ks t key : NoDup (map fst ks) -> loadB64Key t = Ok key -> loadKeyFromJson (load (writeStoreToJson w ks (Some t))) = Ok (Some key).
Proof.
  intros N K. rewrite load_store by exact N. unfold writeStoreToJson, loadKeyFromJson. cbn [dict_get]. replace (str_eqb k_map k_aes) with false by reflexivity. rewrite str_eqb_refl.
  unfold loadB64Key in K. apply bind_Ok in K as (bs & E & K). rewrite E. cbn [bind]. now rewrite K.
Qed.

Theorem files_accepted w own m b spec read args closed sp mats size key :
  hash_ok w -> aes_ok w -> pem_ok w -> cert_keys_ok w -> maker_ok w own m ->
  command w spec read args closed sp mats size -> setup_ok w own m sp closed mats ->
  loadB64Key (ts_aes sp) = Ok key -> List.length key = 32%nat -> identifier (ts_id sp) -> (5 <= counter_size sp size <= 16)%nat ->
  instructions_ok w closed (List.length mats) (counter_size sp size) b (ts_instrs sp) ->
  exists deps store c, run_test_py w m spec read args = E_wrote ((container_name, store) :: dep_files deps)
    /\ List.length deps = S (List.length (filter starts_dep (ts_instrs sp)))
    /\ (forall k, (k < List.length deps)%nat -> exists r, register_of deps k r)
    /\ (forall pick runs, calls_for deps runs -> verified_each w b pick store runs (verify_py_new b) (cluster_to_json c))
    /\ (forall pick dep par csize stdin, deps = [dep] -> (1 <= par)%nat -> verify_py w b pick (VerifyArgs false A_none par csize) store stdin dep = Ok None)
    /\ (forall r, (r < List.length (c_regs c))%nat <-> In r (owners 1 0 (ts_instrs sp)))
    /\ (forall r reg z, nth_error (c_regs c) r = Some reg ->
          requests_turnover (map (bare_request closed) (of_register r (combine (owners 1 0 (ts_instrs sp)) (ts_instrs sp)))) z -> s_counter reg = z).
Proof.
  intros Hh Ha Hp Hk Hm Cm So K Lk Id Sz Io.
  assert (ts_number sp = Z.of_nat (List.length mats)) as En.
  { pose proof Cm as (file & pairs & tail & _ & _ & En & _ & F & _). rewrite En. f_equal. exact (Forall2_len _ _ _ F). }
  destruct (setup_works w own m sp closed mats Hm Hp Hk So En) as (devs & ks & D & L & F & Z & S).
  rewrite <- L in Io.
  destruct (rules_of_instructions w closed (counter_size sp size) b ks (ts_multi sp) devs (ts_instrs sp) Io F Z) as [R Ne].
  destruct (runTest_accepted w ks b (ts_id sp) key (counter_size sp size) (ts_multi sp) devs (ts_instrs sp) _ Hh Ha Hp Id Lk Sz R Ne) as (deps & c & Rt & Tv & Ln & Rg & Ct & _).
  assert (runTest_full w m sp mats closed size = Ok (deps, writeStoreToJson w ks (Some (ts_aes sp)))) as Rf.
  { unfold runTest_full. replace (Z.of_nat (List.length mats) =? ts_number sp)%Z with true by lia. rewrite K. cbn [bind].
    pose proof Rt as Rt'. unfold runTest in Rt'. apply bind_Ok in Rt' as (g & G & _). rewrite G. cbn [bind]. rewrite D. cbn [bind fst snd]. rewrite Rt. reflexivity. }
  pose proof (make_devices_nodup _ _ _ _ _ _ _ _ _ D ltac:(constructor)) as Nd.
  exists deps, (writeStoreToJson w ks (Some (ts_aes sp))), c. split; [apply files_iff; exists closed, sp, mats, size, deps, (writeStoreToJson w ks (Some (ts_aes sp))); now split|].
  split; [exact Ln|].
  pose proof (fun pick => deps_verified w b pick (writeStoreToJson w ks (Some (ts_aes sp))) ks (Some key) deps Hh (store_key w ks _ key Nd K)
    ltac:(rewrite load_store by exact Nd; apply S) deps [] (new_cluster b) [] 0 c eq_refl eq_refl (known_nil deps) (runTest_exported _ _ _ _ _ _ _ _ Rt) (new_usual b)
    ltac:(destruct b; constructor) Tv) as V.
  split; [exact (proj1 (V (fun _ => 0%nat)))|]. split; [intros pick runs [E H]; exact (proj2 (V pick) runs E H)|]. split; [|split; [exact Rg|]].
  { intros pick dep par csize stdin -> Lp.
    apply (one_verified w b pick _ ks (Some key) dep par csize stdin c Hh (store_key w ks _ key Nd K) ltac:(rewrite load_store by exact Nd; apply S)); [|exact Tv|exact Lp].
    exact (Forall_inv (runTest_exported _ _ _ _ _ _ _ _ Rt)). }
  intros r reg z Er T. apply (Ct r reg z Er).
  match goal with |- requests_turnover (map fst (of_register r (combine ?os (map ?f ?l)))) _ =>
    pose proof (eq_trans (f_equal (of_register r) (tagged_map f os l)) (register_map f r (combine os l))) as Eq end.
  match type of Eq with _ = ?rhs => assert (requests_turnover (map fst rhs) z) as G by (apply turnover_same; exact T) end.
  rewrite <- Eq in G. exact G.
Qed.

(** ** Names *)

Lemma numbered_nth deps : forall i k d, nth_error deps k = Some d -> nth_error (numbered i deps) k = Some (lit "dep-export" ++ fmt_d (Z.of_nat (i + k)) ++ lit ".json", d).
Proof.
  induction deps as [|x deps IH]; intros i k d E; destruct k as [|k]; cbn [nth_error numbered] in *; try discriminate E.
  - injection E as ->. now rewrite Nat.add_0_r.
  - rewrite (IH (S i) k d E). do 4 f_equal. f_equal. lia.
Qed.
Lemma numbered_length deps : forall i, List.length (numbered i deps) = List.length deps.
Proof. induction deps as [|x deps IH]; intros i; cbn [numbered List.length]; [reflexivity|]. now rewrite IH. Qed.

Lemma nth_error_Some_length {A} (l : list A) n x : nth_error l n = Some x -> (n < List.length l)%nat.
Proof. intros E. apply nth_error_Some. now rewrite E. Qed.
Lemma nth_ext_error {A} (l : list A) : forall l', (forall k, nth_error l k = nth_error l' k) -> l = l'.
Proof.
  induction l as [|x l IH]; intros [|y l'] H; [reflexivity|specialize (H 0%nat); discriminate H..|].
  pose proof (H 0%nat) as H0. cbn [nth_error] in H0. injection H0 as ->. f_equal. apply IH. intros k. exact (H (S k)).
Qed.
Lemma export_start t : lit "dep-export" ++ t <> container_name.
Proof. cbn. discriminate. Qed.

Theorem file_names store deps : deps <> [] ->
  NoDup (map fst ((container_name, store) :: dep_files deps))
  /\ map snd (dep_files deps) = deps
  /\ forall k d, nth_error deps k = Some d ->
     nth_error (dep_files deps) k = Some (lit "dep-export" ++ (if (List.length deps =? 1)%nat then [] else fmt_d (Z.of_nat k)) ++ lit ".json", d).
Proof.
  intros Ne.
  assert (forall k d, nth_error deps k = Some d ->
     nth_error (dep_files deps) k = Some (lit "dep-export" ++ (if (List.length deps =? 1)%nat then [] else fmt_d (Z.of_nat k)) ++ lit ".json", d)) as Nth.
  { intros k d E. destruct deps as [|d0 [|d1 r]]; [contradiction| |].
    - cbn [dep_files List.length Nat.eqb]. destruct k as [|[|k]]; [|discriminate E..]. injection E as ->. reflexivity.
    - cbn [List.length Nat.eqb]. exact (numbered_nth _ 0 k d E). }
  assert (List.length (dep_files deps) = List.length deps) as Ln by (destruct deps as [|d0 [|d1 r]]; [reflexivity..|apply numbered_length]).
  split; [|split; [|exact Nth]].
  - cbn [map fst]. constructor.
    + intros H. apply in_map_iff in H as ((n & d) & E & H). cbn [fst] in E. apply In_nth_error in H as [k H].
      destruct (nth_error deps k) as [d'|] eqn:Ed; [|apply nth_error_None in Ed; assert (k < List.length (dep_files deps))%nat by (apply nth_error_Some; now rewrite H); lia].
      rewrite (Nth k d' Ed) in H. injection H as H _. subst n. exact (export_start _ (eq_sym (eq_sym H))).
    + apply NoDup_nth_error. rewrite map_length. intros i j L E. rewrite !nth_error_map in E.
      destruct (nth_error deps i) as [d|] eqn:Ei; [|apply nth_error_None in Ei; lia]. rewrite (Nth i d Ei) in E. cbn [option_map fst] in E.
      destruct (nth_error deps j) as [d'|] eqn:Ej.
      * rewrite (Nth j d' Ej) in E. cbn [option_map fst] in E. apply Some_inj, app_inv_head in E.
        destruct (Nat.eqb_spec (List.length deps) 1) as [E1|N1].
        { apply nth_error_Some_length in Ei. apply nth_error_Some_length in Ej. lia. }
        apply app_inv_tail, fmt_d_inj in E. lia.
      * apply nth_error_None in Ej. rewrite (proj2 (nth_error_None _ _)) in E by lia. discriminate E.
  - apply nth_ext_error. intros k. rewrite nth_error_map. destruct (nth_error deps k) as [d|] eqn:E; [now rewrite (Nth k d E)|].
    apply nth_error_None in E. now rewrite (proj2 (nth_error_None _ _)) by lia.
Qed.
