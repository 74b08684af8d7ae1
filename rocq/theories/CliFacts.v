(** Verification with verify.py. *)
From Coq Require Import Lia.
From Verif Require Import PyBase World Codec Receipt DepBase Json Pem KeyStore VerifyReceipt State DepParser Verify DepExport ListFacts CodecFacts SpecReceipt ReceiptFacts
  RoundTrip RoundTrip2 VerifyFacts SpecDep DepFacts SpecCluster ClusterFacts AcceptFacts SeqFacts DepTheorems PartsFacts SpecChunks ChunkFacts DictFacts ParTheorems SpecDoc IncDoc IncBack IncTheorems SpecKeys PemFacts KeyFacts
  SpecMerge MergeFacts SpecExport ExportFacts SplitFacts SpecState StateFacts Cli SpecCli.
Open Scope N_scope.

(** ** Options *)

Lemma mode_spec w pick a dep ks key c idx c' : hash_ok w -> legal_args a -> usual_cluster c -> regular_file w dep ->
  verify_mode w pick a dep ks key c idx = (c', None) <-> verifyDEP w (load dep) ks key c idx = (c', None).
Proof.
  intros HO L U (Pl & gs & D & C). unfold legal_args in L. unfold verify_mode.
  destruct (Nat.ltb_spec 1 (va_par a)) as [Lt|Ge].
  - destruct (va_chunksize a =? 0)%nat.
    + apply parallel_iff; [assumption| |assumption|].
      * split; cbn [sch_nprocs sch_pool]; lia.
      * intros gs' D'. now rewrite (dep_is_fun w (load dep) gs' gs D' (load_doc _ _ _ D)).
    + apply (parallel_file w _ dep _ ks key c idx c' gs); try assumption. split; cbn [sch_nprocs sch_pool]; lia.
  - destruct (va_chunksize a =? 0)%nat; [reflexivity|].
    apply (parallel_file w _ dep _ ks key c idx c' gs); try assumption. split; cbn [sch_nprocs sch_pool]; lia.
Qed.

Lemma read_usual b a s c : usual_state s -> read_state b a s = Ok c -> usual_cluster c.
Proof.
  unfold read_state. destruct (va_state a); intros U H; [now apply U|]. apply Ok_inj in H. subst. apply new_usual.
Qed.

Theorem verify_py_spec w b pick a store stdin dep o : hash_ok w -> legal_args a -> usual_state stdin -> regular_file w dep ->
  verify_py w b pick a store stdin dep = Ok o <->
  exists key ks c c', loadKeyFromJson (load store) = Ok key /\ readStoreFromJson w (load store) = Ok ks
    /\ read_state b a stdin = Ok c /\ verifyDEP w (load dep) ks key c (register_index a c) = (c', None)
    /\ o = if va_state a then Some (cluster_to_json c') else None.
Proof.
  intros HO L U R. unfold verify_py. split.
  - intros H. apply bind_Ok in H as (key & K & H). apply bind_Ok in H as (ks & S & H). apply bind_Ok in H as (c & C & H).
    destruct (verify_mode w pick a dep ks key c (register_index a c)) as [c' [e|]] eqn:V; [discriminate|]. apply Ok_inj in H.
    exists key, ks, c, c'. repeat (split; [assumption|]). split; [|now symmetry].
    apply mode_spec in V; try assumption. exact (read_usual b a stdin c U C).
  - intros (key & ks & c & c' & K & S & C & V & ->). rewrite K. cbn [bind]. rewrite S. cbn [bind]. rewrite C. cbn [bind].
    apply (mode_spec w pick a) in V; try assumption; [now rewrite V|]. exact (read_usual b a stdin c U C).
Qed.

Lemma read_state_spec b a stdin c : read_state b a stdin = Ok c <-> starts_from b a stdin c.
Proof.
  unfold read_state, starts_from. destruct (va_state a); split.
  - intros H. split; [now intros _|discriminate].
  - intros [H _]. now apply H.
  - intros H. apply Ok_inj in H. split; [discriminate|now intros _].
  - intros [_ H]. now rewrite H.
Qed.

Lemma exists_last_or_nil {A} (l : list A) : l = [] \/ exists l' x, l = l' ++ [x].
Proof. destruct l as [|a l]; [now left|]. right. destruct (exists_last (l := a :: l)) as (l' & x & E); [discriminate|]. eauto. Qed.

Theorem verify_py_exact w b pick a store stdin dep o : hash_ok w -> legal_args a -> usual_state stdin -> regular_file w dep ->
  verify_py w b pick a store stdin dep = Ok o <->
  exists key ks c idx c', loadKeyFromJson (load store) = Ok key /\ readStoreFromJson w (load store) = Ok ks
    /\ starts_from b a stdin c /\ chosen a c idx /\ verifyDEP w (load dep) ks key c idx = (c', None)
    /\ o = if va_state a then Some (cluster_to_json c') else None.
Proof.
  intros HO L U R. rewrite verify_py_spec by assumption. split.
  - intros (key & ks & c & c' & K & S & C & V & E). exists key, ks, c, (register_index a c), c'. apply read_state_spec in C.
    repeat (split; [assumption|]). split; [|split; assumption]. unfold register_index in *. destruct (va_register a) as [| |i] eqn:Er.
    + constructor. now left.
    + destruct (va_state a) eqn:Es; [|constructor; now right]. destruct (exists_last_or_nil (c_regs c)) as [Ec|(l & x & Ec)]; rewrite Ec in V |- *.
      * exfalso. apply verifyDEP_spec in V as (bf & reg & af & _ & _ & _ & Sl & _); [|exact HO]. cbn [List.length] in Sl. inversion Sl; subst; [lia|].
        destruct H as [H|H]; [discriminate H|]. rewrite Ec in H. discriminate H.
      * rewrite app_length. cbn [List.length]. replace (Z.of_nat (List.length l + 1) - 1)%Z with (Z.of_nat (List.length l)) by lia. now apply (chosen_last a c l x).
    + now constructor.
  - intros (key & ks & c & idx & c' & K & S & C & Ch & V & E). exists key, ks, c, c'. apply read_state_spec in C.
    repeat (split; [assumption|]). split; [|exact E]. assert (idx = register_index a c) as <-; [|exact V]. unfold register_index. inversion Ch as [H|i H|bf reg H Hs Hc]; subst.
    + destruct H as [->|[-> ->]]; reflexivity.
    + now rewrite H.
    + rewrite H, Hs, Hc, app_length. cbn [List.length]. f_equal. lia.
Qed.

Theorem options w b pick pick' a a' store stdin dep o : hash_ok w -> legal_args a -> legal_args a' -> same_task a a' ->
  usual_state stdin -> regular_file w dep ->
  verify_py w b pick a store stdin dep = Ok o <-> verify_py w b pick' a' store stdin dep = Ok o.
Proof.
  intros HO L L' (Es & Er) U R. rewrite !verify_py_spec by assumption.
  unfold read_state, register_index. rewrite Es, Er. reflexivity.
Qed.

(** ** States *)

Lemma read_written_usual s c : cluster_of_json (load s) = Ok c -> usual_cluster c -> usual_state s.
Proof. intros H U c' H'. rewrite H in H'. apply Ok_inj in H'. now subst. Qed.

Lemma step_state w b pick a store stdin dep s : hash_ok w -> legal_args a -> va_state a = true -> usual_state stdin -> regular_file w dep ->
  verify_py w b pick a store stdin dep = Ok (Some s) -> exists c, cluster_of_json (load s) = Ok c /\ usual_cluster c.
Proof.
  intros HO L St U R H. apply verify_py_spec in H as (key & ks & c & c' & _ & _ & C & V & E); try assumption.
  rewrite St in E. apply Some_inj in E. subst s. exists c'. pose proof (read_usual b a stdin c U C) as Uc. split.
  - apply cluster_file_roundtrip. apply (verify_wf w (load dep) ks key c (register_index a c) c' None HO); [|exact V].
    unfold read_state in C. rewrite St in C. exact (cluster_read_wf _ _ C).
  - exact (usual_kept _ _ _ _ _ _ _ _ HO Uc V).
Qed.

Theorem written_usual w s : hash_ok w -> state_written w s -> exists c, cluster_of_json (load s) = Ok c /\ usual_cluster c.
Proof.
  intros HO H. induction H as [b|b pick a store stdin dep s St L R W (c & C & U) H].
  - exists (new_cluster b). split; [|apply new_usual]. apply cluster_file_roundtrip. destruct b; constructor.
  - exact (step_state w b pick a store stdin dep s HO L St (read_written_usual _ _ C U) R H).
Qed.

Theorem written_usual_state w s : hash_ok w -> state_written w s -> usual_state s.
Proof. intros HO H. destruct (written_usual w s HO H) as (c & C & U). exact (read_written_usual s c C U). Qed.

(** ** Parts *)

(** The register index of the next call *)
Lemma next_index a a' c before reg after reg' u : va_state a = true -> va_state a' = true -> va_register a' = next_part (va_register a) ->
  selects c (register_index a c) before reg after ->
  register_index a' (Cluster (before ++ reg' :: after) u) = same_register before.
Proof.
  intros S S' R Sl. unfold register_index in *. rewrite S in Sl. rewrite S', R. cbn [c_regs]. unfold same_register.
  assert (after = [] -> Some (Z.of_nat (List.length (before ++ reg' :: after)) - 1)%Z = Some (Z.of_nat (List.length before))) as Last.
  { intros ->. f_equal. rewrite app_length. cbn [List.length]. lia. }
  destruct (va_register a) as [| |i]; cbn [next_part].
  - inversion Sl; subst. now apply Last.
  - apply Last. inversion Sl as [b r af E Ei|idx Hi _]; subst; [|reflexivity].
    rewrite E, app_length in Ei. cbn [List.length] in Ei. destruct after; [reflexivity|cbn [List.length] in Ei; lia].
  - inversion Sl as [|idx [X|X] _]; subst; congruence.
Qed.

Lemma accepted_selects w dep ks key c idx c' : verifyDEP w dep ks key c idx = (c', None) ->
  exists before reg after reg' u, selects c idx before reg after /\ c' = Cluster (before ++ reg' :: after) u.
Proof. intros H. apply with_register_Ok in H as (b & r & a & r' & u & S & _ & E). exists b, r, a, r', u. auto. Qed.

Lemma texts_occupied ks gs : text_stamps gs <> [] -> dep_texts ks gs <> [].
Proof.
  unfold text_stamps, dep_texts. induction gs as [|g gs IH]; [auto|]. cbn [flat_map]. destruct (gr_texts g); [exact IH|discriminate].
Qed.

Theorem parts w b pick a a1 a2 store stdin dep dep1 dep2 gs gs1 gs2 s : hash_ok w ->
  legal_args a -> legal_args a1 -> legal_args a2 -> va_state a = true -> same_task a a1 ->
  va_state a2 = true -> va_register a2 = next_part (va_register a) ->
  usual_state stdin -> regular_file w dep -> regular_file w dep1 -> regular_file w dep2 ->
  dep_doc w dep gs -> dep_doc w dep1 gs1 -> dep_doc w dep2 gs2 -> cut gs gs1 gs2 -> text_stamps gs1 <> [] -> text_stamps gs2 <> [] ->
  verify_py w b pick a store stdin dep = Ok (Some s) <->
  exists s1, verify_py w b pick a1 store stdin dep1 = Ok (Some s1) /\ verify_py w b pick a2 store s1 dep2 = Ok (Some s).
Proof.
  intros HO L L1 L2 St (Es & Er) St2 R2 U R R1 Rg2 D D1 D2 Cu N1 N2.
  assert (forall c idx before reg after c' ks key, selects c idx before reg after -> verifyDEP w (load dep) ks key c idx = (c', None) <->
    exists c1, verifyDEP w (load dep1) ks key c idx = (c1, None) /\ verifyDEP w (load dep2) ks key c1 (same_register before) = (c', None)) as PW.
  { intros c idx before reg after c' ks key Sl. apply (parts_whole w (load dep) (load dep1) (load dep2) ks key c idx before reg after c' HO); [|exact Sl].
    apply (concatenated_cut w ks _ _ _ gs gs1 gs2); try (now apply load_doc); try assumption; now apply texts_occupied. }
  assert (forall c, register_index a1 c = register_index a c) as Ri by (intros c; unfold register_index; now rewrite Es, Er).
  assert (read_state b a1 stdin = read_state b a stdin) as Rs by (unfold read_state; now rewrite Es).
  split.
  - intros H. apply verify_py_spec in H as (key & ks & c & c' & K & S & C & V & E); try assumption. rewrite St in E. apply Some_inj in E. subst s.
    destruct (accepted_selects _ _ _ _ _ _ _ V) as (before & reg & after & r0 & u0 & Sl & _).
    destruct (proj1 (PW _ _ _ _ _ _ _ _ Sl) V) as (c1 & V1 & V2).
    assert (verify_py w b pick a1 store stdin dep1 = Ok (Some (cluster_to_json c1))) as H1.
    { apply verify_py_spec; try assumption. exists key, ks, c, c1. rewrite Rs, Ri, <- Es, St. auto 6. }
    exists (cluster_to_json c1). split; [exact H1|].
    assert (wf_used (c_used c1)) as W1.
    { apply (verify_wf w (load dep1) ks key c (register_index a c) c1 None HO); [|exact V1]. unfold read_state in C. rewrite St in C. exact (cluster_read_wf _ _ C). }
    apply verify_py_spec; try assumption.
    + destruct (step_state w b pick a1 store stdin dep1 _ HO L1 ltac:(congruence) U R1 H1) as (x & X & Y). exact (read_written_usual _ _ X Y).
    + exists key, ks, c1, c'. split; [exact K|]. split; [exact S|]. unfold read_state. rewrite St2.
      split; [now apply cluster_file_roundtrip|]. split; [|reflexivity].
      destruct (accepted_selects _ _ _ _ _ _ _ V1) as (b' & r' & af' & r1 & u1 & Sl1 & ->).
      assert (b' = before) as -> by (exact (proj1 (selects_fun _ _ _ _ _ _ _ _ Sl1 Sl))).
      now rewrite (next_index a a2 c before r' af' r1 u1 St St2 R2 Sl1).
  - intros (s1 & H1 & H2). pose proof H1 as H1'. apply verify_py_spec in H1 as (key & ks & c & c1 & K & S & C & V1 & E); try assumption.
    rewrite <- Es, St in E. apply Some_inj in E. subst s1. rewrite Ri in V1. rewrite Rs in C.
    assert (wf_used (c_used c1)) as W1.
    { apply (verify_wf w (load dep1) ks key c (register_index a c) c1 None HO); [|exact V1]. unfold read_state in C. rewrite St in C. exact (cluster_read_wf _ _ C). }
    apply verify_py_spec in H2 as (key' & ks' & c1' & c' & K' & S' & C' & V2 & E); try assumption.
    + rewrite St2 in E. apply Some_inj in E. subst s. unfold read_state in C'. rewrite St2, cluster_file_roundtrip in C' by exact W1. apply Ok_inj in C'. subst c1'.
      rewrite K in K'. apply Ok_inj in K'. subst key'. rewrite S in S'. apply Ok_inj in S'. subst ks'.
      apply verify_py_spec; try assumption. exists key, ks, c, c'. rewrite St.
      destruct (accepted_selects _ _ _ _ _ _ _ V1) as (b' & r' & af' & r1 & u1 & Sl1 & ->).
      rewrite (next_index a a2 c b' r' af' r1 u1 St St2 R2 Sl1) in V2.
      repeat (split; [assumption|]). split; [|reflexivity]. apply (PW _ _ _ _ _ _ _ _ Sl1). eauto.
    + destruct (step_state w b pick a1 store stdin dep1 _ HO L1 ltac:(congruence) U R1 H1') as (x & X & Y). exact (read_written_usual _ _ X Y).
Qed.

(** ** Files written by split.py *)

Lemma split_regular w kind doc n files gs : pem_ok w -> kind <> P_certless -> plain_names doc -> dep_doc w doc gs -> certs_or_one gs ->
  split_py w kind doc n = (files, None) -> Forall (regular_file w) files /\ files <> [].
Proof.
  intros P K Pl D Ce E. destruct (split_files w kind doc n files P Pl K E) as (gs' & dgs & gss & D' & Enc & NF & _ & Le & Fg & St).
  rewrite (dep_is_fun w (load doc) gs' gs (load_doc _ _ _ D') (load_doc _ _ _ D)) in *. clear gs' D'.
  pose proof (inc_faithful n dgs) as Fa. destruct Fa as (S & Fu & NE & One).
  pose proof (filled_occupied _ _ Enc) as Oc.
  assert (Forall (fun ch => Forall (fun dg => g_cert dg <> None) ch \/ List.length ch = 1%nat) (inc_chunks n dgs)) as A.
  { destruct Ce as [A|A].
    - apply Forall_forall. intros ch Hc. left. apply Forall_forall. intros dg Hd.
      assert (certs_in (List.concat (inc_chunks n dgs)) (g_cert dg, g_chain dg)) as Ci.
      { apply full_certs; [now apply Forall_concat|]. apply in_concat. eauto. }
      apply (faithful_certs _ _ _ (inc_faithful n dgs)) in Ci as (g0 & H0 & _ & E0). injection E0 as E0 _. rewrite <- E0.
      clear -Oc A H0. induction Oc as [|g1 dg1 l1 l2 (_ & C & _) F IH]; [destruct H0|]. inversion A; subst. destruct H0 as [<-|H0]; [congruence|auto].
    - destruct (filled dgs) as [|g [|? ?]] eqn:Ed; inversion Oc as [X|? ? ? ? ? Oc' X]; subst; try (rewrite <- X in A; discriminate).
      + eapply Forall_impl; [|apply (One g eq_refl)]. intros ch Hl. now right.
      + exfalso. rewrite <- X in A. inversion Oc'; subst. discriminate. }
  split.
  - revert Fg Le Fu A. generalize (inc_chunks n dgs). intros l. clear. revert files gss.
    induction l as [|ch l IH]; intros [|f fs] gss Fg Le Fu A; try discriminate; cbn [combine] in Fg; inversion Fg as [|? g ? r Ff Fg']; subst; [constructor|].
    inversion Fu; inversion A as [|? ? A1 A2]; subst. constructor; [|apply (IH fs r); try assumption; cbn in Le; congruence].
    cbn [fst snd] in Ff. destruct Ff as (Df & Pf & rgs & R & W). split; [exact Pf|]. exists g. split; [exact Df|].
    destruct A1 as [A1|A1].
    + left. unfold all_certs, occupied. apply Forall_forall. intros x Hx. apply filter_In in Hx as [Hx _].
      clear -A1 R W Hx. revert g W Hx. induction R as [|dg rg c rgs (_ & Rc & _) R IH]; intros g W Hx; inversion W as [|? y ? ? (_ & Wc & _) W']; subst; [destruct Hx|].
      inversion A1; subst. destruct Hx as [<-|Hx]; [congruence|eauto].
    + right. destruct ch as [|dg [|? ?]]; try discriminate. inversion R as [|? rg ? ? (Rr & _) R']; subst. inversion R'; subst.
      inversion W as [|? y ? ? (Wr & _) W']; subst. inversion W'; subst. inversion H1 as [|? ? Ne _]; subst. unfold occupied. cbn [filter].
      inversion Wr as [E1 E2|]; [|reflexivity]. rewrite <- E1 in Rr. inversion Rr. congruence.
  - intros ->. cbn [List.length] in Le. destruct (inc_chunks n dgs) eqn:X; [|discriminate]. cbn [flat_map] in S.
    destruct (filled dgs) as [|g l] eqn:Ed; [congruence|].
    assert (In g (filled dgs)) as Ig by (rewrite Ed; now left). apply filter_In in Ig as [Ig Hr].
    assert (exists t, In (t, (g_cert g, g_chain g)) (stamped dgs)) as (t & It).
    { apply certs_stamped. exists g. split; [exact Ig|]. split; [|reflexivity]. unfold has_receipts in Hr. destruct (g_recs g); [discriminate|discriminate]. }
    rewrite <- S in It. destruct It.
Qed.

(** verified_in_turn in terms of verifyDEP *)
Lemma in_turn_spec w b pick store key ks : hash_ok w -> loadKeyFromJson (load store) = Ok key -> readStoreFromJson w (load store) = Ok ks ->
  forall runs r s c s' before reg after, Forall (fun x => (1 <= fst (fst x))%nat) runs -> Forall (fun x => regular_file w (snd x)) runs ->
  cluster_of_json (load s) = Ok c -> usual_cluster c -> selects c (register_index (VerifyArgs true r 1 0) c) before reg after ->
  runs <> [] ->
  verified_in_turn w b pick store r runs s s' <->
  exists c', accepted_in_turn w ks key (same_register before) (map (fun x => load (snd x)) runs) c (register_index (VerifyArgs true r 1 0) c) c'
    /\ s' = cluster_to_json c'.
Proof.
  intros HO K S. induction runs as [|[[par size] f] runs IH]; intros r s c s' before reg after Fp Fr C U Sl N; [congruence|].
  inversion Fp as [|? ? Hp Fp']; inversion Fr as [|? ? Hf Fr']; subst. cbn [fst snd] in Hp, Hf.
  assert (legal_args (VerifyArgs true r par size)) as L by exact Hp.
  pose proof (read_written_usual s c C U) as Us.
  cbn [verified_in_turn map accepted_in_turn].
  assert (forall s1, verify_py w b pick (VerifyArgs true r par size) store s f = Ok (Some s1) <->
    exists c1, verifyDEP w (load f) ks key c (register_index (VerifyArgs true r 1 0) c) = (c1, None) /\ s1 = cluster_to_json c1) as One.
  { intros s1. rewrite verify_py_spec by assumption. split.
    - intros (key' & ks' & c0 & c1 & K' & S' & C' & V & E). rewrite K in K'. apply Ok_inj in K'. rewrite S in S'. apply Ok_inj in S'. subst.
      unfold read_state in C'. cbn [va_state] in *. rewrite C in C'. apply Ok_inj in C'. subst c0. apply Some_inj in E. exists c1. auto.
    - intros (c1 & V & ->). exists key, ks, c, c1. unfold read_state. cbn [va_state]. auto. }
  assert (forall c1, verifyDEP w (load f) ks key c (register_index (VerifyArgs true r 1 0) c) = (c1, None) ->
    cluster_of_json (load (cluster_to_json c1)) = Ok c1 /\ usual_cluster c1
    /\ register_index (VerifyArgs true (next_part r) 1 0) c1 = same_register before
    /\ exists reg1 af1, selects c1 (same_register before) before reg1 af1) as Nx.
  { intros c1 V. split; [|split].
    - apply cluster_file_roundtrip. apply (verify_wf w _ _ _ _ _ _ _ HO (cluster_read_wf _ _ C) V).
    - exact (usual_kept _ _ _ _ _ _ _ _ HO U V).
    - destruct (accepted_selects _ _ _ _ _ _ _ V) as (b' & r' & af' & r1 & u1 & Sl1 & ->).
      assert (b' = before) as -> by (exact (proj1 (selects_fun _ _ _ _ _ _ _ _ Sl1 Sl))).
      split; [exact (next_index (VerifyArgs true r 1 0) (VerifyArgs true (next_part r) 1 0) c before r' af' r1 u1 eq_refl eq_refl eq_refl Sl1)|].
      exists r1, af'. now apply sel_old. }
  destruct runs as [|x runs'].
  - cbn [verified_in_turn map accepted_in_turn]. split.
    + intros (s1 & H & ->). apply One in H as (c1 & V & ->). exists c1. split; [|reflexivity]. exists c1. auto.
    + intros (c' & (c1 & V & ->) & ->). exists (cluster_to_json c1). split; [|reflexivity]. apply One. eauto.
  - split.
    + intros (s1 & H & T). apply One in H as (c1 & V & ->). destruct (Nx c1 V) as (C1 & U1 & I1 & reg1 & af1 & Sl1).
      assert (selects c1 (register_index (VerifyArgs true (next_part r) 1 0) c1) before reg1 af1) as Sl1' by (rewrite I1; exact Sl1).
      apply (IH (next_part r) _ c1 s' before reg1 af1 Fp' Fr' C1 U1 Sl1' ltac:(discriminate)) in T as (c' & T & ->). rewrite I1 in T.
      exists c'. split; [|reflexivity]. exists c1. auto.
    + intros (c' & (c1 & V & T) & ->). destruct (Nx c1 V) as (C1 & U1 & I1 & reg1 & af1 & Sl1).
      assert (selects c1 (register_index (VerifyArgs true (next_part r) 1 0) c1) before reg1 af1) as Sl1' by (rewrite I1; exact Sl1).
      exists (cluster_to_json c1). split; [apply One; eauto|].
      apply (IH (next_part r) _ c1 (cluster_to_json c') before reg1 af1 Fp' Fr' C1 U1 Sl1' ltac:(discriminate)). rewrite I1. exists c'. auto.
Qed.

Theorem split_in_turn w b pick kind store doc n gs runs r par size s s' : hash_ok w -> pem_ok w -> kind <> P_certless ->
  plain_names doc -> dep_doc w doc gs -> canonical_texts gs -> certs_or_one gs ->
  split_py w kind doc n = (map snd runs, None) -> (1 <= par)%nat -> Forall (fun x => (1 <= fst (fst x))%nat) runs -> usual_state s ->
  verify_py w b pick (VerifyArgs true r par size) store s doc = Ok (Some s') <->
  verified_in_turn w b pick store r runs s s'.
Proof.
  intros HO P Kd Pl D Ca Ce E Hp Fp U.
  destruct (split_regular w kind doc n (map snd runs) gs P Kd Pl D Ce E) as [Fr NF].
  assert (runs <> []) as Nr by (intros ->; now apply NF). rewrite Forall_map in Fr.
  assert (regular_file w doc) as R by (split; [exact Pl|eauto]).
  assert (forall ks key c idx before reg after c', selects c idx before reg after ->
    verifyDEP w (load doc) ks key c idx = (c', None) <-> accepted_in_turn w ks key (same_register before) (map (fun x => load (snd x)) runs) c idx c') as SV.
  { intros ks key c idx before reg after c' Sl. rewrite (split_verify w kind doc n _ gs ks key c idx before reg after c' HO P Kd Pl D Ca Ce E Sl).
    now rewrite map_map. }
  split.
  - intros H. apply verify_py_spec in H as (key & ks & c & c' & K & S & C & V & X); try assumption. cbn [va_state] in X. apply Some_inj in X. subst s'.
    unfold read_state in C. cbn [va_state] in C. change (register_index (VerifyArgs true r par size) c) with (register_index (VerifyArgs true r 1 0) c) in V.
    destruct (accepted_selects _ _ _ _ _ _ _ V) as (b' & r' & af' & r1 & u1 & Sl1 & _).
    apply (in_turn_spec w b pick store key ks HO K S runs r s c _ b' r' af'); try assumption; [now apply U|]. exists c'. split; [|reflexivity].
    now apply (SV ks key c _ b' r' af' c' Sl1).
  - intros T. destruct runs as [|[[p1 s1] f] runs]; [congruence|]. pose proof T as T0. cbn [verified_in_turn] in T0. destruct T0 as (t & H & _).
    inversion Fp as [|? ? Hp1 Fp']; inversion Fr as [|? ? Hf Fr']; subst. cbn [fst snd] in Hp1, Hf.
    apply verify_py_spec in H as (key & ks & c & c1 & K & S & C & V & X); try assumption.
    unfold read_state in C. cbn [va_state] in C. change (register_index (VerifyArgs true r p1 s1) c) with (register_index (VerifyArgs true r 1 0) c) in V.
    destruct (accepted_selects _ _ _ _ _ _ _ V) as (b' & r' & af' & r1 & u1 & Sl1 & _).
    apply (in_turn_spec w b pick store key ks HO K S _ r s c _ b' r' af') in T as (c' & T & ->); try assumption; [|now apply U].
    apply (SV ks key c _ b' r' af' c' Sl1) in T. apply verify_py_spec; try assumption. exists key, ks, c, c'. unfold read_state. cbn [va_state]. auto.
Qed.

(** ** A new cluster cannot be continued *)

Theorem nothing_to_continue w b b' pick par size store dep key ks : loadKeyFromJson (load store) = Ok key -> readStoreFromJson w (load store) = Ok ks ->
  verify_py w b pick (VerifyArgs true A_continue par size) store (verify_py_new b') dep = Err InvalidCashRegisterIndex.
Proof.
  intros K S. unfold verify_py. rewrite K. cbn [bind]. rewrite S. cbn [bind]. unfold read_state, verify_py_new. cbn [va_state].
  rewrite cluster_file_roundtrip by (destruct b'; constructor). cbn [bind].
  replace (register_index (VerifyArgs true A_continue par size) (new_cluster b')) with (Some (-1)%Z) by reflexivity.
  unfold verify_mode, verifyParsedDEP, verifyDEP, with_register.
  replace (getCashRegisterInfo (new_cluster b') (Some (-1)%Z)) with (new_cluster b', Err (A := option str * regstate * used) InvalidCashRegisterIndex) by reflexivity.
  cbn [bind va_par va_chunksize]. destruct (1 <? par)%nat, (size =? 0)%nat; reflexivity.
Qed.
