(** A group with a certificate that is not trusted, after groups in order: both ways of
    verification raise the exception due for the certificate. *)
From Coq Require Import Lia.
From Verif Require Import PyBase World Codec PyFloat PyTime Algo Receipt ListFacts CodecFacts SpecReceipt ReceiptFacts
  DepBase Json KeyStore VerifyReceipt State DepParser Verify SpecDep VerifyFacts StepFacts DepFacts SpecCluster ClusterFacts SeqFacts
  AcceptFacts PartsFacts RoundTrip2 StateFacts SpecState UpdateFacts SpecChunks ChunkFacts DictFacts ParFacts ParTheorems SpecDiag DiagFacts CaughtFacts SpecDoc IncDoc IncTheorems LastFault LastCaught LastTheorems.
Open Scope N_scope.
Open Scope py_scope.

(** ** Certificates *)

Theorem cert_raises w ks c chain e : hash_ok w -> cert_fault w ks c chain e -> verifyCert w c chain ks = Err e.
Proof.
  intros HO F. destruct (verifyCert w c chain ks) as [[]|e'] eqn:V.
  - exfalso. apply (cert_fault_untrusted _ _ _ _ _ F). now apply verifyCert_spec.
  - apply (cert_diag _ _ _ _ _ HO) in V. f_equal. symmetry.
    destruct F as [N T|l1 a b l2 E N T B|l1 a l2 k E N T S NF], V as [N' T'|m1 a' b' m2 E' N' T' B'|m1 a' m2 k' E' N' T' S' NF'].
    + reflexivity.
    + exfalso. apply B'. now apply (T m1 a' b' m2).
    + exfalso. apply (N a' k'); [rewrite E'; apply in_or_app; right; now left|exact S'].
    + exfalso. apply B. now apply (T' l1 a b l2).
    + rewrite E in E'. destruct (split_twice _ _ _ _ _ _ E') as [(-> & -> & X)|[(j & -> & X)|(j & -> & X)]].
      * injection X as -> _. reflexivity.
      * exfalso. destruct j as [|y j]; cbn [app] in X; injection X as -> X.
        -- apply B. apply (T' l1 a a' []). now rewrite <- app_assoc.
        -- apply B. apply (T' l1 a y (j ++ [a'])). rewrite <- !app_assoc. reflexivity.
      * exfalso. destruct j as [|y j]; cbn [app] in X; injection X as -> X.
        -- apply B'. apply (T m1 a' a []). now rewrite <- app_assoc.
        -- apply B'. apply (T m1 a' y (j ++ [a])). rewrite <- !app_assoc. reflexivity.
    + rewrite E in E'. destruct (split_twice _ _ _ _ _ _ E') as [(-> & -> & X)|[(j & -> & X)|(j & -> & X)]].
      * exfalso. apply (N a' k'); [apply in_or_app; right; now left|exact S'].
      * exfalso. destruct j as [|y j]; cbn [app] in X; injection X as -> X.
        -- apply B. apply (T' l1 a a' []). now rewrite <- app_assoc.
        -- apply B. apply (T' l1 a y (j ++ [a'])). rewrite <- !app_assoc. reflexivity.
      * exfalso. apply (N a' k'); [apply in_or_app; left; apply in_or_app; right; now left|exact S'].
    + exfalso. apply (N' a k); [rewrite E; apply in_or_app; right; now left|exact S].
    + rewrite E in E'. destruct (split_twice _ _ _ _ _ _ E') as [(-> & -> & X)|[(j & -> & X)|(j & -> & X)]].
      * exfalso. apply (N' a' k); [apply in_or_app; right; now left|exact S].
      * exfalso. apply (N' a k); [apply in_or_app; left; apply in_or_app; right; now left|exact S].
      * exfalso. destruct j as [|y j]; cbn [app] in X; injection X as -> X.
        -- apply B'. apply (T m1 a' a []). now rewrite <- app_assoc.
        -- apply B'. apply (T m1 a' y (j ++ [a])). rewrite <- !app_assoc. reflexivity.
    + rewrite E in E'. destruct (split_twice _ _ _ _ _ _ E') as [(-> & -> & X)|[(j & -> & X)|(j & -> & X)]].
      * unfold stored in S, S'. rewrite S in S'. apply Some_inj in S'. subst k'. reflexivity.
      * exfalso. apply (N' a k); [apply in_or_app; right; now left|exact S].
      * exfalso. apply (N a' k'); [apply in_or_app; right; now left|exact S'].
Qed.

(** ** Packages *)

Lemma mapM_fails {A B} (f : A -> result B) a x b ra e : mapM f a = Ok ra -> f x = Err e -> mapM f (a ++ x :: b) = Err e.
Proof.
  revert ra. induction a as [|y a IH]; intros ra M E; cbn [app mapM] in *; [now rewrite E|].
  apply bind_Ok in M as (y' & E1 & M). apply bind_Ok in M as (r & M & _). rewrite E1. cbn [bind]. now rewrite (IH r M E).
Qed.

Lemma predict_ok w key ps a reg u r1 u1 : all_proper a -> usual reg -> guarded ps reg u ->
  verifyGroupsWithVerifiers w (concat a) key ps reg u = Ok (r1, u1) -> exists wa, predict w key reg a = Ok wa.
Proof.
  intros Pr U G V. destruct (predict_prefix w key ps a reg u r1 u1 Pr U G V) as (wa & outs & Ep & _). specialize (Ep []).
  rewrite app_nil_r in Ep. cbn [predict bind] in Ep. eauto.
Qed.

Lemma par_pending_cert w sch ks key ps e batches : isolated sch -> Forall (batch_ok sch) batches ->
  forall pkgs0 wargs0 pre ppre bad post reg u r1 u1, batch_ok sch pkgs0 -> all_proper pkgs0 -> usual reg -> guarded ps reg u ->
  predict w key reg pkgs0 = Ok wargs0 -> concat batches = pre ++ bad :: post ->
  mapM (packageChunkWithVerifiers w ks) pre = Ok ppre -> packageChunkWithVerifiers w ks bad = Err e ->
  verifyGroupsWithVerifiers w (concat pkgs0 ++ concat ppre) key ps reg u = Ok (r1, u1) ->
  par_batches w sch ks key ps (backend_of u) batches None (Some wargs0) reg u = Err e.
Proof.
  intros Iso. induction batches as [|chunks batches IH]; intros FB pkgs0 wargs0 pre ppre bad post reg u r1 u1 B0 Pr0 U G P0 E K Bd V; cbn [par_batches concat] in *.
  - destruct pre; discriminate E.
  - inversion FB as [|? ? B1 FB']; subst. apply app_eq_app in E as (x & [[E1 E2]|[E1 E2]]).
    + destruct x as [|y x]; cbn [app] in E2.
      { rewrite app_nil_r in E1. subst chunks. (* the batch ends where the prefix ends *)
        rewrite verify_app in V. apply bind_Ok in V as ([rA uA] & VA & V). cbn [fst snd] in V.
        rewrite K. cbn [bind].
        assert (batch_ok sch ppre) as B1' by (apply mapM_Ok in K; unfold batch_ok; rewrite <- (Forall2_length _ _ _ K); exact B1).
        assert (all_proper ppre) as Pr1 by (eapply package_all_proper; eassumption).
        destruct (predict_prefix w key ps pkgs0 reg u rA uA Pr0 U G VA) as (wa & outs & Ep & UA & GA & Bk & R & M).
        assert (collect w sch key ps (backend_of u) wargs0 u = Ok (rA, uA)) as ->.
        { assert (List.length wargs0 = List.length pkgs0) as L by (eapply predict_length; eassumption).
          assert (pkgs0 <> []) as NE by (intros ->; destruct B0; cbn in *; lia).
          apply collect_ok; [rewrite L; now apply isolated_task|].
          apply batch_seq in VA as (wargs & outs' & o & P & R' & M' & E'); try assumption. rewrite P0 in P. apply Ok_inj in P. subst wargs. eauto. }
        cbn [bind fst snd]. destruct (predict_ok w key ps ppre rA uA r1 u1 Pr1 UA GA V) as (wb & Eb). rewrite Eb. cbn [bind]. rewrite <- Bk.
        apply (IH FB' ppre wb [] [] bad post rA uA r1 u1); try assumption; try reflexivity; [now symmetry|cbn [concat]; now rewrite app_nil_r]. }
      injection E2 as <- E2. subst chunks. now rewrite (mapM_fails _ _ _ _ _ _ K Bd).
    + subst pre. assert (exists p1 p2, mapM (packageChunkWithVerifiers w ks) chunks = Ok p1 /\ mapM (packageChunkWithVerifiers w ks) x = Ok p2 /\ ppre = p1 ++ p2) as (p1 & p2 & K1 & K2 & ->).
      { apply mapM_Ok in K. apply Forall2_app_inv_l in K as (p1 & p2 & F1 & F2 & ->). exists p1, p2. split; [now apply mapM_Ok|]. split; [now apply mapM_Ok|reflexivity]. }
      rewrite K1. cbn [bind]. rewrite concat_app, verify_app in V. apply bind_Ok in V as ([rA uA] & VA & V). cbn [fst snd] in V.
      assert (batch_ok sch p1) as B1' by (apply mapM_Ok in K1; unfold batch_ok; rewrite <- (Forall2_length _ _ _ K1); exact B1).
      assert (all_proper p1) as Pr1 by (eapply package_all_proper; eassumption).
      destruct (predict_prefix w key ps pkgs0 reg u rA uA Pr0 U G VA) as (wa & outs & Ep & UA & GA & Bk & R & M).
      assert (collect w sch key ps (backend_of u) wargs0 u = Ok (rA, uA)) as ->.
      { assert (List.length wargs0 = List.length pkgs0) as L by (eapply predict_length; eassumption).
        assert (pkgs0 <> []) as NE by (intros ->; destruct B0; cbn in *; lia).
        apply collect_ok; [rewrite L; now apply isolated_task|].
        apply batch_seq in VA as (wargs & outs' & o & P & R' & M' & E'); try assumption. rewrite P0 in P. apply Ok_inj in P. subst wargs. eauto. }
      cbn [bind fst snd]. pose proof V as V'. rewrite verify_app in V'. apply bind_Ok in V' as ([rB uB] & VB & _).
      destruct (predict_ok w key ps p1 rA uA rB uB Pr1 UA GA VB) as (wb & Eb). rewrite Eb. cbn [bind]. rewrite <- Bk.
      apply (IH FB' p1 wb x p2 bad post rA uA r1 u1); assumption.
Qed.

Lemma par_body_cert w sch ks key ps reg u pre ppre bad post r1 u1 e : isolated sch -> usual reg -> guarded ps reg u ->
  mapM (packageChunkWithVerifiers w ks) pre = Ok ppre -> packageChunkWithVerifiers w ks bad = Err e ->
  verifyGroupsWithVerifiers w (concat ppre) key ps reg u = Ok (r1, u1) ->
  par_body w sch ks key (pre ++ bad :: post, None) (ps, reg, u) = Err e.
Proof.
  intros Iso U G K Bd V. unfold par_body, getChunksForProcs. cbn [fst snd].
  destruct (chunks_for_procs_ok (sch_nprocs sch) (pre ++ bad :: post) (proj1 Iso) [] ltac:(destruct Iso; cbn; lia)) as (A1 & A2 & A3).
  rewrite A1. cbn [app] in A2. set (bs := fst (chunks_for_procs (sch_nprocs sch) (pre ++ bad :: post) [] None)) in *. clearbody bs.
  destruct bs as [|b bs]; [destruct pre; discriminate A2|]. inversion A3 as [|? ? B1 A4]; subst. cbn [par_batches concat] in *.
  apply app_eq_app in A2 as (x & [[E1 E2]|[E1 E2]]).
  - destruct x as [|y x]; cbn [app] in E2.
    + rewrite app_nil_r in E1. subst b. rewrite K. cbn [bind fst snd].
      assert (batch_ok sch ppre) as B1' by (apply mapM_Ok in K; unfold batch_ok; rewrite <- (Forall2_length _ _ _ K); exact B1).
      assert (all_proper ppre) as Pr1 by (eapply package_all_proper; eassumption).
      destruct (predict_ok w key ps ppre reg u r1 u1 Pr1 U G V) as (wb & Eb). rewrite Eb. cbn [bind].
      apply (par_pending_cert w sch ks key ps e bs Iso A4 ppre wb [] [] bad post reg u r1 u1); try assumption; try reflexivity; [now symmetry|cbn [concat]; now rewrite app_nil_r].
    + injection E2 as <- E2. subst b. now rewrite (mapM_fails _ _ _ _ _ _ K Bd).
  - subst pre. assert (exists p1 p2, mapM (packageChunkWithVerifiers w ks) b = Ok p1 /\ mapM (packageChunkWithVerifiers w ks) x = Ok p2 /\ ppre = p1 ++ p2) as (p1 & p2 & K1 & K2 & ->).
    { apply mapM_Ok in K. apply Forall2_app_inv_l in K as (p1 & p2 & F1 & F2 & ->). exists p1, p2. split; [now apply mapM_Ok|]. split; [now apply mapM_Ok|reflexivity]. }
    rewrite K1. cbn [bind fst snd]. rewrite concat_app in V. pose proof V as V'. rewrite verify_app in V'. apply bind_Ok in V' as ([rB uB] & VB & _).
    assert (batch_ok sch p1) as B1' by (apply mapM_Ok in K1; unfold batch_ok; rewrite <- (Forall2_length _ _ _ K1); exact B1).
    assert (all_proper p1) as Pr1 by (eapply package_all_proper; eassumption).
    destruct (predict_ok w key ps p1 reg u rB uB Pr1 U G VB) as (wb & Eb). rewrite Eb. cbn [bind].
    apply (par_pending_cert w sch ks key ps e bs Iso A4 p1 wb x p2 bad post reg u r1 u1); try assumption.
Qed.

(** ** Chunks *)

Lemma first_stamp (good : option cert * list cert -> Prop) l : full l -> forall sa b s sb, stamped l = sa ++ (b, s) :: sb ->
  Forall (fun x => good (snd x)) sa -> ~ good s ->
  exists l1 x l2, l = l1 ++ x :: l2 /\ stamped l1 = sa /\ (g_cert x, g_chain x) = s.
Proof.
  induction l as [|g l IH]; intros Fu sa b s sb E G B; [destruct sa; discriminate E|].
  assert (g_recs g <> []) as NE by exact (Forall_inv Fu). apply Forall_inv_tail in Fu. rewrite stamped_cons in E.
  destruct sa as [|y sa].
  - destruct (g_recs g) as [|r0 rs]; [congruence|]. cbn [map app] in E. injection E as _ E _. exists [], g, l. auto.
  - assert (good (g_cert g, g_chain g)) as Gg.
    { destruct (g_recs g) as [|r0 rs]; [congruence|]. cbn [map app] in E. injection E as <- _. apply Forall_inv in G. exact G. }
    apply app_eq_app in E as (x & [[E1 E2]|[E1 E2]]).
    + destruct x as [|z x]; cbn [app] in E2.
      * rewrite app_nil_r in E1. destruct (IH Fu [] b s sb (eq_sym E2) (Forall_nil _) B) as (l1 & x & l2 & -> & S1 & Sx).
        exists (g :: l1), x, l2. split; [reflexivity|]. split; [|exact Sx]. rewrite stamped_cons, S1, app_nil_r. exact E1.
      * exfalso. injection E2 as <- _. assert (In (b, s) (map (fun b => (b, (g_cert g, g_chain g))) (g_recs g))) as HI by (rewrite E1; apply in_or_app; right; now left).
        apply in_map_iff in HI as (b' & E & _). injection E as _ <-. exact (B Gg).
    + rewrite E1 in G. apply Forall_app in G as [_ G]. destruct (IH Fu x b s sb E2 G B) as (l1 & y' & l2 & -> & S1 & Sx).
      exists (g :: l1), y', l2. split; [reflexivity|]. split; [|exact Sx]. rewrite stamped_cons, S1. now symmetry.
Qed.

Lemma concat_split {A} (cs : list (list A)) : forall a x b, concat cs = a ++ x :: b ->
  exists pre ca cb post, cs = pre ++ (ca ++ x :: cb) :: post /\ a = concat pre ++ ca.
Proof.
  induction cs as [|c cs IH]; intros a x b E; cbn [concat] in E; [destruct a; discriminate E|].
  apply app_eq_app in E as (y & [[E1 E2]|[E1 E2]]).
  - destruct y as [|z y]; cbn [app] in E2.
    + destruct (IH [] x b (eq_sym E2)) as (pre & ca & cb & post & -> & E3). exists (c :: pre), ca, cb, post. split; [reflexivity|].
      cbn [concat]. rewrite <- app_assoc, <- E3. now rewrite app_nil_r in *.
    + injection E2 as <- _. subst c. exists [], a, y, cs. auto.
  - destruct (IH y x b E2) as (pre & ca & cb & post & -> & ->). exists (c :: pre), ca, cb, post. split; [reflexivity|].
    cbn [concat]. now rewrite <- app_assoc.
Qed.

Lemma dep_groups_app w ks key ps a b : forall one reg u,
  dep_groups w ks key ps (a ++ b) one reg u =
  do x <- dep_groups w ks key ps a one reg u; dep_groups w ks key ps b (fst (fst x)) (snd (fst x)) (snd x).
Proof.
  induction a as [|g a IH]; intros one reg u; [reflexivity|]. cbn [app dep_groups].
  destruct (match one with Some true => false | _ => true end); [|reflexivity].
  destruct (match g_cert g with Some c => _ | None => _ end) as [vo|]; [|reflexivity]. cbn [bind].
  destruct (verifyGroup w (g_recs g) (fst vo) key ps reg u) as [ru|]; [|reflexivity]. cbn [bind]. apply IH.
Qed.

(** The groups tell the only difference: how many of them are without receipts *)
Lemma occupied_split gs dgs gs1 g gs2 : Forall2 encoded gs dgs -> occupied gs = gs1 ++ g :: gs2 ->
  exists d1 dg d2, filled dgs = d1 ++ dg :: d2 /\ Forall2 encoded gs1 d1 /\ encoded g dg.
Proof.
  intros E O. apply filled_occupied in E. rewrite O in E. apply Forall2_app_inv_l in E as (d1 & d & E1 & E & ->).
  inversion E as [|? dg ? d2 Eg E2]; subst. exists d1, dg, d2. auto.
Qed.

Theorem both_cert w sch dep gs dgs chunks ks key c idx before reg after' p gs1 g gs2 items c0 e : hash_ok w -> isolated sch -> usual_cluster c ->
  dep_is w dep gs -> Forall2 encoded gs dgs -> faithful dgs chunks ->
  selects c idx before reg after' -> past_of w reg p ->
  occupied gs = gs1 ++ g :: gs2 ->
  Forall (fun g => exists x, gr_cert g = Some x /\ trusted w ks x (gr_chain g)) gs1 ->
  Forall2 (text_item w) (dep_texts ks gs1) items -> valid_sequence w key (start_of_last before) reg (c_used c) p items ->
  gr_cert g = Some c0 -> cert_fault w ks c0 (gr_chain g) e ->
  exists c', verifyDEP w dep ks key c idx = (c', Some e) /\ verifyParsedDEP w sch (chunks, None) ks key c idx = (c', Some e).
Proof.
  intros HO Iso UC DI E Fa Se P O T1 FI V Ec0 CF. destruct (usual_selected _ _ _ _ _ UC Se) as [U G].
  set (ps := start_of_last before) in *. set (u := c_used c) in *.
  pose proof (cert_raises w ks c0 (gr_chain g) e HO CF) as VE.
  destruct (occupied_split gs dgs gs1 g gs2 E O) as (d1 & dg & d2 & Ef & E1 & (Eg1 & Eg2 & Eg3)).
  pose proof (encoded_items w _ _ _ (flat_texts ks gs1 d1 E1) FI) as FB.
  assert (certs_ok w ks d1) as CO.
  { clear -E1 T1. induction E1 as [|a b la lb (_ & A & B) F IH]; [constructor|]. inversion T1 as [|? ? (x & X & Y) T2]; subst.
    constructor; [|now apply IH]. exists x. now rewrite A, B. }
  (* sequential *)
  assert (dep_body w ks key (parse_dict w 1 dep 0) (ps, reg, u) = Err e) as Es.
  { assert (parse_dict w 1 dep 0 = (map (fun g => [g]) (filled dgs), None)) as ->.
    { apply parse_dict_spec. exists gs, dgs. split; [exact DI|]. split; [exact E|]. split; [reflexivity|]. rewrite Ef. destruct d1; discriminate. }
    unfold dep_body. cbn [fst snd]. rewrite dep_chunks_single, Ef, dep_groups_app.
    destruct (dep_groups_certs w ks key ps d1 HO CO None reg u) as (one & ED); [discriminate|].
    assert (Forall (fun g : vgroup => proper (snd g)) (map (vg ks) d1)) as Pr by (apply Forall_map, Forall_forall; intros x _; apply verifier_proper).
    pose proof (verify_items w key ps reg u p (map (vg ks) d1) items Pr P FB V) as Vok. rewrite Vok in ED. cbn [bind fst snd] in ED.
    rewrite ED. cbn [bind fst snd dep_groups].
    assert (one <> Some true) as N1.
    { destruct d1 as [|x d1]; [cbn [dep_groups] in ED; injection ED as <- _ _; discriminate|].
      assert (exists a b, dep_groups w ks key ps (x :: d1) None reg u = Ok (one, a, b)) as (a & b & D) by eauto.
      clear -D CO HO. inversion CO as [|? ? (y & Y & _) CO']; subst. cbn [dep_groups] in D. rewrite Y in D.
      apply bind_Ok in D as (vo & D1 & D). apply bind_Ok in D1 as (? & _ & D1). apply Ok_inj in D1. subst vo.
      apply bind_Ok in D as (ru & _ & D). cbn [snd fst] in D. apply (dep_groups_false w ks key ps d1 HO) in D as (_ & _ & ->). discriminate. }
    rewrite Eg2, Ec0. replace (match one with Some true => false | _ => true end) with true by (destruct one as [[|]|]; congruence).
    rewrite Eg3, VE. reflexivity. }
  (* parallel *)
  assert (par_body w sch ks key (chunks, None) (ps, reg, u) = Err e) as Ep.
  { pose proof Fa as (St & Fu & _).
    assert (stamped (concat chunks) = stamped d1 ++ map (fun b => (b, (g_cert dg, g_chain dg))) (g_recs dg) ++ stamped d2) as Sc.
    { rewrite concat_stamped, St, <- (stamped_filter dgs). change (filter has_receipts dgs) with (filled dgs). now rewrite Ef, stamped_app, stamped_cons. }
    assert (g_recs dg <> []) as NE.
    { pose proof (filled_full dgs) as FF. rewrite Ef in FF. apply Forall_app in FF as [_ FF]. now apply Forall_inv in FF. }
    destruct (g_recs dg) as [|b bs] eqn:Er; [congruence|]. cbn [map app] in Sc.
    set (good := fun s : option cert * list cert => exists x, fst s = Some x /\ verifyCert w x (snd s) ks = Ok tt).
    destruct (first_stamp good (concat chunks) (proj2 (Forall_concat _ _) Fu) _ _ _ _ Sc) as (l1 & x & l2 & El & Sl & Sx).
    { apply Forall_forall. intros [b0 [x0 ch0]] Hx. apply in_stamped in Hx as (y & Hy & _ & <- & <-).
      unfold certs_ok in CO. rewrite Forall_forall in CO. destruct (CO y Hy) as (z & Z & T). exists z. split; [exact Z|]. now apply verifyCert_spec. }
    { intros (y & Y & X). cbn [fst snd] in *. rewrite Eg2, Ec0 in Y. apply Some_inj in Y. subst y. rewrite Eg3, VE in X. discriminate X. }
    injection Sx as Sx1 Sx2. rewrite Eg2, Ec0 in Sx1. rewrite Eg3 in Sx2.
    destruct (concat_split chunks l1 x l2 El) as (pre & ca & cb & post & Ech & Ea). subst chunks.
    assert (Forall (fun g => exists z, g_cert g = Some z /\ verifyCert w z (g_chain g) ks = Ok tt) l1) as Gl.
    { apply Forall_forall. intros y Hy. assert (g_recs y <> []) as NY.
      { assert (full (concat (pre ++ (ca ++ x :: cb) :: post))) as FF by now apply Forall_concat. rewrite El in FF. apply Forall_app in FF as [FF _].
        exact (proj1 (Forall_forall _ _) FF y Hy). }
      destruct (g_recs y) as [|r0 rs] eqn:Ey; [congruence|].
      assert (In (r0, (g_cert y, g_chain y)) (stamped d1)) as HI. { rewrite <- Sl. apply in_stamped. exists y. rewrite Ey. repeat split; [exact Hy|now left]. }
      apply in_stamped in HI as (z & Hz & _ & Z1 & Z2). unfold certs_ok in CO. rewrite Forall_forall in CO. destruct (CO z Hz) as (k & K & T).
      exists k. rewrite <- Z1, <- Z2. split; [exact K|]. now apply verifyCert_spec. }
    rewrite Ea in Gl. apply Forall_app in Gl as [Gp Gc].
    assert (mapM (packageChunkWithVerifiers w ks) pre = Ok (map (map (vg ks)) pre)) as Kp.
    { apply packages_spec; [exact HO|]. split; [|reflexivity]. apply Forall_forall. intros y Hy. apply Forall_forall. intros z Hz.
      rewrite Forall_forall in Gp. destruct (Gp z) as (k & -> & T); [apply in_concat; eauto|]. now apply verifyCert_spec. }
    assert (packageChunkWithVerifiers w ks (ca ++ x :: cb) = Err e) as Kb.
    { unfold packageChunkWithVerifiers. apply (mapM_fails _ _ _ _ (map (vg ks) ca)).
      - apply mapM_Ok. generalize (List.length (ca ++ x :: cb) =? 1)%nat. intros q. clear -Gc. induction Gc as [|y l (k & K & T) F IH]; [constructor|]. cbn [map]. constructor; [|exact IH].
        unfold package_group, vg. rewrite K, T. reflexivity.
      - unfold package_group. now rewrite Sx1, Sx2, VE. }
    rewrite flat_stamped, <- Sl, Ea, stamped_app, map_app, <- !flat_stamped in FB. apply Forall2_app_inv_l in FB as (ia & ib & Fia & _ & ->). apply valid_app in V as [Va _].
    assert (Forall (fun g : vgroup => proper (snd g)) (map (vg ks) (concat pre))) as Pra by (apply Forall_map, Forall_forall; intros y _; apply verifier_proper).
    pose proof (verify_items w key ps reg u p (map (vg ks) (concat pre)) ia Pra P Fia Va) as Vok. rewrite concat_map in Vok.
    exact (par_body_cert w sch ks key ps reg u pre _ _ post _ _ e Iso U G Kp Kb Vok). }
  unfold verifyDEP, verifyParsedDEP, with_register. destruct (getCashRegisterInfo c idx) as [c' info] eqn:Eg.
  pose proof (get_selects _ _ _ _ _ Se) as GS. rewrite Eg in GS. injection GS as _ Ei. fold ps u in Ei. subst info. exists c'.
  cbn [bind]. rewrite Es, Ep. cbn [bind]. auto.
Qed.

Lemma untrusted_fault w ks c chain : hash_ok w -> ~ trusted w ks c chain -> exists e, cert_fault w ks c chain e.
Proof.
  intros HO N. destruct (verifyCert w c chain ks) as [[]|e] eqn:V.
  - exfalso. apply N. now apply verifyCert_spec.
  - exists e. now apply cert_diag.
Qed.

Theorem cert_fault_fun w ks c chain e e' : hash_ok w -> cert_fault w ks c chain e -> cert_fault w ks c chain e' -> e = e'.
Proof. intros HO F F'. apply (cert_raises w) in F; [|exact HO]. apply (cert_raises w) in F'; [|exact HO]. rewrite F in F'. now injection F'. Qed.

Section Cert.
Context (w : world) (sch : schedule) (ks : keystore) (key : option bytes) (c : cluster) (idx : option Z)
  (before : list regstate) (reg : regstate) (after' : list regstate) (p : option past) (gs gs1 : list group) (g : group) (gs2 : list group)
  (items : list item) (c0 : cert).
Hypotheses (HO : hash_ok w) (Iso : isolated sch) (UC : usual_cluster c) (TE : texts_encodable ks gs)
  (Se : selects c idx before reg after') (P : past_of w reg p)
  (O : occupied gs = gs1 ++ g :: gs2)
  (T1 : Forall (fun g => exists x, gr_cert g = Some x /\ trusted w ks x (gr_chain g)) gs1)
  (FI : Forall2 (text_item w) (dep_texts ks gs1) items) (V : valid_sequence w key (start_of_last before) reg (c_used c) p items)
  (E0 : gr_cert g = Some c0) (N0 : ~ trusted w ks c0 (gr_chain g)).

Lemma cert_filled dgs : Forall2 encoded gs dgs -> filled dgs <> [].
Proof using O. intros E. destruct (occupied_split gs dgs gs1 g gs2 E O) as (d1 & dg & d2 & -> & _). destruct d1; discriminate. Qed.

Theorem cert_dict dep nparts n : dep_is w dep gs -> exists c' e, verifyDEP w dep ks key c idx = (c', Some e)
  /\ verifyParsedDEP w sch (parse_dict w nparts dep n) ks key c idx = (c', Some e) /\ cert_fault w ks c0 (gr_chain g) e.
Proof.
  intros DI. destruct (tuples_encodable ks gs TE) as (dgs & E). destruct (untrusted_fault w ks c0 _ HO N0) as (e & CF).
  assert (parse_dict w nparts dep n = (dict_chunks (effective_size nparts dep n) dgs, None)) as ->.
  { apply parse_dict_chunks. exists gs, dgs. split; [exact DI|]. split; [exact E|]. split; [exact (cert_filled dgs E)|reflexivity]. }
  destruct (both_cert w sch dep gs dgs _ ks key c idx before reg after' p gs1 g gs2 items c0 e HO Iso UC DI E (dict_faithful (effective_size nparts dep n) dgs)
              Se P O T1 FI V E0 CF) as (c' & A & B).
  eauto.
Qed.

Theorem cert_file doc n : dep_doc w doc gs -> plain_names doc -> exists c' e, verifyDEP w (load doc) ks key c idx = (c', Some e)
  /\ verifyParsedDEP w sch (parse_inc w P_file doc n) ks key c idx = (c', Some e) /\ cert_fault w ks c0 (gr_chain g) e.
Proof.
  intros D Pl. destruct (tuples_encodable ks gs TE) as (dgs & E). destruct (untrusted_fault w ks c0 _ HO N0) as (e & CF).
  rewrite (file_chunks w doc n gs dgs D Pl E (cert_filled dgs E)).
  destruct (both_cert w sch (load doc) gs dgs _ ks key c idx before reg after' p gs1 g gs2 items c0 e HO Iso UC (load_doc _ _ _ D) E (inc_faithful n dgs)
              Se P O T1 FI V E0 CF) as (c' & A & B).
  eauto.
Qed.
End Cert.
