(** Tests whose first signature device has a certificate that is not trusted. *)
From Coq Require Import Lia.
From Verif Require Import PyBase World ListFacts Codec CodecFacts PyFloat PyTime Algo Receipt SpecReceipt Json Pem KeyStore State
  DepBase DepParser Verify DepExport VerifyReceipt VerifyFacts SpecDep SpecCluster SpecDoc SpecKeys SpecMerge SpecExport ExportFacts AcceptFacts SeqFacts SpecState ParTheorems ClusterFacts
  IncDoc DepFacts SpecDiag DiagFacts CaughtFacts SpecAmount CashReg SpecCashReg Override
  RunTest SpecRunTest RunTestFacts RunTestSeq TestVerify SpecTestVerify TestVerifyFacts CertFault.
Open Scope N_scope.
Open Scope py_scope.

(** ** The first group *)
Section First.
Variables (w : world) (id : str) (key : bytes) (size : nat) (devs : list device) (d0 : device).

Definition of_first (g : rgroup rtuple) : Prop := rg_recs g <> [] /\ rg_cert g = dv_cert d0 /\ rg_chain g = dv_chain d0.
Definition dep_first (dep : json) : Prop := exists g gs extra, export w (g :: gs, None) extra = Ok dep /\ extra_ok extra /\ of_first g.
Definition begun (st : gen) : Prop :=
  extra_ok (gn_extra st) /\ gn_sig st <> None /\
  ((exists dep deps, gn_deps st = dep :: deps /\ dep_first dep)
   \/ gn_deps st = [] /\ ((exists g gs, gn_groups st = g :: gs /\ of_first g)
       \/ gn_groups st = [] /\ gn_recs st <> [] /\ exists p, gn_sig st = Some p /\ nth_error devs p = Some d0)).

Lemma begun_appended st p d : begun st -> gn_sig st = Some p -> item_at devs p = Ok d ->
  let st' := append_group st (dv_cert d) (dv_chain d) in
  extra_ok (gn_extra st') /\ gn_sig st' <> None /\
  ((exists dep deps, gn_deps st' = dep :: deps /\ dep_first dep)
   \/ gn_deps st' = [] /\ exists g gs, gn_groups st' = g :: gs /\ of_first g).
Proof.
  intros (X & S & B) Ep Ed. cbn [append_group gn_extra gn_sig gn_deps gn_groups]. split; [exact X|]. split; [exact S|].
  destruct B as [B|(Ed0 & B)]; [now left|]. right. split; [exact Ed0|]. destruct B as [(g & gs & -> & F)|(-> & R & p' & Ep' & Hp)].
  - exists g, (gs ++ [RGroup (gn_recs st) (dv_cert d) (dv_chain d)]). now split.
  - eexists _, []. split; [reflexivity|]. rewrite Ep in Ep'. apply Some_inj in Ep'. subst p'. unfold item_at in Ed. rewrite Hp in Ed. apply Ok_inj in Ed. subst d.
    split; [exact R|]. now split.
Qed.

Lemma step_begun st i st' : gen_step w id key size true devs st i = Ok st' -> begun st -> begun st'.
Proof.
  unfold gen_step. intros (d & _ & (s1 & E1 & (s2 & E2 & (s3 & E3 & E4)%bind_Ok)%bind_Ok)%bind_Ok)%bind_Ok H.
  assert (begun s1) as H1.
  { unfold new_in_cluster in E1. destruct (in_new i); try (apply Ok_inj in E1; now subst). destruct (truthy _); [|apply Ok_inj in E1; now subst].
    apply bind_Ok in E1 as (g & _ & E1). apply Ok_inj in E1. now subst. }
  clear E1 H. destruct H1 as (X & S & B). destruct (gn_sig s1) as [p|] eqn:Ep; [|congruence].
  assert (begun s2 /\ (in_new i <> NO_NEW_DEP -> (exists dep deps, gn_deps s2 = dep :: deps /\ dep_first dep)
     \/ gn_deps s2 = [] /\ exists g gs, gn_groups s2 = g :: gs /\ of_first g)
     /\ (gn_groups s2 = [] -> gn_sig s2 = Some (in_dev i))) as ((X2 & S2 & B2) & N2 & G2).
  { unfold end_group in E2. rewrite Ep in E2.
    assert (begun s1) as H1 by (split; [exact X|]; split; [congruence|]; destruct B as [B|[B1 B2]]; [now left|right; split; [exact B1|]]; destruct B2 as [B2|B2]; [now left|right; now rewrite Ep]).
    destruct ((match in_new i with NO_NEW_DEP => false | _ => true end) || negb (p =? in_dev i)%nat)%bool eqn:Eb.
    - apply bind_Ok in E2 as (dd & Edd & E2). apply Ok_inj in E2. subst s2. destruct (begun_appended s1 p dd H1 Ep Edd) as (A1 & A2 & A3).
      split; [|split; [intros _; exact A3|cbn [append_group gn_groups]; destruct (gn_groups s1); discriminate]]. split; [exact A1|]. split; [exact A2|]. destruct A3 as [A3|[A3 A4]]; [now left|]. right. split; [exact A3|now left].
    - apply Ok_inj in E2. subst s2. split; [exact H1|]. apply orb_false_iff in Eb as [Eb1 Eb2]. split.
      + intros N. exfalso. destruct (in_new i); [congruence|discriminate Eb1|discriminate Eb1].
      + intros _. rewrite Ep. f_equal. apply Nat.eqb_eq. now destruct (p =? in_dev i)%nat. }
  clear E2 B X S. assert (extra_ok (gn_extra s3) /\ ((exists dep deps, gn_deps s3 = dep :: deps /\ dep_first dep)
     \/ gn_deps s3 = [] /\ ((exists g gs, gn_groups s3 = g :: gs /\ of_first g)
       \/ gn_groups s3 = [] /\ gn_recs s3 <> [] /\ in_new i = NO_NEW_DEP /\ s3 = s2))) as [X3 B3].
  { unfold end_dep in E3. destruct (in_new i) eqn:En.
    - apply Ok_inj in E3. subst s3. split; [exact X2|]. destruct B2 as [B2|[B2 B3]]; [now left|]. right. split; [exact B2|]. destruct B3 as [B3|(B3 & B4 & _)]; [now left|]. right. auto.
    - apply bind_Ok in E3 as (dep & Ed & (r2d & _ & ([[reg cur] extra] & Ee & E3)%bind_Ok)%bind_Ok). apply Ok_inj in E3. subst s3. cbn [gn_extra gn_deps gn_groups gn_recs].
      split.
      + destruct (in_cont i); repeat match goal with H : bind _ _ = Ok _ |- _ => apply bind_Ok in H as (? & _ & H) end;
          apply Ok_inj in Ee; injection Ee as _ _ <-; repeat constructor; cbn [fst]; apply key_plain; cbn [In]; auto.
      + left. destruct (N2 ltac:(discriminate)) as [(dp & dps & E & F)|(E & g & gs & Eg & F)]; rewrite E; cbn [app].
        * now exists dp, (dps ++ [dep]).
        * exists dep, []. split; [reflexivity|]. rewrite Eg in Ed. exists g, gs, (all_extra s2). split; [exact Ed|]. split; [|exact F]. now apply all_extra_ok.
    - apply bind_Ok in E3 as (dep & Ed & (r2d & _ & ([[reg cur] extra] & Ee & E3)%bind_Ok)%bind_Ok). apply Ok_inj in E3. subst s3. cbn [gn_extra gn_deps gn_groups gn_recs].
      split.
      + destruct (in_cont i); repeat match goal with H : bind _ _ = Ok _ |- _ => apply bind_Ok in H as (? & _ & H) end;
          apply Ok_inj in Ee; injection Ee as _ _ <-; repeat constructor; cbn [fst]; apply key_plain; cbn [In]; auto.
      + left. destruct (N2 ltac:(discriminate)) as [(dp & dps & E & F)|(E & g & gs & Eg & F)]; rewrite E; cbn [app].
        * now exists dp, (dps ++ [dep]).
        * exists dep, []. split; [reflexivity|]. rewrite Eg in Ed. exists g, gs, (all_extra s2). split; [exact Ed|]. split; [|exact F]. now apply all_extra_ok. }
  assert (exists p0, gn_sig st' = Some p0 /\ p0 = in_dev i) as (p0 & Es & Ep0).
  { unfold add_receipt in E4. apply bind_Ok in E4 as (g & _ & E4). destruct (issue_over _ _ _ _ _) as [g' r]. apply bind_Ok in E4 as (rec & _ & E4).
    destruct (truthy _); [apply Ok_inj in E4; subst; cbn [gn_sig]; eauto|]. apply bind_Ok in E4 as (jws & _ & E4). apply Ok_inj in E4. subst. cbn [gn_sig]. eauto. }
  assert (gn_extra st' = gn_extra s3 /\ gn_groups st' = gn_groups s3 /\ gn_deps st' = gn_deps s3 /\ gn_recs st' <> []) as (F1 & F2 & F3 & F4).
  { unfold add_receipt in E4. apply bind_Ok in E4 as (g & _ & E4). destruct (issue_over _ _ _ _ _) as [g' r]. apply bind_Ok in E4 as (rec & _ & E4).
    destruct (truthy _); [|apply bind_Ok in E4 as (jws & _ & E4)]; apply Ok_inj in E4; subst st'; cbn [gn_extra gn_groups gn_deps gn_recs]; (repeat split); destruct (gn_recs s3); discriminate. }
  split; [now rewrite F1|]. split; [congruence|]. rewrite F2, F3. destruct B3 as [B3|(B3 & [B4|(B4 & B5 & B6 & B7)])]; [now left|right; split; [exact B3|now left]|].
  right. split; [exact B3|]. right. split; [exact B4|]. split; [exact F4|]. exists (in_dev i). split; [congruence|]. subst s3.
  (* the group goes on with the same device *)
  destruct B2 as [(dp & dps & E & _)|(_ & [(g & gs & E & _)|(_ & _ & q & Eq & Hq)])]; [congruence|congruence|].
  rewrite (G2 B4) in Eq. apply Some_inj in Eq. now subst q.
Qed.

Theorem first_exported i0 l deps : in_new i0 = NO_NEW_DEP -> nth_error devs (in_dev i0) = Some d0 ->
  runTest w id key size true devs (i0 :: l) = Ok deps -> exists dep rest, deps = dep :: rest /\ dep_first dep.
Proof.
  intros En Hd (g & _ & (st & E & H)%bind_Ok)%bind_Ok. cbn [gen_loop] in E. apply bind_Ok in E as (s1 & E1 & E).
  assert (begun s1) as B1.
  { unfold gen_step in E1. unfold item_at in E1 at 1. rewrite Hd in E1. cbn [bind] in E1. unfold new_in_cluster, end_group, end_dep in E1. rewrite En in E1. cbn [bind gn_sig] in E1.
    unfold add_receipt in E1. apply bind_Ok in E1 as (g1 & _ & E1). destruct (issue_over _ _ _ _ _) as [g' r]. apply bind_Ok in E1 as (rec & _ & E1).
    cbn [gn_start truthy] in E1. apply bind_Ok in E1 as (jws & _ & E1). apply Ok_inj in E1. subst s1. split; [constructor|]. cbn [gn_sig gn_deps gn_groups gn_recs app]. split; [discriminate|].
    right. split; [reflexivity|]. right. split; [reflexivity|]. split; [discriminate|]. eauto. }
  assert (begun st) as B.
  { clear H E1. revert s1 E B1. induction l as [|i l IH]; intros s1 E B1; cbn [gen_loop] in E; [apply Ok_inj in E; now subst|].
    apply bind_Ok in E as (s2 & E2 & E). exact (IH s2 E (step_begun _ _ _ E2 B1)). }
  unfold gen_end in H. apply bind_Ok in H as (st' & E' & (dep & Ed & H)%bind_Ok). destruct (gn_sig st) as [p|] eqn:Ep; [|discriminate E'].
  apply bind_Ok in E' as (d & Edd & E'). apply Ok_inj in E', H. subst deps st'. destruct (begun_appended st p d B Ep Edd) as (X & _ & [(dp & dps & E2 & F)|(E2 & g1 & gs & Eg & F)]).
  - rewrite E2. now exists dp, (dps ++ [dep]).
  - rewrite E2. exists dep, []. split; [reflexivity|]. rewrite Eg in Ed. eexists g1, gs, _. split; [exact Ed|]. split; [|exact F]. now apply all_extra_ok.
Qed.

Lemma first_group dep gs : pem_ok w -> dep_first dep -> (forall c, dv_cert d0 = Some c \/ In c (dv_chain d0) -> exists t, loadCert w t = Ok c) -> dv_cert d0 <> None ->
  dep_is w dep gs -> exists g rest, gs = g :: rest /\ gr_texts g <> [] /\ gr_cert g = dv_cert d0 /\ gr_chain g = dv_chain d0.
Proof.
  intros PO (rg & rgs & extra & E & X & R1 & R2 & R3) L NC (d & js & Ed & G & F). unfold export in E. cbn [fst snd] in E. apply bind_Ok in E as (js' & M & E). apply Ok_inj in E.
  assert (Forall (fun kv : str * json => fst kv <> k_bg) extra) as X1 by (eapply Forall_impl; [|exact X]; now intros ? []).
  destruct (extra_spec (JList js') extra X1) as (rest & Ew & Hr). rewrite <- E in Ed. rewrite Ew in Ed. injection Ed as <-.
  cbn [dict_get] in G. rewrite str_eqb_refl in G. injection G as ->.
  cbn [mapM] in M. apply bind_Ok in M as (j & Ej & M). apply bind_Ok in M as (js1 & M & E1). apply Ok_inj in E1. subst js.
  inversion F as [|? g ? gs' Fg F']; subst. unfold exportGroup in Ej. apply bind_Ok in Ej as (ts & Mt & Ej). apply Ok_inj in Ej. symmetry in Ej.
  change (j = JDict (group_json w rg ts)) in Ej. exists g, gs'. split; [reflexivity|].
  assert (ts <> []) as Nt. { destruct (rg_recs rg) as [|r rs]; [congruence|]. cbn [mapM] in Mt. apply bind_Ok in Mt as (t & _ & Mt). apply bind_Ok in Mt as (ts' & _ & Mt). apply Ok_inj in Mt. subst ts. discriminate. }
  destruct (dv_cert d0) as [c0|] eqn:Ec; [|congruence].
  assert (group_is w j (Group ts (Some c0) (dv_chain d0))) as Gi.
  { rewrite Ej. assert (str_eqb k_cert k_recs = false /\ str_eqb k_certs k_recs = false /\ str_eqb k_cert k_certs = false) as (B1 & B2 & B3) by (vm_compute; auto).
    exists (group_json w rg ts), (JList (map JStr ts)), (exportCertToPEM w c0), (map (exportCertToPEM w) (dv_chain d0)).
    cbn [group_json dict_get gr_texts gr_cert gr_chain]. rewrite B1, B2, B3, !str_eqb_refl, R2, R3, map_map. split; [reflexivity|]. split; [reflexivity|]. split; [now left|]. split; [reflexivity|].
    split. { right. destruct (L c0 (or_introl eq_refl)) as (t & Lt). destruct (export_cert w c0 t PO Lt) as [T NE]. split; [exact NE|]. now exists c0. }
    split; [reflexivity|]. assert (forall l, (forall c, In c l -> exists t, loadCert w t = Ok c) -> Forall2 (cert_text w) (map (exportCertToPEM w) l) l) as H.
    { induction l as [|c l IH]; intros Hl; [constructor|]. cbn [map]. constructor; [|apply IH; intros; apply Hl; now right].
      destruct (Hl c (or_introl eq_refl)) as (t & Lt). now apply (export_cert w c t PO). }
    apply H. intros c Hc. apply L. now right. }
  rewrite (group_is_fun w j _ _ Fg Gi). now split.
Qed.
End First.

Lemma texts_any ks ks' gs : texts_encodable ks' gs -> texts_encodable ks gs.
Proof.
  unfold texts_encodable. rewrite !Forall_forall. intros H [t v] Hi. unfold dep_texts in *. apply in_flat_map in Hi as (g & Hg & Hi). apply in_map_iff in Hi as (t' & Et & Ht). injection Et as -> _.
  cbn [fst]. apply (H (t, verifier_of ks' (gr_cert g))). apply in_flat_map. exists g. split; [exact Hg|]. apply in_map_iff. now exists t.
Qed.

(** The certificate of the first device is not trusted; everything else is in order, as
    can be seen with another key store. *)
Theorem first_outcomes w sch random ks ks' b id key size devs i0 l d0 c0 deps c e :
  hash_ok w -> pem_ok w -> (forall n, isolated (sch n)) ->
  in_new i0 = NO_NEW_DEP -> nth_error devs (in_dev i0) = Some d0 -> dv_cert d0 = Some c0 ->
  (forall c, dv_cert d0 = Some c \/ In c (dv_chain d0) -> exists t, loadCert w t = Ok c) ->
  runTest w id key size true devs (i0 :: l) = Ok deps -> testVerify w ks' key b deps = T_ok c ->
  cert_fault w ks c0 (dv_chain d0) e ->
  testVerify w ks key b deps = T_raised e
  /\ parse_deps w sch random ks (Some key) (new_cluster b) [] 0 deps = T_raised e.
Proof.
  intros HO PO Iso En Hd Ec L R V CF.
  destruct (first_exported w id key size devs d0 i0 l deps En Hd R) as (dep & rest & -> & DF).
  assert (exported w dep) as Xp. { destruct DF as (g & gs & extra & E & X & _). now exists (g :: gs), extra. }
  unfold testVerify in *. cbn [verify_deps parse_deps] in *. destruct (dep_register [] 0 dep) as [[r n']|] eqn:Er; [|discriminate V].
  destruct (verifyDEP w dep ks' (Some key) (new_cluster b) (Some (Z.of_nat r))) as [c' [e'|]] eqn:V'; [discriminate V|]. clear V.
  apply verifyDEP_spec in V' as (before & reg & after' & reg' & p & items & Se & (gs & D & _ & F & _) & P & Vi & _); [|exact HO].
  change items with ([] ++ items) in Vi. apply valid_app in Vi as [Vi _].
  assert (texts_encodable ks gs) as TE.
  { apply (texts_any ks ks'). unfold texts_encodable. clear -F. induction F as [|t i ts is (E & Rd & _) F IH]; constructor; [|exact IH]. exists (fst t). exact (reads_encodes w _ _ Rd). }
  destruct (exported_doc w dep gs Xp D) as [Dd Pl].
  destruct (first_group w d0 dep gs PO DF L ltac:(congruence) D) as (g & gs2 & Eg & Nt & Gc & Gch).
  assert (occupied gs = [] ++ g :: occupied gs2) as O. { rewrite Eg. unfold occupied. cbn [filter]. destruct (gr_texts g); [congruence|reflexivity]. }
  assert (gr_cert g = Some c0) as Gc0 by congruence.
  assert (~ trusted w ks c0 (gr_chain g)) as NT by (rewrite Gch; exact (cert_fault_untrusted _ _ _ _ _ CF)).
  pose proof (new_usual b) as U.
  assert (forall e', cert_fault w ks c0 (gr_chain g) e' -> e' = e) as Un by (intros e' H; rewrite Gch in H; exact (cert_fault_fun w ks c0 _ e' e HO H CF)).
  split.
  - destruct (cert_dict w (sch 0%nat) ks (Some key) (new_cluster b) (Some (Z.of_nat r)) before reg after' p gs [] g (occupied gs2) [] c0 HO (Iso 0%nat) U TE Se P O) with (dep := dep) (nparts := 1%nat) (n := 0%nat)
      as (c1 & e1 & E1 & _ & CF1); try assumption; [constructor|constructor|].
    rewrite E1. now rewrite (Un _ CF1).
  - cbn [List.length]. unfold verify_parsed. destruct (getCashRegisterInfo (new_cluster b) (Some (Z.of_nat r))) as [c1 x1] eqn:G. pose proof G as G'. rewrite (get_selects _ _ _ _ _ Se) in G'. injection G' as _ <-.
    destruct (tuples_encodable ks gs TE) as (dgs & Egs).
    destruct (number_of_receipts dep =? 0)%nat eqn:Nr.
    { apply Nat.eqb_eq in Nr. exfalso. exact (receipts_counted w dep gs dgs Dd Egs (cert_filled gs [] g (occupied gs2) O dgs Egs) Nr). }
    set (n := Nat.max 2 (random 0%nat)).
    destruct (cert_file w (sch 0%nat) ks (Some key) (new_cluster b) (Some (Z.of_nat r)) before reg after' p gs [] g (occupied gs2) [] c0 HO (Iso 0%nat) U TE Se P O) with (doc := dep) (n := n)
      as (c2 & e1 & _ & E1 & CF1); try assumption; [constructor|constructor|].
    assert (verifyParsedDEP w (sch 0%nat) (parse_inc w P_file dep n) ks (Some key) c1 (Some (Z.of_nat r)) = (c2, Some e1)) as ->; [|now rewrite (Un _ CF1)].
    rewrite <- E1. unfold verifyParsedDEP. symmetry. exact (proj1 (selected_first _ _ _ _ _ G)).
Qed.

Lemma cert_fault_class w ks c chain e : cert_fault w ks c chain e -> classes e <> [].
Proof. intros []; discriminate. Qed.

Theorem first_test w say sch random x ks ks' b id key size devs i0 l d0 c0 qs e :
  hash_ok w -> aes_ok w -> pem_ok w -> (forall n, isolated (sch n)) ->
  identifier id -> List.length key = 32%nat -> (5 <= size <= 16)%nat ->
  test_rules w ks' size b true devs (i0 :: l) qs -> newest_in_use (i0 :: l) (owners 1 0 (i0 :: l)) ->
  nth_error devs (in_dev i0) = Some d0 -> dv_cert d0 = Some c0 -> cert_fault w ks c0 (dv_chain d0) e ->
  test_spec w say sch random x ks id key size true devs b (i0 :: l) = Ok (R_OK, None) <-> expects say x (Some e).
Proof.
  intros HO AO PO Iso Id Lk Sz TR Ne Hd Ec CF.
  destruct (runTest_accepted w ks' b id key size true devs (i0 :: l) qs HO AO PO Id Lk Sz TR Ne) as (deps & c & R & V & _).
  destruct TR as (_ & (i & r & Ei & En) & _ & _ & _ & _ & Tr & _). injection Ei as <- <-.
  destruct (Tr eq_refl i0 d0 (or_introl eq_refl) Hd) as [_ L].
  destruct (first_outcomes w sch random ks ks' b id key size devs i0 l d0 c0 deps c e HO PO Iso En Hd Ec L R V CF) as [E2 E3].
  rewrite spec_ok. split.
  - intros (_ & deps' & E & A & _). rewrite R in E. apply Ok_inj in E. subst deps'. rewrite E2 in A. destruct A as [(c' & X & _)|(e' & X & _ & A)]; [discriminate X|].
    injection X as <-. exact A.
  - intros X. split; [reflexivity|]. exists deps. split; [exact R|]. pose proof (proj1 (classes_verification e) (cert_fault_class _ _ _ _ _ CF)) as Ve.
    split; right; exists e; [rewrite E2|rewrite E3]; auto.
Qed.
