(** The two ways of verification agree, and verdicts are right. *)
From Coq Require Import Lia ZifyClasses ZifyNat ZifyBool.
From Verif Require Import PyBase World Codec PyFloat PyTime Algo Receipt ListFacts CodecFacts SpecReceipt ReceiptFacts
  DepBase Json Pem KeyStore VerifyReceipt State DepParser Verify SpecDep VerifyFacts StepFacts DepFacts SpecCluster ClusterFacts SeqFacts
  AcceptFacts DepTheorems PartsFacts SpecState StateFacts UpdateFacts ParFacts SpecChunks ChunkFacts DictFacts ParTheorems
  SpecDoc IncFacts IncDoc IncBack IncTheorems StateCliFacts SpecKeys DepExport SpecMerge SpecExport ExportFacts CashReg Override RunTest RunTestFacts SpecReceipt SpecKeys SpecCashReg SpecRunTest RunTestSeq SpecDiag DiagFacts TestVerify SpecTestVerify.
Open Scope N_scope.
Open Scope py_scope.

(** ** Comparisons *)

Lemma opt_eqb_refl {A} (f : A -> A -> bool) o : (forall x, f x x = true) -> opt_eqb f o o = true.
Proof. intros R. destruct o; cbn; auto. Qed.
Lemma list_eqb_refl {A} (f : A -> A -> bool) l : (forall x, f x x = true) -> list_eqb f l l = true.
Proof. intros R. induction l; cbn; [reflexivity|]. now rewrite R, IHl. Qed.
Lemma chunk_eqb_refl c : chunk_eqb c c = true.
Proof.
  apply list_eqb_refl. intros g. unfold dgroup_eqb. rewrite !list_eqb_refl, opt_eqb_refl by exact str_eqb_refl. reflexivity.
Qed.
Lemma reg_eqb_refl r : reg_eqb r r = true.
Proof. unfold reg_eqb. rewrite !opt_eqb_refl by exact str_eqb_refl. rewrite Z.eqb_refl, Bool.eqb_reflx. reflexivity. Qed.
Lemma used_eqb_refl u : used_eqb u u = true.
Proof.
  destruct u as [l|x y]; cbn [used_eqb].
  - assert (forallb (fun i => mem i l) l = true) as ->; [|reflexivity]. apply forallb_forall. intros i I. now apply mem_In.
  - rewrite !opt_eqb_refl by exact str_eqb_refl. reflexivity.
Qed.

Lemma zip_same l e : zip_equal l e l e = match e with Some x => Err x | None => Ok true end.
Proof. induction l as [|c l IH]; [reflexivity|]. cbn [zip_equal]. now rewrite chunk_eqb_refl. Qed.

(** ** One DEP *)

Lemma follow_after w key groups : forall reg p l u,
  Forall2 (denotes_item w) (flat_map g_recs groups) l -> past_of w reg p -> usual reg -> counter_rule w key (s_counter reg) l ->
  follow w key groups reg u = Ok (SeqFacts.after key reg p l, used_after u l).
Proof.
  assert (forall recs u l, Forall2 (denotes_item w) recs l -> add_ids w recs u = Ok (used_after u l)) as Ids.
  { induction recs as [|b recs IH]; intros u l F; inversion F as [|? i ? l' [E R] F']; subst; [reflexivity|]. cbn [add_ids].
    unfold expandDEPReceipt. rewrite E. cbn [catch bind]. assert (fromJWSString w (i_jws i) = Ok (i_rec i, lit "R1")) as -> by now apply parse_reads.
    cbn [bind fst]. now rewrite (IH _ _ F'). }
  induction groups as [|g groups IH]; intros reg p l u F P U C; cbn [flat_map] in F.
  - inversion F; subst. reflexivity.
  - apply Forall2_app_inv_l in F as (l1 & l2 & F1 & F2 & ->). apply counter_rule_app in C as [C1 C2]. cbn [follow].
    rewrite (update_after w key reg (g_recs g) l1 p F1 P U C1). cbn [bind]. rewrite (Ids _ _ _ F1). cbn [bind].
    assert (Forall (fun i => reads w (i_jws i) (i_rec i)) l1) as R.
    { clear -F1. induction F1 as [|b i bs l [_ R] F IH]; constructor; assumption. }
    rewrite after_app, used_after_app. apply IH; [exact F2|now apply past_after|now apply (usual_after w)|]. now rewrite counter_of_after.
Qed.

Lemma same_sizes w dep gs dgs sizes : dep_doc w dep gs -> plain_names dep -> Forall2 encoded gs dgs -> filled dgs <> [] ->
  Forall (fun n => 1 <= n)%nat sizes -> same_chunks w dep sizes = None.
Proof.
  intros D P E NE F. induction F as [|n sizes Hn F IH]; [reflexivity|]. cbn [same_chunks].
  rewrite (file_chunks w dep n gs dgs D P E NE).
  assert (parse_dict w 1 dep n = (inc_chunks n dgs, None)) as ->.
  { apply parse_dict_chunks. exists gs, dgs. split; [now apply doc_is|]. split; [exact E|]. split; [exact NE|].
    assert (effective_size 1 dep n = n) as ->.
    { unfold effective_size. destruct dep; reflexivity. }
    destruct n; [lia|reflexivity]. }
  cbn [fst snd]. rewrite zip_same. exact IH.
Qed.

Lemma once_get (d : list (str * json)) k v : once d k v -> dict_get d k = Some v.
Proof.
  intros (a & c & -> & N & _). induction a as [|[k' v'] a IH]; cbn [app dict_get].
  - now rewrite str_eqb_refl.
  - cbn [map fst] in N. destruct (str_eqb k' k) eqn:X; [apply str_eqb_eq in X; subst; exfalso; apply N; now left|]. apply IH. intros Y. apply N. now right.
Qed.

Lemma receipts_counted w dep gs dgs : dep_doc w dep gs -> Forall2 encoded gs dgs -> filled dgs <> [] -> number_of_receipts dep <> 0%nat.
Proof.
  intros (d & js & -> & O & F) E NE. cbn [number_of_receipts]. unfold totalRecsInDictDEP. rewrite (once_get _ _ _ O).
  clear O d. intros S. apply NE. clear NE. revert dgs E. induction F as [|j g js gs G F IH]; intros dgs E; inversion E as [|? dg ? dgs' Eg E']; subst; [reflexivity|].
  cbn [map list_sum] in S. change (nrecs_of j + list_sum (map nrecs_of js) = 0)%nat in S.
  destruct G as (d & sc & chain & -> & O1 & _). cbn [nrecs_of] in S. rewrite (once_get _ _ _ O1), map_length in S.
  destruct Eg as (Et & _). destruct (gr_texts g) eqn:Eg; [|cbn [List.length] in S; lia].
  rewrite <- filter_filled. cbn [filter]. unfold has_receipts at 1. destruct (g_recs dg); [|inversion Et]. rewrite filter_filled. apply IH; [cbn [List.length] in S; lia|exact E'].
Qed.

(** The register is selected before verification; this makes no difference. *)
Lemma selected_first c r c1 x body : getCashRegisterInfo c (Some (Z.of_nat r)) = (c1, Ok x) ->
  with_register c (Some (Z.of_nat r)) body = with_register c1 (Some (Z.of_nat r)) body
  /\ exists before reg after, selects c (Some (Z.of_nat r)) before reg after /\ r = List.length before
     /\ c1 = Cluster (before ++ reg :: after) (c_used c) /\ x = (start_of_last before, reg, c_used c)
     /\ selects c1 (Some (Z.of_nat r)) before reg after.
Proof.
  intros G. assert (exists before reg after, selects c (Some (Z.of_nat r)) before reg after /\ r = List.length before
     /\ c1 = Cluster (before ++ reg :: after) (c_used c) /\ x = (start_of_last before, reg, c_used c)
     /\ selects c1 (Some (Z.of_nat r)) before reg after) as H.
  { apply get_inv in G as (b & reg & a & S & -> & ->). exists b, reg, a. split; [exact S|].
    assert (r = List.length b) as Er.
    { inversion S as [? ? ? Ec Ei|? Ei _]; subst; [apply Nat2Z.inj; congruence|]. destruct Ei as [Ei|Ei]; [discriminate|]. apply Nat2Z.inj. congruence. }
    split; [exact Er|]. split; [reflexivity|]. split; [reflexivity|]. rewrite Er. apply sel_old. reflexivity. }
  split; [|exact H]. destruct H as (b & reg & a & S & Er & E1 & Ex & S1). unfold with_register. rewrite G, (get_selects _ _ _ _ _ S1), E1, Ex. reflexivity.
Qed.

Lemma sizes_positive nrecs n : nrecs <> 0%nat -> (1 <= n)%nat -> Forall (fun k => 1 <= k)%nat (chunk_sizes nrecs n).
Proof.
  intros N Hn. unfold chunk_sizes. destruct (nrecs <? 10)%nat.
  - apply Forall_app. split; [|constructor; [lia|constructor]]. apply Forall_forall. intros k K. apply in_seq in K. lia.
  - repeat constructor; lia.
Qed.

Lemma flat_filled dgs : flat_map g_recs (filled dgs) = flat_map g_recs dgs.
Proof.
  rewrite <- filter_filled. induction dgs as [|g dgs IH]; [reflexivity|]. cbn [filter flat_map]. unfold has_receipts at 1.
  destruct (g_recs g) eqn:E; [exact IH|]. cbn [flat_map]. now rewrite E, IH.
Qed.

Lemma encoded_items w ks gs dgs items : Forall2 encoded gs dgs -> Forall2 (text_item w) (dep_texts ks gs) items ->
  Forall2 (denotes_item w) (flat_map g_recs dgs) items.
Proof.
  intros E. revert items. induction E as [|g dg gs dgs (Et & _) E IH]; intros items F; [inversion F; subst; constructor|].
  unfold dep_texts in F. cbn [flat_map] in *. apply Forall2_app_inv_l in F as (l1 & l2 & F1 & F2 & ->). apply Forall2_app; [|exact (IH _ F2)].
  clear -Et F1. revert Et F1. generalize (verifier_of ks (gr_cert g)). intros v. generalize (gr_texts g) (g_recs dg). intros ts bs Et. revert l1.
  induction Et as [|t b ts bs H Et IH]; intros l1 F; inversion F as [|? i ? l1' (E1 & R & _) F']; subst; constructor; [|exact (IH _ F')].
  cbn [fst] in *. subst t. split; [now apply utf8_decode_encode|exact R].
Qed.

Lemma parsed_cases w sch random ks key c r dep : hash_ok w -> isolated sch -> usual_cluster c -> regular_dep w dep ->
  (exists c', verifyDEP w dep ks key c (Some (Z.of_nat r)) = (c', None) /\ verify_parsed w sch random ks key c r dep = inl c')
  \/ (exists c1 e e', verifyDEP w dep ks key c (Some (Z.of_nat r)) = (c1, Some e) /\ verify_parsed w sch random ks key c r dep = inr (T_raised e')).
Proof.
  intros HO Iso U (gs & D & P & Ce). unfold verify_parsed.
  destruct (getCashRegisterInfo c (Some (Z.of_nat r))) as [c1 [[[ps old] ids]|e]] eqn:G.
  2:{ right. exists c1, e, e. split; [|reflexivity]. unfold verifyDEP, with_register. rewrite G. reflexivity. }
  set (n := Nat.max 2 random). assert (1 <= n)%nat as Hn by lia. clearbody n.
  destruct (verifyDEP w dep ks key c (Some (Z.of_nat r))) as [c' [e|]] eqn:V.
  - right. exists c', e. destruct (number_of_receipts dep =? 0)%nat eqn:Nr; [eexists; split; reflexivity|]. apply Nat.eqb_neq in Nr.
    destruct (verifyParsedDEP w sch (parse_inc w P_file dep n) ks key c1 (Some (Z.of_nat r))) as [c2 [e'|]] eqn:Vp; [eauto|exfalso].
    assert (verifyParsedDEP w sch (parse_inc w P_file dep n) ks key c (Some (Z.of_nat r)) = (c2, None)) as Vp'.
    { unfold verifyParsedDEP in *. now rewrite (proj1 (selected_first _ _ _ _ _ G)). }
    assert (snd (parse_inc w P_file dep n) = None) as N.
    { unfold verifyParsedDEP in Vp'. apply with_register_Ok in Vp' as (b & reg & a & reg' & u' & Se & B & ->).
      destruct (usual_selected _ _ _ _ _ U Se) as [Ur Gu]. apply par_body_spec in B; tauto. }
    destruct (parse_inc w P_file dep n) as [cs x] eqn:E. cbn [snd] in N. subst x.
    apply file_exact in E as (gs' & dgs & D' & E & NE & ->); [|exact P].
    assert (gs' = gs) as -> by (apply (dep_is_fun w dep); now apply doc_is).
    pose proof (proj2 (parallel_chunks w sch dep gs dgs _ ks key c _ c2 HO Iso U (doc_is _ _ _ D) E NE (inc_faithful n dgs)) Ce Vp') as V'. congruence.
  - left. exists c'. split; [reflexivity|]. destruct (verifyDEP_parses _ _ _ _ _ _ _ V) as (gs' & dgs & D' & E & NE).
    rewrite (dep_is_fun _ _ _ _ D' (doc_is _ _ _ D)) in E. clear D' gs'.
    pose proof (receipts_counted w dep gs dgs D E NE) as Nr. rewrite (proj2 (Nat.eqb_neq _ _) Nr).
    pose proof (proj1 (parallel_chunks w sch dep gs dgs _ ks key c _ c' HO Iso U (doc_is _ _ _ D) E NE (inc_faithful n dgs)) V) as Vp.
    destruct (selected_first c r c1 (ps, old, ids) (par_body w sch ks key (inc_chunks n dgs, None)) G) as [Ew (b & reg & a & Se & Er & E1 & Ex & S1)].
    rewrite (file_chunks w dep n gs dgs D P E NE). unfold verifyParsedDEP in Vp |- *. rewrite Ew in Vp. rewrite Vp. clear Ew Vp.
    injection Ex as -> -> ->. rewrite (proj1 (unlimited w dep gs dgs D P E NE)). cbn [fst snd List.concat]. rewrite app_nil_r.
    apply verifyDEP_spec in V as (b' & reg0 & a' & reg' & p & items & Se' & (gs' & D' & _ & F & N) & Pa & V & Ra & ->); [|exact HO].
    destruct (selects_fun _ _ _ _ _ _ _ _ Se' Se) as (-> & -> & ->). rewrite (dep_is_fun _ _ _ _ D' (doc_is _ _ _ D)) in F.
    apply (encoded_items w ks gs dgs items E) in F. rewrite <- flat_filled in F.
    rewrite (follow_after w key (filled dgs) reg p items (c_used c) F Pa (proj1 (usual_selected _ _ _ _ _ U Se))) by (apply V).
    cbn [bind finished fst snd]. rewrite (same_sizes w dep gs dgs _ D P E NE (sizes_positive _ _ Nr Hn)).
    apply (register_after_iff _ _ _ _ _ _ _ _ V) in Ra. change (reg' = SeqFacts.after key reg p items) in Ra. subst reg'. rewrite Er.
    rewrite (get_selects _ _ _ _ _ (sel_old (Cluster (b ++ SeqFacts.after key reg p items :: a) (used_after (c_used c) items)) b (SeqFacts.after key reg p items) a eq_refl)).
    cbn [c_used c_regs]. rewrite reg_eqb_refl, used_eqb_refl. reflexivity.
Qed.

(** ** All DEPs *)

Theorem outcomes_alike w sch random ks key : hash_ok w -> (forall i, isolated (sch i)) -> forall deps, Forall (regular_dep w) deps ->
  forall c regs n, usual_cluster c -> alike (verify_deps w ks key c regs n deps) (parse_deps w sch random ks key c regs n deps).
Proof.
  intros HO Iso deps F. induction F as [|dep deps R F IH]; intros c regs n U; cbn [verify_deps parse_deps].
  - left. eauto.
  - destruct (dep_register regs n dep) as [[r n']|e]; [|right; right; eauto].
    destruct (parsed_cases w (sch (List.length regs)) (random (List.length regs)) ks key c r dep HO (Iso _) U R) as [(c' & V & ->)|(c1 & e & e' & V & ->)]; rewrite V; [|right; right; eauto].
    assert (usual_cluster c') as U' by (change c' with (fst (c', @None exn)); rewrite <- V; exact (proj2 (usual_closed w dep ks key c _ B_unique HO) U)).
    destruct (check_total dep c' r) as [o|] eqn:T; [|now apply IH]. unfold check_total in T. destruct (member dep k_total) as [[]|]; try discriminate T.
    destruct (nonzero f); [|discriminate]. destruct (py_round _) as [z|e]; [|injection T as <-; right; right; eauto].
    destruct (nth_error _ _); [|injection T as <-; right; right; eauto]. destruct (z =? _)%Z; [discriminate|]. injection T as <-. right. left. eauto.
Qed.

Lemma totals_alike w ks key b deps sch random : hash_ok w -> (forall i, isolated (sch i)) -> Forall (regular_dep w) deps ->
  alike (testVerify w ks key b deps) (parse_deps w sch random ks (Some key) (new_cluster b) [] 0 deps).
Proof. intros HO Iso F. apply outcomes_alike; auto. apply new_usual. Qed.

(** ** Verdicts *)

Definition is_base (c b : str) : bool := existsb (fun p => str_eqb (fst p) b && mem c (snd p)) class_tree.
Lemma is_base_spec c b : is_base c b = true <-> base_class c b.
Proof.
  unfold is_base, base_class. rewrite existsb_exists. split.
  - intros ((b' & l) & I & H). cbn [fst snd] in H. apply andb_true_iff in H as [H1 H2]. apply str_eqb_eq in H1. subst. apply mem_In in H2. eauto.
  - intros (l & I & H). exists (b, l). split; [exact I|]. cbn [fst snd]. rewrite str_eqb_refl. now apply mem_In.
Qed.

Fixpoint chain (l : list str) : bool :=
  match l with a :: (b :: _) as r => is_base a b && chain r | _ => true end.
Definition closed (l : list str) : bool := forallb (fun p => forallb (fun c => negb (mem c l) || mem (fst p) l) (snd p)) class_tree.

Lemma chain_derived l : forall h t, chain (h :: l) = true -> In t (h :: l) -> derived h t.
Proof.
  induction l as [|b l IH]; intros h t C [->|I]; try (now constructor); [destruct I|].
  cbn [chain] in C. apply andb_true_iff in C as [C1 C2]. apply is_base_spec in C1. eapply d_base; [exact C1|]. now apply IH.
Qed.

Lemma closed_derived l c a : closed l = true -> derived c a -> In c l -> In a l.
Proof.
  intros C D. induction D as [c|c b a (cs & I & Ic) D IH]; [auto|]. intros Il. apply IH. unfold closed in C. rewrite forallb_forall in C.
  specialize (C _ I). cbn [fst snd] in C. rewrite forallb_forall in C. specialize (C _ Ic). apply mem_In in Il. rewrite Il in C. now apply mem_In in C.
Qed.

Lemma classes_chain e : chain (classes e) = true /\ closed (classes e) = true.
Proof. destruct e; split; vm_compute; reflexivity. Qed.

Lemma classes_spec e t : classes e <> [] -> In t (classes e) <-> derived (hd [] (classes e)) t.
Proof.
  intros N. destruct (classes_chain e) as [C1 C2]. destruct (classes e) as [|h l]; [congruence|]. cbn [hd]. split; [now apply chain_derived|].
  intros D. apply (closed_derived (h :: l) h t C2 D). now left.
Qed.

Lemma classes_verification e : classes e <> [] <-> verification_exception e.
Proof.
  unfold verification_exception. split.
  - intros N. apply classes_spec; [exact N|]. apply mem_In. destruct e; cbn in N; try congruence; vm_compute; reflexivity.
  - intros D E. rewrite E in D. cbn [hd] in D. inversion D as [|? b ? (l & I & Ic) _]; subst. clear D. unfold class_tree in I. cbn [In] in I.
    repeat (destruct I as [I|I]; [injection I as <- <-; cbn [In] in Ic; repeat (destruct Ic as [Ic|Ic]; [discriminate Ic|]); exact Ic|]). exact I.
Qed.

Lemma judge_tail (say : exn -> str) x e m (P1 P2 : Prop) : P1 -> P2 ->
  (let text := say e in
   if match ex_msg x with Some m => negb (str_eqb text m) | None => false end then
     Ok (R_FAIL, Some (lit "Expected message " ++ quote (match ex_msg x with Some m => m | None => [] end)
                         ++ lit " but got " ++ quote text ++ lit " instead"))
   else match ex_regex x with
        | Some (p, f) => if f text then Ok (R_OK, None) else Ok (R_FAIL, Some (lit "Expected message matching " ++ quote p ++ lit " but got " ++ quote text ++ lit " instead"))
        | None => Ok (R_OK, None)
        end) = Ok (R_OK, m)
  <-> (P1 /\ P2 /\ (forall m, ex_msg x = Some m -> say e = m) /\ (forall p f, ex_regex x = Some (p, f) -> f (say e) = true)) /\ m = None.
Proof.
  intros H1 H2. cbv zeta. destruct (ex_msg x) as [m0|].
  - destruct (str_eqb (say e) m0) eqn:E; cbn [negb].
    2:{ split; [discriminate|]. intros [(_ & _ & H & _) _]. rewrite (H m0 eq_refl), str_eqb_refl in E. discriminate. }
    apply str_eqb_eq in E. destruct (ex_regex x) as [[p f]|].
    + destruct (f (say e)) eqn:Ef.
      * split; [intros H; apply Ok_inj in H; injection H as <-|now intros [_ ->]]. split; [|reflexivity]. split; [exact H1|]. split; [exact H2|].
        split; [intros; congruence|]. intros p' f' Ep. congruence.
      * split; [discriminate|]. intros [(_ & _ & _ & H) _]. specialize (H p f eq_refl). congruence.
    + split; [intros H; apply Ok_inj in H; injection H as <-|now intros [_ ->]]. split; [|reflexivity]. split; [exact H1|]. split; [exact H2|].
      split; [intros; congruence|]. intros p' f' Ep. congruence.
  - destruct (ex_regex x) as [[p f]|].
    + destruct (f (say e)) eqn:Ef.
      * split; [intros H; apply Ok_inj in H; injection H as <-|now intros [_ ->]]. split; [|reflexivity]. split; [exact H1|]. split; [exact H2|].
        split; [intros; congruence|]. intros p' f' Ep. congruence.
      * split; [discriminate|]. intros [(_ & _ & _ & H) _]. specialize (H p f eq_refl). congruence.
    + split; [intros H; apply Ok_inj in H; injection H as <-|now intros [_ ->]]. split; [|reflexivity]. split; [exact H1|]. split; [exact H2|].
      split; [intros; congruence|]. intros p' f' Ep. congruence.
Qed.

Lemma judge_ok say x a m : (forall e, a = Some e -> classes e <> []) -> judge say x a = Ok (R_OK, m) <-> expects say x a /\ m = None.
Proof.
  intros N. unfold judge. destruct a as [e|]; cbn [expects].
  - specialize (N e eq_refl). set (t := match ex_type x with Some t => t | None => no_exception end).
    assert (In no_exception (classes e) -> False) as NN.
    { intros I. apply mem_In in I. revert I. clear. destruct e; vm_compute; discriminate. }
    assert (negb (str_eqb (hd [] (classes e)) t) && negb (mem t (classes e)) = negb (mem t (classes e))) as ->.
    { destruct (str_eqb (hd [] (classes e)) t) eqn:E; [|reflexivity]. apply str_eqb_eq in E. assert (mem t (classes e) = true) as ->; [|reflexivity].
      apply mem_In. rewrite <- E. destruct (classes e); [congruence|now left]. }
    assert (mem t (classes e) = true <-> exists t', ex_type x = Some t' /\ derived (hd [] (classes e)) t') as Mt.
    { rewrite mem_In. unfold t. destruct (ex_type x) as [t'|].
      - rewrite (classes_spec e t' N). split; [eauto|]. intros (t2 & E & H). apply Some_inj in E. now subst.
      - split; [intros I; exfalso; exact (NN I)|]. intros (t2 & E & _). discriminate. }
    destruct (mem t (classes e)); cbn [negb].
    2:{ split; [discriminate|]. intros [[H _] _]. apply Mt in H. discriminate. }
    assert (forall r, truthy (ex_receipt x) = Some r <-> ex_receipt x = Some r /\ r <> []) as Tr.
    { intros r. destruct (ex_receipt x) as [[|a l]|]; cbn.
      - split; [discriminate|]. intros [H K]. apply Some_inj in H. congruence.
      - split; [intros H; apply Some_inj in H; subst; split; [reflexivity|discriminate]|now intros [H _]].
      - split; [discriminate|]. now intros [H _]. }
    destruct (truthy (ex_receipt x)) as [r|] eqn:T.
    + destruct (proj1 (Tr r) eq_refl) as [Er Nr]. destruct (exn_receipt e) as [r'|] eqn:Ee; cbn [bind].
      2:{ split; [discriminate|]. intros [(_ & H & _) _]. specialize (H r Er Nr). congruence. }
      destruct (str_eqb r' r) eqn:Es.
      2:{ split; [discriminate|]. intros [(_ & H & _) _]. specialize (H r Er Nr). apply Some_inj in H. subst. rewrite str_eqb_refl in Es. discriminate. }
      apply str_eqb_eq in Es. subst r'. apply judge_tail; [now apply Mt|]. intros r2 E2 _. congruence.
    + cbn [bind]. apply judge_tail; [now apply Mt|]. intros r E2 Nr. assert (None = Some r) as X by (apply Tr; auto). discriminate.
  - destruct (ex_type x) as [t|]; cbn [negb]; rewrite ?andb_true_r.
    + destruct (str_eqb no_exception t) eqn:E; cbn [negb].
      * apply str_eqb_eq in E. subst t. split; [intros H; apply Ok_inj in H; injection H as <-; auto|]. now intros [_ ->].
      * split; [discriminate|]. intros [-> _]. rewrite str_eqb_refl in E. discriminate.
    + rewrite str_eqb_refl. cbn [negb]. split; [intros H; apply Ok_inj in H; injection H as <-; auto|]. now intros [_ ->].
Qed.

Lemma conclude_ok say x o m : conclude say x o = Ok (R_OK, m) <-> as_expected say x o /\ m = None.
Proof.
  unfold as_expected. destruct o; cbn [conclude].
  1:{ rewrite judge_ok by discriminate. split.
    - intros [H ->]. split; [|reflexivity]. left. eauto.
    - intros [[(c' & _ & H)|(e & E & _)] ->]; [|discriminate]. auto. }
  1:{ destruct (classes e) as [|h l] eqn:Ec.
    - split; [discriminate|]. intros [[(c' & E & _)|(e' & E & V & _)] _]; [discriminate|]. injection E as <-. now apply classes_verification in V.
    - assert (classes e <> []) as N by (rewrite Ec; discriminate). rewrite judge_ok by (intros e' E; injection E as <-; exact N). split.
      + intros [H ->]. split; [|reflexivity]. right. exists e. split; [reflexivity|]. split; [now apply classes_verification|exact H].
      + intros [[(c' & E & _)|(e' & E & _ & H)] ->]; [discriminate|]. injection E as <-. auto. }
  all: split; [discriminate|]; intros [[(c' & E & _)|(e' & E & _)] _]; discriminate E.
Qed.

Theorem both_ok w say sch random x ks key b deps m : test_both w say sch random x ks key b deps = Ok (R_OK, m) <->
  as_expected say x (testVerify w ks key b deps)
  /\ as_expected say x (parse_deps w sch random ks (Some key) (new_cluster b) [] 0 deps) /\ m = None.
Proof.
  unfold test_both. generalize (testVerify w ks key b deps) (parse_deps w sch random ks (Some key) (new_cluster b) [] 0 deps). intros o o'. split.
  - intros (rn & En & (rp & Ep & H)%bind_Ok)%bind_Ok. destruct rn as [r1 m1], rp as [r2 m2]. cbn [fst snd] in H.
    destruct (res_eqb r1 r2 && str_eqb (shown m1) (shown m2)) eqn:B.
    + apply Ok_inj in H. injection H as -> ->. apply andb_true_iff in B as [B _]. destruct r2; try discriminate B.
      apply conclude_ok in En as [A ->]. apply conclude_ok in Ep as [A' _]. auto.
    + exfalso. apply Ok_inj in H. destruct r1, r2; discriminate H.
  - intros (A & A' & ->). rewrite (proj2 (conclude_ok say x o None) (conj A eq_refl)), (proj2 (conclude_ok say x o' None) (conj A' eq_refl)). reflexivity.
Qed.

Theorem spec_ok w say sch random x ks id key size multi devs b l m : test_spec w say sch random x ks id key size multi devs b l = Ok (R_OK, m) <->
  m = None /\ exists deps, runTest w id key size multi devs l = Ok deps
    /\ as_expected say x (testVerify w ks key b deps)
    /\ as_expected say x (parse_deps w sch random ks (Some key) (new_cluster b) [] 0 deps).
Proof.
  unfold test_spec. destruct (runTest w id key size multi devs l) as [deps|e].
  - rewrite both_ok. split; [intros (A & B & ->); eauto|]. intros (-> & deps' & E & A & B). apply Ok_inj in E. subst. auto.
  - split; [discriminate|]. intros (_ & deps & E & _). discriminate.
Qed.

(** ** The DEPs of a test *)

Definition exported (w : world) (dep : json) : Prop := exists gs extra, export w (gs, None) extra = Ok dep /\ extra_ok extra.

Lemma key_plain k : In k [k_total; k_previous; k_continued] -> k <> k_bg /\ k <> [] /\ ~ In c_dot k.
Proof.
  intros [<-|[<-|[<-|[]]]]; (split; [vm_compute; discriminate|split; [vm_compute; discriminate|]]); intros I; vm_compute in I; repeat (destruct I as [I|I]; [discriminate I|]); exact I.
Qed.

Lemma all_extra_ok st : extra_ok (gn_extra st) -> extra_ok (all_extra st).
Proof.
  intros E. apply Forall_app. split; [exact E|]. destruct (number (gn_expected st)); [|constructor]. constructor; [|constructor]. apply key_plain. now left.
Qed.

Lemma step_exported w id key size multi devs st i st' : gen_step w id key size multi devs st i = Ok st' ->
  extra_ok (gn_extra st) /\ Forall (exported w) (gn_deps st) -> extra_ok (gn_extra st') /\ Forall (exported w) (gn_deps st').
Proof.
  unfold gen_step. intros (d & _ & (s1 & E1 & (s2 & E2 & (s3 & E3 & E4)%bind_Ok)%bind_Ok)%bind_Ok)%bind_Ok H.
  assert (extra_ok (gn_extra s1) /\ Forall (exported w) (gn_deps s1)) as H1.
  { unfold new_in_cluster in E1. destruct (in_new i); try (apply Ok_inj in E1; now subst). destruct (truthy _); [|apply Ok_inj in E1; now subst].
    apply bind_Ok in E1 as (g & _ & E1). apply Ok_inj in E1. now subst. }
  assert (extra_ok (gn_extra s2) /\ Forall (exported w) (gn_deps s2)) as H2.
  { unfold end_group in E2. destruct (if multi then _ else _).
    - destruct (_ || _)%bool; [|apply Ok_inj in E2; now subst]. apply bind_Ok in E2 as (g & _ & E2). apply Ok_inj in E2. now subst.
    - apply Ok_inj in E2. subst s2. now destruct (in_new i). }
  assert (extra_ok (gn_extra s3) /\ Forall (exported w) (gn_deps s3)) as H3.
  { unfold end_dep in E3. destruct (in_new i); [apply Ok_inj in E3; now subst| |];
      apply bind_Ok in E3 as (dep & Ed & (r2d & _ & ([[reg cur] extra] & En & E3)%bind_Ok)%bind_Ok); apply Ok_inj in E3; subst s3; cbn [gn_deps gn_extra];
      (split; [|apply Forall_app; split; [apply H2|]; constructor; [|constructor]; exists (gn_groups s2), (all_extra s2); split; [exact Ed|]; apply all_extra_ok, H2]);
      destruct (in_cont i);
      repeat match goal with H : bind _ _ = Ok _ |- _ => apply bind_Ok in H as (? & _ & H) end;
      apply Ok_inj in En; injection En as _ _ <-; repeat constructor; cbn [fst]; apply key_plain; cbn [In]; auto. }
  unfold add_receipt in E4. apply bind_Ok in E4 as (g & _ & E4). destruct (issue_over _ _ _ _ _) as [g' r]. apply bind_Ok in E4 as (rec & _ & E4).
  destruct (truthy _); [apply Ok_inj in E4; now subst|]. apply bind_Ok in E4 as (jws & _ & E4). apply Ok_inj in E4. now subst.
Qed.

Theorem runTest_exported w id key size multi devs l deps : runTest w id key size multi devs l = Ok deps -> Forall (exported w) deps.
Proof.
  intros (g & _ & (st & E & H)%bind_Ok)%bind_Ok.
  assert (forall st0, extra_ok (gn_extra st0) /\ Forall (exported w) (gn_deps st0) -> gen_loop w id key size multi devs st0 l = Ok st ->
    extra_ok (gn_extra st) /\ Forall (exported w) (gn_deps st)) as L.
  { clear. induction l as [|i l IH]; intros st0 I E; cbn [gen_loop] in E; [apply Ok_inj in E; now subst|].
    apply bind_Ok in E as (s1 & E1 & E). exact (IH s1 (step_exported _ _ _ _ _ _ _ _ _ E1 I) E). }
  pose proof (fun I => L _ I E) as L'. destruct L' as [X F]; [split; constructor|]. unfold gen_end in H. apply bind_Ok in H as (st' & E' & (dep & Ed & H)%bind_Ok).
  assert (gn_extra st' = gn_extra st /\ gn_deps st' = gn_deps st) as [E1 E2].
  { destruct multi; [destruct (gn_sig st); [apply bind_Ok in E' as (d & _ & E')|discriminate]|]; apply Ok_inj in E'; subst st'; split; reflexivity. }
  apply Ok_inj in H. subst deps. rewrite E2. apply Forall_app. split; [exact F|]. constructor; [|constructor]. exists (gn_groups st'), (all_extra st').
  split; [exact Ed|]. apply all_extra_ok. now rewrite E1.
Qed.

Lemma exported_doc w dep gs : exported w dep -> dep_is w dep gs -> dep_doc w dep gs /\ plain_names dep.
Proof.
  intros (rgs & extra & E & X) (d & js & Ed & G & F). unfold export in E. cbn [fst snd] in E. apply bind_Ok in E as (js' & M & E). apply Ok_inj in E.
  assert (Forall (fun kv : str * json => fst kv <> k_bg) extra) as X1 by (eapply Forall_impl; [|exact X]; now intros ? []).
  destruct (extra_spec (JList js') extra X1) as (rest & Ew & Hr). rewrite <- E in Ed. rewrite Ew in Ed. injection Ed as <-.
  cbn [dict_get] in G. rewrite str_eqb_refl in G. injection G as ->.
  assert (~ In k_bg (map fst rest)) as Nr.
  { intros H. apply Hr in H. apply in_map_iff in H as (kv & Ek & H). rewrite Forall_forall in X1. now apply (X1 kv H). }
  assert (Forall (fun j => exists g ts, j = JDict (group_json w g ts)) js) as J.
  { apply mapM_Ok in M. clear -M. induction M as [|g j gs js E M IH]; constructor; [|exact IH]. unfold exportGroup in E. apply bind_Ok in E as (ts & _ & E).
    apply Ok_inj in E. subst j. now exists g, ts. }
  rewrite <- E, Ew. split.
  - exists ((k_bg, JList js) :: rest), js. split; [reflexivity|]. split; [now apply once_here|]. clear -F J.
    induction F as [|j g js gs (d & jr & sc & chain & Ej & G1 & El & G2 & C & G3 & Ch) F IH]; constructor; [|exact (IH (Forall_inv_tail J))].
    destruct (Forall_inv J) as (g0 & ts & Ej'). rewrite Ej in Ej'. injection Ej' as ->. exists (group_json w g0 ts), sc, chain.
    cbn [group_json dict_get] in G1, G2, G3.
    assert (str_eqb k_cert k_recs = false /\ str_eqb k_certs k_recs = false /\ str_eqb k_cert k_certs = false) as (B1 & B2 & B3) by (vm_compute; auto).
    rewrite B1, B2, str_eqb_refl in G1. rewrite str_eqb_refl in G2. rewrite B3, str_eqb_refl in G3.
    assert (k_cert <> k_recs /\ k_certs <> k_recs /\ k_cert <> k_certs) as (N1 & N2 & N3) by (repeat split; intros Q; rewrite Q, str_eqb_refl in *; discriminate).
    assert (map JStr ts = map JStr (gr_texts g)) as Et.
    { apply Some_inj in G1. subst jr. destruct El as [El|[(s & El & _)|(d & El & _)]]; [now injection El as <-|discriminate El|discriminate El]. }
    split; [exact Ej|]. split; [|split; [|split; [exact C|split; [|exact Ch]]]]; unfold group_json.
    + rewrite Et. apply once_later; [exact N1|]. apply once_later; [exact N2|]. apply once_here. intros [].
    + apply Some_inj in G2. rewrite G2. apply once_here. cbn [map fst]. intros [Q|[Q|[]]]; congruence.
    + apply Some_inj in G3. rewrite G3. apply once_later; [exact N3|]. apply once_here. cbn [map fst]. intros [Q|[]]; congruence.
  - intros d Ed. injection Ed as <-. split.
    + constructor; [exact k_bg_plain|]. apply Forall_forall. intros kv H.
      assert (In (fst kv) (map fst extra)) as H' by (apply Hr; now apply in_map).
      apply in_map_iff in H' as (kv' & Ek & H'). unfold extra_ok in X. rewrite Forall_forall in X. specialize (X kv' H').
      rewrite Ek in X. unfold dot_free. tauto.
    + intros js' I g Hg. assert (js' = js) as ->.
      { destruct I as [I|I]; [now injection I as ->|]. exfalso. apply Nr. now apply (in_map fst _ (k_bg, JList js')). }
      rewrite Forall_forall in J. destruct (J _ Hg) as (g0 & ts & Eg). injection Eg as ->. apply group_names_plain.
Qed.

Lemma exported_regular w dep ks key c idx c' : hash_ok w -> exported w dep -> verifyDEP w dep ks key c idx = (c', None) -> regular_dep w dep.
Proof.
  intros HO X V. apply verifyDEP_spec in V as (b & reg & a & reg' & p & items & _ & (gs & D & T & _) & _); [|exact HO].
  destruct (exported_doc w dep gs X D) as [D' P]. exists gs. split; [exact D'|]. split; [exact P|]. destruct T as [T|(g & E & _)].
  - left. eapply Forall_impl; [|exact T]. cbn beta. intros g (x & E & _). rewrite E. discriminate.
  - right. now rewrite E.
Qed.

Theorem exported_same w sch random ks key : hash_ok w -> (forall i, isolated (sch i)) -> forall deps, Forall (exported w) deps ->
  forall c regs n, usual_cluster c -> (forall e, verify_deps w ks key c regs n deps <> T_raised e) ->
  parse_deps w sch random ks key c regs n deps = verify_deps w ks key c regs n deps.
Proof.
  intros HO Iso deps F. induction F as [|dep deps R F IH]; intros c regs n U NR; cbn [verify_deps parse_deps] in *; [reflexivity|].
  destruct (dep_register regs n dep) as [[r n']|e]; [|reflexivity].
  destruct (verifyDEP w dep ks key c (Some (Z.of_nat r))) as [c' [e|]] eqn:V; [exfalso; exact (NR e eq_refl)|].
  destruct (parsed_cases w (sch (List.length regs)) (random (List.length regs)) ks key c r dep HO (Iso _) U (exported_regular w dep ks key c _ c' HO R V))
    as [(c2 & V2 & ->)|(c1 & e & e' & V2 & _)]; [|congruence].
  assert (c2 = c') as -> by congruence.
  assert (usual_cluster c') as U' by (change c' with (fst (c', @None exn)); rewrite <- V; exact (proj2 (usual_closed w dep ks key c _ B_unique HO) U)).
  destruct (check_total dep c' r) as [o|]; [reflexivity|]. now apply IH.
Qed.

Theorem tests_pass w say sch random x ks id key size multi devs b l deps c : hash_ok w -> (forall i, isolated (sch i)) -> ex_type x = None ->
  runTest w id key size multi devs l = Ok deps -> testVerify w ks key b deps = T_ok c ->
  parse_deps w sch random ks (Some key) (new_cluster b) [] 0 deps = T_ok c
  /\ test_spec w say sch random x ks id key size multi devs b l = Ok (R_OK, None).
Proof.
  intros HO Iso Ex R T.
  assert (parse_deps w sch random ks (Some key) (new_cluster b) [] 0 deps = T_ok c) as P.
  { rewrite <- T. apply exported_same; [exact HO|exact Iso|exact (runTest_exported _ _ _ _ _ _ _ _ R)|apply new_usual|].
    intros e E. unfold testVerify in T. congruence. }
  split; [exact P|]. apply spec_ok. split; [reflexivity|]. exists deps. split; [exact R|]. rewrite T, P.
  assert (as_expected say x (T_ok c)) as A by (left; exists c; split; [reflexivity|]; cbn [expects]; now rewrite Ex). auto.
Qed.

(** ** Tests that expect an exception *)

Definition readable_cluster (w : world) (c : cluster) : Prop :=
  Forall (fun reg => (exists p, past_of w reg p) /\ start_readable w (s_start reg)) (c_regs c).

Lemma readable_after w dep ks key c idx c' : hash_ok w -> readable_cluster w c -> verifyDEP w dep ks key c idx = (c', None) -> readable_cluster w c'.
Proof.
  intros HO R V. apply verifyDEP_spec in V as (b & reg & a & reg' & p & items & Se & (gs & _ & _ & F & N) & P & V & Ra & ->); [|exact HO].
  assert (Forall (fun i => reads w (i_jws i) (i_rec i)) items) as Fr.
  { clear -F. induction F as [|t i ts is (E & Rd & _) F IH]; constructor; [now rewrite E|exact IH]. }
  assert (Forall (fun reg => (exists p, past_of w reg p) /\ start_readable w (s_start reg)) (b ++ a) /\ start_readable w (s_start reg)) as [R1 R2].
  { inversion Se as [? ? ? E E1|? E1 E2]; subst.
    - unfold readable_cluster in R. rewrite E in R. apply Forall_app in R as [R1 R2]. apply Forall_cons_iff in R2 as [[_ R2] R3]. split; [now apply Forall_app|exact R2].
    - rewrite app_nil_r. split; [exact R|]. exists None. now left. }
  apply Forall_app in R1 as [R1 R3]. apply Forall_app. split; [exact R1|]. constructor; [|exact R3]. clear R1 R3. cbn [c_regs].
  pose proof (proj1 (register_after_iff _ _ _ _ _ _ _ _ V) Ra) as Ea. change (reg' = SeqFacts.after key reg p items) in Ea. split.
  - exists (last_of p items). rewrite Ea. now apply past_after.
  - destruct (exists_last N) as (m & i & Em). destruct Ra as [_ Ra]. destruct (Ra m i Em) as (_ & S1 & S2 & _). destruct p as [q|].
    + rewrite S2 by discriminate. exact R2.
    + destruct items as [|j items]; [congruence|]. rewrite (S1 eq_refl j items eq_refl). apply Forall_inv in Fr. exists (Some (i_jws j, i_rec j)).
      split; [reflexivity|]. split; [exact (reads_nonempty _ _ _ Fr)|exact Fr].
Qed.

Lemma start_before w c idx before reg after_ : readable_cluster w c -> selects c idx before reg after_ ->
  start_readable w (start_of_last before) /\ exists p, past_of w reg p.
Proof.
  intros R Se. assert (Forall (fun reg => (exists p, past_of w reg p) /\ start_readable w (s_start reg)) before /\ exists p, past_of w reg p) as [R1 R2].
  { inversion Se as [? ? ? E E1|? E1 E2]; subst.
    - unfold readable_cluster in R. rewrite E in R. apply Forall_app in R as [R1 R2]. apply Forall_cons_iff in R2 as [[R2 _] _]. auto.
    - split; [exact R|]. exists None. now left. }
  split; [|exact R2]. destruct before as [|x l _] using rev_ind; [exists None; now left|]. rewrite start_of_last_app.
  apply Forall_app in R1 as [_ R1]. apply Forall_inv in R1. apply R1.
Qed.

Lemma raised_at w ks key deps : hash_ok w -> forall c0 regs n e, readable_cluster w c0 -> classes e <> [] ->
  verify_deps w ks key c0 regs n deps = T_raised e ->
  exists l1 dep l2 c r c1, deps = l1 ++ dep :: l2 /\ verify_deps w ks key c0 regs n l1 = T_ok c /\ readable_cluster w c
    /\ verifyDEP w dep ks key c (Some (Z.of_nat r)) = (c1, Some e).
Proof.
  intros HO. induction deps as [|dep deps IH]; intros c0 regs n e R N H; cbn [verify_deps] in H; [discriminate|].
  destruct (dep_register regs n dep) as [[r n']|x] eqn:D.
  2:{ exfalso. injection H as ->. unfold dep_register in D. destruct (member dep k_continued) as [[| [] | | | | |]|]; try discriminate D.
      destruct (member dep k_previous) as [[]|]; try (injection D as <-; now apply N). destruct (_ <? 0)%Z; [injection D as <-; now apply N|].
      unfold item_at in D. destruct (nth_error _ _); [discriminate|]. injection D as <-. now apply N. }
  destruct (verifyDEP w dep ks key c0 (Some (Z.of_nat r))) as [c' [x|]] eqn:V.
  - injection H as ->. exists [], dep, deps, c0, r, c'. auto.
  - destruct (check_total dep c' r) as [o|] eqn:T.
    + exfalso. subst o. unfold check_total in T. destruct (member dep k_total) as [[]|]; try discriminate T.
      destruct (nonzero f); [|discriminate T]. destruct (py_round _) as [z|x] eqn:Ro.
      2:{ injection T as ->. apply N. unfold py_round in Ro. destruct (fmul f f100); try (injection Ro as <-; reflexivity); discriminate Ro. }
      destruct (nth_error _ _); [destruct (z =? _)%Z; discriminate T|]. injection T as <-. now apply N.
    + destruct (IH c' (regs ++ [r]) n' e (readable_after _ _ _ _ _ _ _ HO R V) N H) as (l1 & dep1 & l2 & c & r1 & c1 & -> & H1 & Rc & H2).
      exists (dep :: l1), dep1, l2, c, r1, c1. split; [reflexivity|]. split; [|auto]. cbn [verify_deps]. rewrite D, V, T. exact H1.
Qed.

Theorem passed_fault w say sch random x ks id key size multi devs b l m t : hash_ok w ->
  ex_type x = Some t -> t <> lit "no Exception" ->
  test_spec w say sch random x ks id key size multi devs b l = Ok (R_OK, m) ->
  exists l1 dep l2 c r c1 e, runTest w id key size multi devs l = Ok (l1 ++ dep :: l2)
    /\ testVerify w ks key b l1 = T_ok c
    /\ verifyDEP w dep ks (Some key) c (Some (Z.of_nat r)) = (c1, Some e)
    /\ expects say x (Some e)
    /\ forall gs, dep_is w dep gs -> texts_encodable ks gs ->
       exists before reg after p, selects c (Some (Z.of_nat r)) before reg after /\ past_of w reg p
         /\ diagnosis w ks (Some key) (start_of_last before) reg (c_used c) p gs e.
Proof.
  intros HO Et Nt H. apply spec_ok in H as (_ & deps & R & A & _). destruct A as [(c & _ & A)|(e & T & Ve & A)].
  { exfalso. cbn [expects] in A. rewrite Et in A. congruence. }
  apply classes_verification in Ve. unfold testVerify in T.
  destruct (raised_at w ks (Some key) deps HO (new_cluster b) [] 0 e ltac:(constructor) Ve T) as (l1 & dep & l2 & c & r & c1 & -> & T1 & Rc & V).
  exists l1, dep, l2, c, r, c1, e. split; [exact R|]. split; [exact T1|]. split; [exact V|]. split; [exact A|]. intros gs D En.
  destruct (getCashRegisterInfo c (Some (Z.of_nat r))) as [c2 [info|x0]] eqn:G.
  - apply get_inv in G as (before & reg & after_ & Se & _). destruct (start_before w c _ before reg after_ Rc Se) as [St (p & P)].
    exists before, reg, after_, p. split; [exact Se|]. split; [exact P|]. exact (verifyDEP_diag w dep gs ks (Some key) c _ before reg after_ p c1 e HO D En Se P St V).
  - exfalso. assert (x0 = e) as <-. { unfold verifyDEP, with_register in V. rewrite G in V. cbn [bind] in V. now injection V. }
    apply Ve. clear -G. unfold getCashRegisterInfo in G.
    match type of G with context [match (if ?b then ?a else ?d) with _ => _ end] => destruct (if b then a else d) as [c3|y] eqn:A end.
    2:{ injection G as _ <-. destruct (Z.of_nat r =? _)%Z; [|discriminate]. unfold addNewCashRegister in A. destruct (rev _); [discriminate|].
        destruct (truthy _); [discriminate|]. now injection A as <-. }
    destruct (_ || _)%bool; [now injection G as _ <-|]. destruct (nth_error _ _); [discriminate|]. now injection G as _ <-.
Qed.

(** ** Tests that expect no exception *)

Theorem positive_verdict w say sch random x ks id key size multi devs b l m : hash_ok w -> (forall i, isolated (sch i)) -> ex_type x = None ->
  test_spec w say sch random x ks id key size multi devs b l = Ok (R_OK, m) <->
  m = None /\ exists deps c, runTest w id key size multi devs l = Ok deps /\ testVerify w ks key b deps = T_ok c.
Proof.
  intros HO Iso Ex. split.
  - intros (-> & deps & R & [(c & T & _)|(e & _ & _ & (t & Et & _) & _)] & _)%spec_ok; [eauto|congruence].
  - intros (-> & deps & c & R & T). exact (proj2 (tests_pass w say sch random x ks id key size multi devs b l deps c HO Iso Ex R T)).
Qed.

Theorem rules_pass w say sch random x ks b id key size multi devs l qs : hash_ok w -> aes_ok w -> pem_ok w ->
  identifier id -> List.length key = 32%nat -> (5 <= size <= 16)%nat ->
  test_rules w ks size b multi devs l qs -> newest_in_use l (owners 1 0 l) ->
  (forall i, isolated (sch i)) -> ex_type x = None ->
  test_spec w say sch random x ks id key size multi devs b l = Ok (R_OK, None).
Proof.
  intros HO AO PO I K Sz T N Iso Ex. destruct (runTest_accepted w ks b id key size multi devs l qs HO AO PO I K Sz T N) as (deps & c & R & V & _).
  apply positive_verdict; eauto.
Qed.

(** ** The receipts that exceptions name *)

Lemma exn_receipt_class e : (exists r, exn_receipt e = Some r) <->
  derived (hd [] (classes e)) (lit "ReceiptException") \/ derived (hd [] (classes e)) (lit "DEPReceiptException")
  \/ hd [] (classes e) = lit "DuplicateReceiptIdException".
Proof.
  assert (forall t, (In t (classes e) -> derived (hd [] (classes e)) t) /\ (t <> [] -> derived (hd [] (classes e)) t -> In t (classes e))) as C.
  { intros t. destruct (classes e) as [|h l] eqn:E.
    - split; [intros []|]. intros N D. cbn [hd] in D. inversion D as [|? b ? (m & B & X) _]; subst; [congruence|]. exfalso.
      repeat (destruct B as [B|B]; [injection B as <- <-; repeat (destruct X as [X|X]; [discriminate X|]); exact X|]). exact B.
    - assert (classes e <> []) as N by (rewrite E; discriminate). pose proof (classes_spec e t N) as S. rewrite E in S. split; [apply S|]. intros _. apply S. }
  split.
  - intros (r & E). assert (In (lit "ReceiptException") (classes e) \/ In (lit "DEPReceiptException") (classes e) \/ hd [] (classes e) = lit "DuplicateReceiptIdException") as [X|[X|X]];
      [|left; exact (proj1 (C _) X)|right; left; exact (proj1 (C _) X)|now right; right].
    destruct e; try discriminate E; cbn [classes]; first [left; cbn; tauto|right; left; cbn; tauto|right; right; reflexivity].
  - intros [X|[X|X]]; [apply (proj2 (C _)) in X; [|discriminate]|apply (proj2 (C _)) in X; [|discriminate]|];
      clear C; destruct e; cbn [classes] in X; try (eexists; reflexivity); exfalso; cbn in X; repeat (destruct X as [X|X]; [discriminate X|]); first [discriminate X|exact X].
Qed.

Lemma fault_receipt w key ps reg u p i e : fault w key ps reg u p i e -> verification_exception e ->
  exn_receipt e = Some (r_receiptId (i_rec i)) \/ e = ClusterInOpenSystem.
Proof.
  intros F V. destruct F; try (left; reflexivity); try (right; reflexivity).
  all: exfalso; unfold verification_exception in V.
  all: repeat match goal with H : _ \/ _ |- _ => destruct H as [-> | ->] end; cbn [classes hd] in V.
  all: inversion V as [|? b ? (m & B & X) _]; subst.
  all: repeat (destruct B as [B|B]; [injection B as <- <-; repeat (destruct X as [X|X]; [discriminate X|]); exact X|]); exact B.
Qed.
