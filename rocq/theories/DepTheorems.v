(** What acceptance of a DEP means, property by property. *)
From Verif Require Import PyBase World Codec PyFloat PyTime Algo Receipt ListFacts CodecFacts CodecFacts2 SpecReceipt ReceiptFacts
  RoundTrip DepBase Json Pem KeyStore VerifyReceipt State DepParser Verify SpecDep SpecCluster VerifyFacts StepFacts
  DepFacts ClusterFacts AcceptFacts SeqFacts.
From Coq Require Import Lia.
Open Scope N_scope.
Open Scope py_scope.

Lemma text_items_read w ks gs items :
  Forall2 (text_item w) (dep_texts ks gs) items -> Forall (fun i => reads w (i_jws i) (i_rec i)) items.
Proof. induction 1 as [|t i ts l (E & R & _) F IH]; constructor; [now rewrite E|assumption]. Qed.

(** ** Chaining *)

Lemma effective_text w ps p q i : effective_past w ps p q ->
  match q with Some (s, _) => s | None => r_registerId (i_rec i) end = predecessor_text ps p i.
Proof.
  unfold effective_past, predecessor_text. destruct p as [[s r]|]; [now intros ->|].
  destruct q as [[s r]|]; cbn.
  - intros (-> & N & _). destruct s; [congruence|]. reflexivity.
  - intros H. apply absent_truthy in H. now rewrite H.
Qed.

Lemma chaining w dep ks key c idx c' : hash_ok w ->
  verifyDEP w dep ks key c idx = (c', None) ->
  exists before reg after items p,
    selects c idx before reg after /\ dep_items w ks dep items /\ past_of w reg p /\ items <> []
    /\ (forall l1 a b l2, items = l1 ++ a :: b :: l2 -> chain_value w (i_jws a) (r_previousChain (i_rec b)))
    /\ (forall i r, items = i :: r ->
          match truthy (s_chain reg) with
          | Some v => r_previousChain (i_rec i) = v
          | None => chain_value w (predecessor_text (start_of_last before) p i) (r_previousChain (i_rec i))
          end).
Proof.
  intros HO H. apply verifyDEP_spec in H as (b & reg & a & reg' & p & items & S & D & P & V & _); [|assumption].
  assert (NE : items <> []) by now destruct D as (? & _ & _ & _ & D).
  exists b, reg, a, items, p. split; [exact S|]. split; [now apply dep_ok_items|]. split; [exact P|]. split; [exact NE|].
  destruct V as (_ & _ & _ & _ & V). destruct (V NE) as (q & E & _ & C & _). split.
  - intros l1 x y l2 Ei. eapply chain_rule_split; eauto.
  - intros i r ->. cbn [chain_rule] in C. destruct C as [C _]. destruct (truthy (s_chain reg)); [exact C|].
    unfold chained in C. cbn [fst snd] in C. rewrite <- (effective_text _ _ _ _ _ E). destruct q as [[? ?]|]; exact C.
Qed.

(** ** Signatures *)

Lemma signatures w dep ks key c idx c' : hash_ok w ->
  verifyDEP w dep ks key c idx = (c', None) ->
  exists gs items,
    dep_is w dep gs /\ trust_rule w ks (occupied gs)
    /\ Forall2 (text_item w) (dep_texts ks gs) items /\ items <> []
    /\ Forall (fun i => cert_fits w (i_ver i) (i_rec i)
         /\ (unsigned (i_rec i) \/ exists k, key_of w (i_ver i) (i_rec i) k /\ signed_by w k (i_rec i))) items.
Proof.
  intros HO H. apply verifyDEP_spec in H as (b & reg & a & reg' & p & items & S & (gs & D & T & F & NE) & P & V & _);
    [|assumption].
  exists gs, items. split; [exact D|]. split; [exact T|]. split; [exact F|]. split; [exact NE|]. apply V.
Qed.

(** ** IDs *)

Lemma used_after_unique l items :
  exists l', used_after (Unique l) items = Unique l' /\ forall x, In x l' <-> In x l \/ In x (ids items).
Proof.
  unfold used_after, ids. generalize (map (fun i => r_receiptId (i_rec i)) items) as xs. intros xs. revert l.
  induction xs as [|x xs IH]; intros l; cbn [fold_left].
  - exists l. split; [reflexivity|]. cbn. tauto.
  - cbn [used_add]. destruct (mem x l) eqn:M.
    + destruct (IH l) as (l' & E & I). exists l'. split; [exact E|]. intros y. rewrite I. cbn [In].
      apply mem_In in M. split; [tauto|]. intros [A|[<-|A]]; auto.
    + destruct (IH (l ++ [x])) as (l' & E & I). exists l'. split; [exact E|]. intros y. rewrite I, in_app_iff. cbn [In]. tauto.
Qed.

Lemma effective_none w ps p : effective_past w ps p None -> p = None /\ absent ps.
Proof. destruct p as [[s r]|]; cbn; [discriminate|]. auto. Qed.

Lemma unique_ids_set w dep ks key c idx c' l : hash_ok w ->
  c_used c = Unique l ->
  verifyDEP w dep ks key c idx = (c', None) ->
  exists before reg after items p l',
    selects c idx before reg after /\ dep_items w ks dep items /\ past_of w reg p
    /\ NoDup (ids items)
    /\ (forall x, In x (ids items) -> In x l ->
          p = None /\ absent (start_of_last before) /\ exists i r, items = i :: r /\ x = r_receiptId (i_rec i))
    /\ c_used c' = Unique l' /\ (forall x, In x l' <-> In x l \/ In x (ids items)).
Proof.
  intros HO U H. apply verifyDEP_spec in H as (b & reg & a & reg' & p & items & S & D & P & V & R & ->); [|assumption].
  assert (NE : items <> []) by now destruct D as (? & _ & _ & _ & D).
  destruct V as (_ & _ & _ & _ & V). destruct (V NE) as (q & E & _ & _ & F). rewrite U in F.
  destruct (used_after_unique l items) as (l' & UA & I).
  exists b, reg, a, items, p, l'. split; [exact S|]. split; [now apply dep_ok_items|]. split; [exact P|].
  split; [now apply fresh_NoDup in F|]. split; [|split; [now rewrite U|exact I]].
  intros x Hx Hl. apply fresh_unique in F. destruct items as [|i r]; [destruct Hx|]. unfold ids in *. cbn [map] in *.
  destruct F as (_ & F1 & F2). destruct Hx as [<-|Hx]; [|now destruct (F1 x Hx)].
  destruct q as [q|]; [now destruct (F2 eq_refl)|]. apply effective_none in E as [-> A]. eauto 6.
Qed.

Lemma unique_ids_sorted w dep ks key c idx c' mi ma : hash_ok w ->
  c_used c = Natural mi ma ->
  verifyDEP w dep ks key c idx = (c', None) ->
  exists before reg after items p,
    selects c idx before reg after /\ dep_items w ks dep items /\ past_of w reg p
    /\ NoDup (ids items) /\ increasing w (ids items)
    /\ (forall m x, ma = Some m -> In x (ids items) -> natural_lt w m x
          \/ (p = None /\ absent (start_of_last before))).
Proof.
  intros HO U H. apply verifyDEP_spec in H as (b & reg & a & reg' & p & items & S & D & P & V & R & ->); [|assumption].
  assert (NE : items <> []) by now destruct D as (? & _ & _ & _ & D).
  destruct V as (_ & _ & _ & _ & V). destruct (V NE) as (q & E & _ & _ & F). rewrite U in F.
  exists b, reg, a, items, p. split; [exact S|]. split; [now apply dep_ok_items|]. split; [exact P|].
  split; [now apply fresh_NoDup in F|]. apply fresh_natural in F as [I F]. split; [exact I|].
  intros m x -> Hx. destruct q as [q|].
  - left. destruct (ids items) as [|y l]; [destruct Hx|]. specialize (F eq_refl). destruct Hx as [<-|Hx]; [exact F|].
    eapply natural_lt_trans; [exact F|]. eapply increasing_lt; eauto.
  - right. now apply effective_none in E.
Qed.

(** ** Register, system type, time *)

Lemma consistency w dep ks key c idx c' : hash_ok w ->
  verifyDEP w dep ks key c idx = (c', None) ->
  exists before reg after items p,
    selects c idx before reg after /\ dep_items w ks dep items /\ past_of w reg p
    /\ (forall l1 a l2 b l3, items = l1 ++ a :: l2 ++ b :: l3 -> agrees (i_rec b) (i_rec a))
    /\ (forall s r b, p = Some (s, r) -> In b items -> agrees (i_rec b) r)
    /\ (forall s r b, p = None -> cluster_past w (start_of_last before) (Some (s, r)) -> In b items -> agrees (i_rec b) r).
Proof.
  intros HO H. apply verifyDEP_spec in H as (b & reg & a & reg' & p & items & S & D & P & V & R & ->); [|assumption].
  assert (NE : items <> []) by now destruct D as (? & _ & _ & _ & D).
  destruct V as (_ & _ & _ & _ & V). destruct (V NE) as (q & E & C & _ & _).
  exists b, reg, a, items, p. split; [exact S|]. split; [now apply dep_ok_items|]. split; [exact P|].
  split; [intros l1 x l2 y l3 Ei; eapply consistent_pairs; eauto|]. split.
  - intros s r x -> Hx. cbn in E. subst q. eapply consistent_first; eauto.
  - intros s r x -> CP Hx. cbn in E. rewrite (cluster_past_fun _ _ _ _ E CP) in C. eapply consistent_first; eauto.
Qed.

(** ** Turnover counter *)

Lemma counter w dep ks k c idx c' : hash_ok w ->
  verifyDEP w dep ks (Some k) c idx = (c', None) ->
  exists before reg after items reg',
    selects c idx before reg after /\ dep_items w ks dep items
    /\ c_regs c' = before ++ reg' :: after
    /\ (forall l1 i l2, items = l1 ++ i :: l2 -> standard (i_rec i) ->
          List.length k = 32%nat /\
          exists z, turnover (l1 ++ [i]) z /\ decrypts w k (i_rec i) (s_counter reg + z)%Z)
    /\ (exists z, turnover items z /\ s_counter reg' = (s_counter reg + z)%Z).
Proof.
  intros HO H. apply verifyDEP_spec in H as (b & reg & a & reg' & p & items & S & D & P & V & R & ->); [|assumption].
  assert (NE : items <> []) by now destruct D as (? & _ & _ & _ & D).
  exists b, reg, a, items, reg'. split; [exact S|]. split; [now apply dep_ok_items|]. split; [reflexivity|].
  destruct V as (_ & _ & _ & V & _). destruct (V k eq_refl) as [V1 V2]. split.
  - intros l1 i l2 -> St. split; [|now apply (V2 l1 i l2)].
    apply (V1 i); [apply in_elt|apply St].
  - destruct (exists_last NE) as (m & i & Em). destruct R as [_ R]. destruct (R m i Em) as (_ & _ & _ & _ & _ & _ & _ & R').
    apply R'. discriminate.
Qed.

(** ** Start receipts *)

Lemma start_receipt w dep ks key c idx c' : hash_ok w ->
  verifyDEP w dep ks key c idx = (c', None) ->
  exists before reg after items reg' i r,
    selects c idx before reg after /\ dep_items w ks dep items
    /\ c_regs c' = before ++ reg' :: after
    /\ items = i :: r
    /\ (past_of w reg None ->
        ~ unsigned (i_rec i) /\ zero (i_rec i) /\ standard (i_rec i)
        /\ (exists k, key_of w (i_ver i) (i_rec i) k /\ signed_by w k (i_rec i))
        /\ s_start reg' = Some (i_jws i)).
Proof.
  intros HO H. apply verifyDEP_spec in H as (b & reg & a & reg' & p & items & S & D & P & V & R & ->); [|assumption].
  assert (NE : items <> []) by now destruct D as (? & _ & _ & _ & D).
  destruct items as [|i r]; [congruence|].
  exists b, reg, a, (i :: r), reg', i, r. split; [exact S|]. split; [now apply dep_ok_items|]. split; [reflexivity|].
  split; [reflexivity|]. intros PN. rewrite (past_of_fun _ _ _ _ P PN) in *.
  destruct V as (A & V & _). destruct (V i r eq_refl eq_refl) as [(U & Z & St) _]. apply Forall_cons_iff in A as [[_ A] _].
  split; [exact U|]. split; [exact Z|]. split; [exact St|]. split; [tauto|].
  destruct (exists_last NE) as (m & j & Em). destruct R as [_ R]. destruct (R m j Em) as (_ & R' & _).
  now apply (R' eq_refl i r).
Qed.

(** ** Restore receipts *)

Lemma restore w dep ks key c idx c' : hash_ok w ->
  verifyDEP w dep ks key c idx = (c', None) ->
  exists before reg after items p reg',
    selects c idx before reg after /\ dep_items w ks dep items /\ past_of w reg p
    /\ c_regs c' = before ++ reg' :: after
    /\ (s_restore reg = true -> forall i r, items = i :: r -> plain_zero (i_rec i))
    /\ (forall l1 i j l2, items = l1 ++ i :: j :: l2 ->
          calls_for_restore (last_of p l1) (i_rec i) -> plain_zero (i_rec j))
    /\ (forall l1 i, items = l1 ++ [i] -> (s_restore reg' = true <-> calls_for_restore (last_of p l1) (i_rec i))).
Proof.
  intros HO H. apply verifyDEP_spec in H as (b & reg & a & reg' & p & items & S & D & P & V & R & ->); [|assumption].
  exists b, reg, a, items, p, reg'. split; [exact S|]. split; [now apply dep_ok_items|]. split; [exact P|].
  split; [reflexivity|]. destruct V as (_ & _ & (V1 & V2) & _). split; [exact V1|]. split; [exact V2|].
  intros l1 i Ei. destruct R as [_ R]. destruct (R l1 i Ei) as (_ & _ & _ & R' & _). exact R'.
Qed.

(** ** Parts *)

Lemma selects_again c idx before reg after reg' u :
  selects c idx before reg after ->
  selects (Cluster (before ++ reg' :: after) u) (same_register before) before reg' after.
Proof. intros _. constructor. reflexivity. Qed.

Theorem parts_whole w dep dep1 dep2 ks key c idx before reg after c' : hash_ok w ->
  concatenated w ks dep dep1 dep2 ->
  selects c idx before reg after ->
  verifyDEP w dep ks key c idx = (c', None) <->
  exists c1, verifyDEP w dep1 ks key c idx = (c1, None)
    /\ verifyDEP w dep2 ks key c1 (same_register before) = (c', None).
Proof.
  intros HO CC Sl. split.
  - intros H. apply verifyDEP_spec in H as (b & r & a & reg' & p & items & S & D & P & V & R & ->); [|assumption].
    destruct (selects_fun _ _ _ _ _ _ _ _ Sl S) as (<- & <- & <-).
    apply CC in D as (l1 & l2 & -> & D1 & D2).
    assert (Forall (fun i => reads w (i_jws i) (i_rec i)) l1) as Rd.
    { destruct D1 as (gs & _ & _ & F & _). now apply text_items_read in F. }
    assert (V' := V). apply valid_app in V' as [V1 V2].
    apply (register_after_iff _ _ _ _ _ _ _ _ V) in R. fold (SeqFacts.after key reg p (l1 ++ l2)) in R.
    exists (Cluster (before ++ SeqFacts.after key reg p l1 :: after) (used_after (c_used c) l1)). split.
    + apply verifyDEP_spec; [assumption|]. exists before, reg, after, (SeqFacts.after key reg p l1), p, l1.
      split; [exact S|]. split; [exact D1|]. split; [exact P|]. split; [exact V1|]. split; [|reflexivity].
      now apply (register_after_iff _ _ _ _ _ _ _ _ V1).
    + apply verifyDEP_spec; [assumption|].
      exists before, (SeqFacts.after key reg p l1), after, reg', (last_of p l1), l2.
      split; [now apply (selects_again c idx _ reg)|]. split; [exact D2|]. split; [now apply past_after|].
      cbn [c_used]. split; [exact V2|]. split; [|now rewrite used_after_app].
      apply (register_after_iff _ _ _ _ _ _ _ _ V2). rewrite R. apply after_app.
  - intros (c1 & H1 & H2).
    apply verifyDEP_spec in H1 as (b & r & a & reg1 & p & l1 & S & D1 & P & V1 & R1 & ->); [|assumption].
    destruct (selects_fun _ _ _ _ _ _ _ _ Sl S) as (<- & <- & <-).
    apply verifyDEP_spec in H2 as (b & r & a & reg2 & p2 & l2 & S2 & D2 & P2 & V2 & R2 & ->); [|assumption].
    assert (selects (Cluster (before ++ reg1 :: after) (used_after (c_used c) l1)) (same_register before) before reg1 after)
      as S2' by now apply (selects_again c idx _ reg).
    destruct (selects_fun _ _ _ _ _ _ _ _ S2' S2) as (<- & <- & <-).
    assert (Forall (fun i => reads w (i_jws i) (i_rec i)) l1) as Rd.
    { destruct D1 as (gs & _ & _ & F & _). now apply text_items_read in F. }
    apply (register_after_iff _ _ _ _ _ _ _ _ V1) in R1. fold (SeqFacts.after key reg p l1) in R1. subst reg1.
    rewrite (past_of_fun _ _ _ _ P2 (past_after _ key _ _ _ P Rd)) in *. cbn [c_used] in *.
    apply (register_after_iff _ _ _ _ _ _ _ _ V2) in R2.
    assert (valid_sequence w key (start_of_last before) reg (c_used c) p (l1 ++ l2)) as V by (apply valid_app; auto).
    apply verifyDEP_spec; [assumption|]. exists before, reg, after, reg2, p, (l1 ++ l2).
    split; [exact S|]. split; [apply CC; eauto|]. split; [exact P|]. split; [exact V|]. split; [|now rewrite used_after_app].
    apply (register_after_iff _ _ _ _ _ _ _ _ V). rewrite R2. symmetry.
    fold (SeqFacts.after key reg p (l1 ++ l2)). apply after_app.
Qed.

(** At the level of groups even exceptions agree. *)
Theorem groups_parts w groups1 groups2 key ps reg u :
  verifyGroupsWithVerifiers w (groups1 ++ groups2) key ps reg u =
  do ru <- verifyGroupsWithVerifiers w groups1 key ps reg u;
  verifyGroupsWithVerifiers w groups2 key ps (fst ru) (snd ru).
Proof.
  revert reg u. induction groups1 as [|[g v] r IH]; intros reg u; [reflexivity|].
  cbn [app verifyGroupsWithVerifiers].
  destruct (verifyGroup w g v key ps reg u) as [ru|]; cbn [bind]; [apply IH|reflexivity].
Qed.

Theorem group_parts w g1 g2 v key ps reg u :
  verifyGroup w (g1 ++ g2) v key ps reg u =
  do ru <- verifyGroup w g1 v key ps reg u;
  verifyGroup w g2 v key ps (fst ru) (snd ru).
Proof.
  assert (forall g, verifyGroup w g v key ps reg u = verifyGroupsWithVerifiers w [(g, v)] key ps reg u) as E.
  { intros g. cbn [verifyGroupsWithVerifiers]. destruct (verifyGroup w g v key ps reg u) as [[a b]|]; reflexivity. }
  transitivity (verifyGroupsWithVerifiers w [(g1, v); (g2, v)] key ps reg u).
  - rewrite E, !groups_vseq by discriminate. unfold flat. cbn [flat_map fst snd]. rewrite !app_nil_r, map_app. reflexivity.
  - cbn [verifyGroupsWithVerifiers]. destruct (verifyGroup w g1 v key ps reg u) as [[a b]|]; [|reflexivity].
    cbn [bind fst snd]. destruct (verifyGroup w g2 v key ps a b) as [[a' b']|]; reflexivity.
Qed.

Lemma occupied_app gs1 gs2 : occupied (gs1 ++ gs2) = occupied gs1 ++ occupied gs2.
Proof. apply filter_app. Qed.

Lemma trust_all_certs w ks gs : all_certs gs -> trust_rule w ks gs <->
  Forall (fun g => exists c, gr_cert g = Some c /\ trusted w ks c (gr_chain g)) gs.
Proof.
  intros A. unfold trust_rule. split; [|auto]. intros [H|(g & -> & N)]; [exact H|].
  apply Forall_cons_iff in A as [A _]. congruence.
Qed.

Lemma all_certs_occupied gs : all_certs gs -> all_certs (occupied gs).
Proof. unfold all_certs, occupied. intros H. apply Forall_forall. intros g I. apply filter_In in I as [I _]. rewrite Forall_forall in H. auto. Qed.

Lemma concatenated_groups w ks dep dep1 dep2 gs1 gs2 :
  dep_is w dep1 gs1 -> dep_is w dep2 gs2 -> dep_is w dep (gs1 ++ gs2) ->
  all_certs gs1 -> all_certs gs2 -> occupied gs1 <> [] -> occupied gs2 <> [] ->
  concatenated w ks dep dep1 dep2.
Proof.
  intros D1 D2 D A1 A2 O1 O2 items. unfold dep_ok. split.
  - intros (gs & D' & T & F & NE). rewrite (dep_is_fun _ _ _ _ D' D) in *. clear gs D'.
    assert (all_certs (occupied (gs1 ++ gs2))) as A
      by (apply all_certs_occupied, Forall_app; split; assumption).
    apply (trust_all_certs _ _ _ A) in T. rewrite occupied_app in T. apply Forall_app in T as [T1 T2].
    unfold dep_texts in F. rewrite flat_map_app in F. apply Forall2_app_inv_l in F as (l1 & l2 & F1 & F2 & ->).
    exists l1, l2. split; [reflexivity|].
    split; [exists gs1|exists gs2]; (split; [assumption|]; split; [now left|]; split; [assumption|]).
    + apply (Forall2_nonempty _ _ _ F1). now apply (occupied_nonempty ks).
    + apply (Forall2_nonempty _ _ _ F2). now apply (occupied_nonempty ks).
  - intros (l1 & l2 & -> & (gs1' & D1' & T1 & F1 & N1) & (gs2' & D2' & T2 & F2 & N2)).
    rewrite (dep_is_fun _ _ _ _ D1' D1) in *. rewrite (dep_is_fun _ _ _ _ D2' D2) in *.
    exists (gs1 ++ gs2). split; [exact D|]. split.
    + left. rewrite occupied_app. apply Forall_app.
      apply trust_all_certs in T1; [|now apply all_certs_occupied]. apply trust_all_certs in T2; [|now apply all_certs_occupied].
      auto.
    + split; [|destruct l1; [congruence|discriminate]]. unfold dep_texts. rewrite flat_map_app. now apply Forall2_app.
Qed.

(** ** Clusters *)

Lemma cluster_chain w dep ks key c idx c' : hash_ok w ->
  verifyDEP w dep ks key c idx = (c', None) ->
  exists before reg after items p reg' i r,
    selects c idx before reg after /\ dep_items w ks dep items /\ past_of w reg p
    /\ c_regs c' = before ++ reg' :: after
    /\ items = i :: r
    /\ (forall s, p = None -> truthy (s_chain reg) = None -> truthy (start_of_last before) = Some s ->
        s_start reg' = Some (i_jws i)
        /\ chain_value w s (r_previousChain (i_rec i))
        /\ Forall (fun j => closed (i_rec j)) items
        /\ exists q, reads w s q /\ closed q /\ agrees (i_rec i) q).
Proof.
  intros HO H. apply verifyDEP_spec in H as (b & reg & a & reg' & p & items & S & D & P & V & R & ->); [|assumption].
  assert (NE : items <> []) by now destruct D as (? & _ & _ & _ & D).
  destruct items as [|i r]; [congruence|].
  exists b, reg, a, (i :: r), p, reg', i, r. split; [exact S|]. split; [now apply dep_ok_items|]. split; [exact P|].
  split; [reflexivity|]. split; [reflexivity|]. intros s -> TC TS.
  destruct V as (_ & V & _ & _ & V'). destruct (V' NE) as (q & E & C & CH & _). cbn in E.
  apply truthy_Some in TS as [TS NS]. destruct q as [[s' q]|].
  2:{ destruct E as [E|E]; rewrite TS in E; [discriminate|]. apply Some_inj in E. congruence. }
  destruct (V i r eq_refl eq_refl) as [_ Cl]. destruct (Cl s' q E) as [Ci Cq].
  destruct E as (E & _ & Rd). rewrite TS in E. apply Some_inj in E. subst s'. split; [|split; [|split]].
  - destruct (exists_last NE) as (m & j & Em). destruct R as [_ R]. destruct (R m j Em) as (_ & R' & _).
    now apply (R' eq_refl i r).
  - cbn [chain_rule] in CH. rewrite TC in CH. apply CH.
  - apply Forall_forall. intros j J. destruct (consistent_first _ _ _ C j J) as (_ & X & _). tauto.
  - exists q. split; [exact Rd|]. split; [exact Cq|]. apply (consistent_first _ _ _ C). now left.
Qed.

(** No register is added before its predecessor has a start receipt. *)
Lemma no_gap w dep ks key c idx : c_regs c <> [] -> truthy (start_of_last (c_regs c)) = None ->
  idx = None \/ idx = Some (Z.of_nat (List.length (c_regs c))) ->
  verifyDEP w dep ks key c idx = (c, Some NoStartReceiptForLastCashRegister).
Proof.
  intros NE T D. unfold verifyDEP, with_register, getCashRegisterInfo.
  assert (match idx with None => true | Some i => (i =? Z.of_nat (List.length (c_regs c)))%Z end = true) as ->.
  { destruct D as [-> | ->]; [reflexivity|apply Z.eqb_refl]. }
  assert (addNewCashRegister c = Err NoStartReceiptForLastCashRegister) as ->; [|reflexivity].
  unfold addNewCashRegister, start_of_last in *. destruct (rev (c_regs c)) as [|r l] eqn:E.
  - rewrite <- (rev_involutive (c_regs c)), E in NE. now contradiction NE.
  - now rewrite T.
Qed.

(** ** Failed verification *)

Lemma failed_verifyDEP w dep ks key c idx c' e :
  verifyDEP w dep ks key c idx = (c', Some e) -> unharmed c c'.
Proof.
  intros H. apply with_register_Err in H as [->|(_ & _ & ->)]; split; auto.
Qed.
Lemma failed_verifyParsedDEP w sch s ks key c idx c' e :
  verifyParsedDEP w sch s ks key c idx = (c', Some e) -> unharmed c c'.
Proof.
  intros H. apply with_register_Err in H as [->|(_ & _ & ->)]; split; auto.
Qed.

Lemma succeeded_verifyDEP w dep ks key c idx c' :
  verifyDEP w dep ks key c idx = (c', None) ->
  exists before reg after reg', selects c idx before reg after /\ c_regs c' = before ++ reg' :: after.
Proof. intros H. apply with_register_Ok in H as (b & r & a & reg' & u' & S & _ & ->). exists b, r, a, reg'. auto. Qed.
Lemma succeeded_verifyParsedDEP w sch s ks key c idx c' :
  verifyParsedDEP w sch s ks key c idx = (c', None) ->
  exists before reg after reg', selects c idx before reg after /\ c_regs c' = before ++ reg' :: after.
Proof. intros H. apply with_register_Ok in H as (b & r & a & reg' & u' & S & _ & ->). exists b, r, a, reg'. auto. Qed.

(** ** Tamper evidence *)

Lemma chain_back w n n' q q' l : forall l',
  chain_rule w n q l -> chain_rule w n' q' l' ->
  List.length l = List.length l' ->
  (exists m i m' i', l = m ++ [i] /\ l' = m' ++ [i'] /\ i_jws i = i_jws i') ->
  Forall (fun i => reads w (i_jws i) (i_rec i)) l -> Forall (fun i => reads w (i_jws i) (i_rec i)) l' ->
  map i_jws l = map i_jws l'
  \/ exists a a', In a l /\ In a' l' /\ chain_collision w (i_jws a) (i_jws a').
Proof.
  induction l as [|x l IH] using rev_ind; intros l' C C' L (m & i & m' & i' & E & E' & J) Rd Rd'.
  - destruct m; discriminate.
  - subst l'. apply app_inj_tail in E as [<- <-].
    rewrite !app_length in L. cbn [List.length] in L. rewrite !map_app. cbn [map].
    destruct l as [|y l0] using rev_ind; [destruct m' as [|]; [|cbn in L; lia]; left; cbn; now rewrite J|]. clear IHl0.
    destruct m' as [|y' m0 _] using rev_ind; [rewrite app_length in L; cbn in L; lia|].
    assert (chain_value w (i_jws y) (r_previousChain (i_rec x))) as V.
    { apply (chain_rule_split w n q _ l0 y x [] C). now rewrite <- app_assoc. }
    assert (chain_value w (i_jws y') (r_previousChain (i_rec i'))) as V'.
    { apply (chain_rule_split w n' q' _ m0 y' i' [] C'). now rewrite <- app_assoc. }
    assert (i_rec x = i_rec i') as ER.
    { apply Forall_app in Rd as [_ Rd], Rd' as [_ Rd']. apply Forall_cons_iff in Rd as [Rd _], Rd' as [Rd' _].
      rewrite J in Rd. eapply reads_fun; eauto. }
    rewrite <- ER in V'.
    destruct (list_eq_dec N.eq_dec (i_jws y) (i_jws y')) as [EY|NY].
    2:{ right. exists y, y'. split; [rewrite !in_app_iff; cbn; tauto|]. split; [rewrite !in_app_iff; cbn; tauto|].
        split; [exact NY|]. eauto. }
    assert (forall n q (l : list item) z, chain_rule w n q (l ++ [z]) -> chain_rule w n q l) as CP.
    { clear. intros n q [|a l] z; cbn [app chain_rule]; [constructor|]. intros [A B]. split; [exact A|].
      revert B. generalize (Some (i_jws a, i_rec a)) as p. induction l as [|b l IH]; intros p; cbn [app linked]; [constructor|].
      intros B. apply Forall_cons_iff in B as [B1 B2]. constructor; [exact B1|]. now apply IH. }
    apply Forall_app in Rd as [Rd _], Rd' as [Rd' _].
    destruct (IH (m0 ++ [y'])) as [Hm|(a & a' & A & A' & X)]; try assumption.
    + now apply CP in C.
    + now apply CP in C'.
    + lia.
    + exists l0, y, m0, y'. auto.
    + left. now rewrite Hm, J.
    + right. exists a, a'. rewrite !in_app_iff in *. tauto.
Qed.

(** DEPs of the same length with the same last receipt *)
Theorem tamper_evidence w dep dep' ks ks' key key' c c' idx idx' c1 c1' items items' : hash_ok w ->
  verifyDEP w dep ks key c idx = (c1, None) ->
  verifyDEP w dep' ks' key' c' idx' = (c1', None) ->
  dep_items w ks dep items -> dep_items w ks' dep' items' ->
  List.length items = List.length items' ->
  option_map fst (last_of None items) = option_map fst (last_of None items') ->
  map i_jws items = map i_jws items'
  \/ exists a a', In a items /\ In a' items' /\ chain_collision w (i_jws a) (i_jws a').
Proof.
  intros HO H H' D D' L E.
  apply verifyDEP_spec in H as (b & reg & a & reg' & p & l & S & Dl & P & V & R & ->); [|assumption].
  apply verifyDEP_spec in H' as (b' & rg & a' & rg' & p' & l' & S' & Dl' & P' & V' & R' & ->); [|assumption].
  assert (l = items) as -> by (eapply dep_items_fun; eauto; now apply dep_ok_items).
  assert (l' = items') as -> by (eapply dep_items_fun; eauto; now apply dep_ok_items).
  assert (NE : items <> []) by now destruct Dl as (? & _ & _ & _ & X).
  assert (NE' : items' <> []) by now destruct Dl' as (? & _ & _ & _ & X).
  destruct V as (_ & _ & _ & _ & V). destruct (V NE) as (q & _ & _ & C & _).
  destruct V' as (_ & _ & _ & _ & V'). destruct (V' NE') as (q' & _ & _ & C' & _).
  destruct Dl as (gs & _ & _ & F & _). destruct Dl' as (gs' & _ & _ & F' & _).
  eapply chain_back; eauto using text_items_read.
  destruct (exists_last NE) as (m & i & ->), (exists_last NE') as (m' & i' & ->).
  exists m, i, m', i'. rewrite !last_of_app in E. cbn in E. apply Some_inj in E. auto.
Qed.
