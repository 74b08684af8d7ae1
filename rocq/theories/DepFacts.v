(** Verification of groups of receipts accepts exactly the valid sequences. *)
From Verif Require Import PyBase World Codec PyFloat PyTime Algo Receipt ListFacts CodecFacts SpecReceipt ReceiptFacts
  RoundTrip DepBase Json KeyStore VerifyReceipt State DepParser Verify SpecDep VerifyFacts StepFacts.
From Coq Require Import Lia.
Open Scope N_scope.
Open Scope py_scope.

(** ** Groups are loops over all receipts *)

Fixpoint vseq (w : world) (key : option bytes) (ps : option str) (s : vstate) (l : list (bytes * verifier))
  : result vstate :=
  match l with
  | [] => Ok s
  | (cr, v) :: r => do s' <- verify_step w v key ps s cr; vseq w key ps s' r
  end.

Definition flat (groups : list vgroup) : list (bytes * verifier) :=
  flat_map (fun g => map (fun r => (r, snd g)) (fst g)) groups.

Lemma vseq_app w key ps s l1 l2 :
  vseq w key ps s (l1 ++ l2) = do s' <- vseq w key ps s l1; vseq w key ps s' l2.
Proof.
  revert s. induction l1 as [|[cr v] l1 IH]; intros s; [reflexivity|]. cbn [vseq app].
  destruct (verify_step w v key ps s cr); cbn [bind]; auto.
Qed.

Lemma loop_vseq w v key ps s g : verify_loop w v key ps s g = vseq w key ps s (map (fun r => (r, v)) g).
Proof.
  revert s. induction g as [|cr g IH]; intros s; [reflexivity|]. cbn [verify_loop map vseq].
  destruct (verify_step w v key ps s cr); cbn [bind]; auto.
Qed.

Lemma bind_assoc {A B C} (m : result A) (f : A -> result B) (g : B -> result C) :
  (do y <- do x <- m; f x; g y) = (do x <- m; do y <- f x; g y).
Proof. now destruct m. Qed.

Definition with_last (l : option str) (s : vstate) : vstate :=
  VState (vs_prev s) (vs_prevObj s) (set_last (vs_reg s) l) (vs_used s).

Lemma with_last_same s : with_last (s_last (vs_reg s)) s = s.
Proof. destruct s as [a b [c d e f g] h]. reflexivity. Qed.

Lemma step_last w v key ps s cr l :
  verify_step w v key ps (with_last l s) cr = do s' <- verify_step w v key ps s cr; Ok (with_last l s').
Proof.
  unfold verify_step, with_last, set_last, set_restore, set_start, set_counter.
  destruct s as [pr po [st la co re ch] u].
  cbn [vs_prev vs_prevObj vs_reg vs_used s_restore s_start s_last s_counter s_chain].
  destruct (expandDEPReceipt cr); [|reflexivity]; cbn [bind].
  destruct (check_signature w v po re a); [|reflexivity]; cbn [bind].
  destruct po as [po|]; cbn [bind fst snd s_start s_last s_counter s_restore s_chain].
  - destruct (check_previous w (Some po) u (fst a0)); [|reflexivity]; cbn [bind].
    unfold check_chain. cbn [bind fst snd s_start s_last s_counter s_restore s_chain].
    match goal with |- bind ?m _ = bind (bind ?m _) _ => destruct m as [x|]; [|reflexivity] end. cbn [bind].
    destruct (check_counter w key co (fst a0)); reflexivity.
  - destruct (check_initial w ps pr (fst a0)) as [pp|]; [|reflexivity]; cbn [bind].
    cbn [fst snd s_start s_last s_counter s_restore s_chain].
    destruct (check_previous w (snd pp) u (fst a0)); [|reflexivity]; cbn [bind].
    unfold check_chain. cbn [bind fst snd s_start s_last s_counter s_restore s_chain].
    match goal with |- bind ?m _ = bind (bind ?m _) _ => destruct m as [x|]; [|reflexivity] end. cbn [bind].
    destruct (check_counter w key co (fst a0)); reflexivity.
Qed.

Lemma vseq_last w key ps s l x :
  vseq w key ps (with_last x s) l = do s' <- vseq w key ps s l; Ok (with_last x s').
Proof.
  revert s. induction l as [|[cr v] l IH]; intros s; [reflexivity|]. cbn [vseq]. rewrite step_last.
  destruct (verify_step w v key ps s cr); cbn [bind]; auto.
Qed.

(** The object of the preceding receipt is what its text denotes. *)
Definition tracked (w : world) (s : vstate) : Prop := parse_last w (vs_prev s) = Ok (vs_prevObj s).

Lemma step_tracked w v key ps s cr s' : verify_step w v key ps s cr = Ok s' -> tracked w s'.
Proof.
  unfold verify_step. intros H. apply bind_Ok in H as (r & _ & H). apply bind_Ok in H as ([ro n] & C & H).
  destruct (check_signature_reads _ _ _ _ _ _ C) as [ro' R].
  assert (ro' = ro) as ->.
  { unfold check_signature, verifyJWS in C.
    assert (fromJWSString w r = Ok (ro', lit "R1")) as P by now apply parse_reads. rewrite P in C. cbn [bind fst snd] in C.
    destruct (verify w v ro' (lit "R1")) as [[x y]|e] eqn:V.
    - assert (x = ro') as ->.
      { unfold verify in V. destruct (known_alg (lit "R1")); [|discriminate].
        apply bind_Ok in V as (k & _ & V). apply bind_Ok in V as (b & _ & V). destruct b.
        { apply bind_Ok in V as (z & _ & V). apply bind_Ok in V as (z' & _ & V).
          destruct (negb z' && isNull ro'); discriminate. }
        destruct k; [|discriminate]. apply bind_Ok in V as (j & _ & V). destruct (r1_verify w j p); [|discriminate].
        apply Ok_inj in V. congruence. }
      destruct (vs_prevObj s).
      + apply bind_Ok in C as (b & _ & C). destruct b.
        * destruct (negb (s_restore (vs_reg s))); [|discriminate]. apply bind_Ok in C as (b' & _ & C).
          apply Ok_inj in C. congruence.
        * apply Ok_inj in C. congruence.
      + apply Ok_inj in C. congruence.
    - destruct (nonfatal e); [|discriminate]. cbn [bind fst] in C. destruct (vs_prevObj s); [|discriminate].
      destruct (negb (s_restore (vs_reg s))); [|discriminate]. apply Ok_inj in C. congruence. }
  cbn [fst snd] in H. apply bind_Ok in H as (ini & _ & H). apply bind_Ok in H as ([] & _ & H).
  apply bind_Ok in H as (cn & _ & H). apply bind_Ok in H as (c & _ & H). apply Ok_inj in H. subst s'.
  unfold tracked, parse_last. cbn [vs_prev vs_prevObj].
  assert (truthy (Some r) = Some r) as ->. { apply truthy_Some. split; [reflexivity|]. now apply reads_nonempty in R. }
  assert (fromJWSString w r = Ok (ro, lit "R1")) as -> by now apply parse_reads. reflexivity.
Qed.

Lemma vseq_tracked w key ps s l s' : tracked w s -> vseq w key ps s l = Ok s' -> tracked w s'.
Proof.
  revert s. induction l as [|[cr v] l IH]; intros s T; cbn [vseq].
  - intros H. apply Ok_inj in H. now subst.
  - intros H. apply bind_Ok in H as (s1 & H1 & H2). apply step_tracked in H1. eauto.
Qed.

Definition close (s : vstate) : regstate * used := (set_last (vs_reg s) (vs_prev s), vs_used s).

Lemma verifyGroup_vseq w g v key ps reg u :
  verifyGroup w g v key ps reg u =
  do po <- parse_last w (s_last reg);
  do s <- vseq w key ps (VState (s_last reg) po reg u) (map (fun r => (r, v)) g);
  Ok (close s).
Proof.
  unfold verifyGroup. destruct (parse_last w (s_last reg)) as [po|]; [|reflexivity]. cbn [bind].
  now rewrite loop_vseq.
Qed.

Theorem groups_vseq w groups key ps reg u :
  groups <> [] ->
  verifyGroupsWithVerifiers w groups key ps reg u =
  do po <- parse_last w (s_last reg);
  do s <- vseq w key ps (VState (s_last reg) po reg u) (flat groups);
  Ok (close s).
Proof.
  revert reg u. induction groups as [|[g v] r IH]; intros reg u; [congruence|]. intros _.
  cbn [verifyGroupsWithVerifiers]. rewrite verifyGroup_vseq.
  destruct (parse_last w (s_last reg)) as [po|] eqn:P; [|reflexivity]. cbn [bind].
  unfold flat. cbn [flat_map fst snd]. rewrite vseq_app. fold (flat r).
  destruct (vseq w key ps (VState (s_last reg) po reg u) (map (fun r => (r, v)) g)) as [s|] eqn:V; [|reflexivity].
  cbn [bind]. destruct r as [|gr r].
  - reflexivity.
  - rewrite IH by congruence. cbn [close fst snd set_last s_last].
    apply vseq_tracked in V; [|exact P]. unfold tracked in V. rewrite V. cbn [bind].
    replace (VState (vs_prev s) (vs_prevObj s) (set_last (vs_reg s) (vs_prev s)) (vs_used s))
      with (with_last (vs_prev s) s) by reflexivity.
    rewrite vseq_last, bind_assoc.
    destruct (vseq w key ps s (flat (gr :: r))); reflexivity.
Qed.

(** ** The loop meets step_ok throughout *)

Definition as_past (i : item) : option past := Some (i_jws i, i_rec i).

Fixpoint loop_ok (w : world) (key : option bytes) (ps : option str) (reg : regstate) (u : used)
    (p : option past) (l : list item) : Prop :=
  match l with
  | [] => True
  | i :: r => step_ok w key ps reg u p i
      /\ loop_ok w key ps (reg_step key reg p i) (used_add u (r_receiptId (i_rec i))) (as_past i) r
  end.

Fixpoint regs (key : option bytes) (reg : regstate) (p : option past) (l : list item) : regstate :=
  match l with
  | [] => reg
  | i :: r => regs key (reg_step key reg p i) (as_past i) r
  end.

Fixpoint final (key : option bytes) (s : vstate) (p : option past) (l : list item) : vstate :=
  match l with
  | [] => s
  | i :: r => final key (next_state key s p i) (as_past i) r
  end.

Lemma vseq_spec w key ps l : Forall (fun b => proper (snd b)) l -> forall s p s',
  st_past w s p ->
  vseq w key ps s l = Ok s' <->
  exists items, Forall2 (item_of w) l items /\ loop_ok w key ps (vs_reg s) (vs_used s) p items
    /\ s' = final key s p items.
Proof.
  induction 1 as [|[cr v] l Pv Pl IH]; intros s p s' SP; cbn [vseq].
  - split.
    + intros H. apply Ok_inj in H. subst. exists []. repeat split. constructor.
    + intros (items & F & _ & E). inversion F. subst. reflexivity.
  - rewrite bind_Ok. split.
    + intros (s1 & H1 & H2). apply (verify_step_spec _ _ _ _ _ _ _ _ Pv SP) in H1 as (i & I & St & ->).
      apply (IH _ (as_past i)) in H2 as (items & F & L & E).
      2:{ apply next_st_past. apply I. }
      exists (i :: items). split; [now constructor|]. split; [split; assumption|exact E].
    + intros (items & F & L & E). inversion F as [|? i ? items' I F']. subst. destruct L as [L1 L2].
      exists (next_state key s p i). split.
      * apply (verify_step_spec _ _ _ _ _ _ _ _ Pv SP). exists i. auto.
      * apply (IH _ (as_past i)); [apply next_st_past; apply I|]. exists items'. auto.
Qed.

(** ** The positional conditions *)

Lemma restore_rule_cons need p i l :
  restore_rule need p (i :: l) <->
  (need = true -> plain_zero (i_rec i)) /\ restore_rule (needb p (i_rec i)) (as_past i) l.
Proof.
  unfold restore_rule. split.
  - intros [A B]. split; [intros N; now apply (A N i l)|]. split.
    + intros N j r ->. apply needb_iff in N. apply (B [] i j r); [reflexivity|exact N].
    + intros l1 a b l2 -> C. apply (B (i :: l1) a b l2); [reflexivity|exact C].
  - intros (A & B & C). split.
    + intros N j r E. injection E as <- <-. auto.
    + intros l1 a b l2 E. destruct l1 as [|x l1]; cbn [app] in E; injection E as <- E.
      * intros D. subst l. apply needb_iff in D. now apply (B D b l2).
      * subst l. intros D. now apply (C l1 a b l2).
Qed.

Definition amount (r : receipt) : Z :=
  if trainb r then 0%Z else match cents r with Ok z => z | Err _ => 0%Z end.

Lemma count_amount k c r : count (Some k) c r = (c + amount r)%Z.
Proof. unfold count, amount. destruct (trainb r); [lia|]. destruct (cents r); lia. Qed.

Definition amounts (l : list item) : Z := fold_right Z.add 0%Z (map (fun i => amount (i_rec i)) l).

Lemma amounts_app a b : amounts (a ++ b) = (amounts a + amounts b)%Z.
Proof. unfold amounts. rewrite map_app. induction a; cbn [app map fold_right]; [lia|]. rewrite IHa. lia. Qed.

Definition summable (l : list item) : Prop :=
  forall i, In i l -> ~ training (i_rec i) -> exists z, cents (i_rec i) = Ok z.

Lemma turnover_iff l z : turnover l z <-> summable l /\ z = amounts l.
Proof.
  unfold turnover, summable, amounts. revert z. induction l as [|i l IH]; intros z.
  - split.
    + intros (cs & F & E). inversion F. subst. split; [intros ? []|reflexivity].
    + intros [_ ->]. exists []. split; [constructor|reflexivity].
  - split.
    + intros (cs & F & E). inversion F as [|? c ? cs' H F']. subst.
      assert (turnover l (fold_right Z.add 0%Z cs')) as T by (exists cs'; auto).
      apply IH in T as [T1 T2]. split.
      * intros j [<-|J]; [|now apply T1]. intros NT. destruct H as [[T _]|[_ H]]; [contradiction|eauto].
      * cbn [map fold_right]. rewrite T2. f_equal. unfold amount. destruct H as [[T ->]|[T E]].
        -- apply trainb_iff in T. now rewrite T.
        -- rewrite E. rewrite <- trainb_iff in T. destruct (trainb (i_rec i)); [congruence|reflexivity].
    + intros [S ->].
      assert (turnover l (fold_right Z.add 0%Z (map (fun i => amount (i_rec i)) l))) as (cs & F & E).
      { apply IH. split; [|reflexivity]. intros j J. apply S. now right. }
      exists (amount (i_rec i) :: cs). split.
      * constructor; [|exact F]. unfold amount. destruct (trainb (i_rec i)) eqn:T.
        -- apply trainb_iff in T. auto.
        -- right. assert (~ training (i_rec i)) as NT by (rewrite <- trainb_iff; congruence). split; [exact NT|].
           destruct (S i (or_introl eq_refl) NT) as [z Z]. now rewrite Z.
      * cbn [map fold_right]. now rewrite E.
Qed.

Lemma counter_rule_cons w key c i l :
  counter_rule w key c (i :: l) <->
  counter_ok w key c (i_rec i) /\ counter_rule w key (count key c (i_rec i)) l.
Proof.
  unfold counter_rule, counter_ok. split.
  - intros H. split.
    + intros k Ek NT. destruct (H k Ek) as [A B]. destruct (A i (or_introl eq_refl) NT) as (L & z & Z).
      split; [exact L|]. exists z. split; [exact Z|]. intros S.
      destruct (B [] i l eq_refl S) as (z' & T & D). apply turnover_iff in T as [_ ->].
      cbn [app] in D. unfold amounts in D. cbn [map fold_right] in D. unfold amount in D. rewrite Z in D.
      rewrite <- trainb_iff in NT. destruct (trainb (i_rec i)); [congruence|]. now rewrite Z.add_0_r in D.
    + intros k Ek. destruct (H k Ek) as [A B]. split; [intros j J; apply A; now right|].
      intros l1 j l2 -> S. destruct (B (i :: l1) j l2 eq_refl S) as (z & T & D).
      apply turnover_iff in T as [T ->]. exists (amounts (l1 ++ [j])). split.
      * apply turnover_iff. split; [|reflexivity]. intros x X. apply T. cbn [app]. now right.
      * rewrite Ek, count_amount. replace (c + amount (i_rec i) + amounts (l1 ++ [j]))%Z
          with (c + amounts ((i :: l1) ++ [j]))%Z; [exact D|]. unfold amounts. cbn [app map fold_right]. lia.
  - intros [H1 H2] k Ek. destruct (H2 k Ek) as [A B]. split.
    + intros j [<-|J] NT; [|now apply A]. destruct (H1 k Ek NT) as (L & z & Z & _). eauto.
    + intros l1 j l2 E S. destruct l1 as [|x l1]; cbn [app] in E; injection E as <- E.
      * assert (NT := proj1 S). destruct (H1 k Ek NT) as (_ & z & Z & D). exists z. split; [|auto].
        exists [z]. split; [|cbn; lia]. constructor; [right; auto|constructor].
      * destruct (B l1 j l2 E S) as (z & T & D). apply turnover_iff in T as [T ->].
        exists (amounts ((i :: l1) ++ [j])). split.
        -- apply turnover_iff. split; [|reflexivity]. intros y Y NT. destruct Y as [<-|Y]; [|now apply T].
           destruct (H1 k Ek NT) as (_ & z & Z & _). eauto.
        -- rewrite Ek, count_amount in D. replace (c + amounts ((i :: l1) ++ [j]))%Z
             with (c + amount (i_rec i) + amounts (l1 ++ [j]))%Z; [exact D|].
           unfold amounts. cbn [app map fold_right]. lia.
Qed.

Lemma chain_step_truthy o : truthy (match truthy o with Some _ => None | None => o end) = None.
Proof. destruct o as [[|c s]|]; reflexivity. Qed.

Lemma valid_cons w key ps reg u p i l :
  valid_sequence w key ps reg u p (i :: l) <->
  step_ok w key ps reg u p i
  /\ valid_sequence w key ps (reg_step key reg p i) (used_add u (r_receiptId (i_rec i))) (as_past i) l.
Proof.
  unfold valid_sequence, step_ok. rewrite Forall_cons_iff, restore_rule_cons, counter_rule_cons.
  cbn [reg_step s_restore s_counter s_chain]. unfold ids. cbn [map fresh_ids]. split.
  - intros ((A & Al) & S & (R & Rl) & (C & Cl) & Q). destruct (Q ltac:(discriminate)) as (q & E & Co & Ch & (F & Fl)).
    cbn [linked] in Co. apply Forall_cons_iff in Co as [Co Col]. destruct Ch as [Ch Chl]. split.
    + split; [exact A|]. split.
      { intros ->. apply (S i l); reflexivity. }
      split; [exact R|]. split; [exact C|]. exists q. auto.
    + split; [exact Al|]. split; [intros ? ? X; discriminate X|]. split; [exact Rl|]. split; [exact Cl|].
      intros NE. exists (as_past i). split; [reflexivity|]. split; [exact Col|]. split; [|exact Fl].
      destruct l as [|j l]; [congruence|]. cbn [chain_rule]. rewrite chain_step_truthy.
      cbn [linked] in Chl. now apply Forall_cons_iff in Chl.
  - intros ((A & S & R & C & q & E & Co & Ch & F) & (Al & _ & Rl & Cl & Q)). split; [split; assumption|]. split.
    { intros j r Ep Ej. injection Ej as <- <-. auto. }
    split; [split; assumption|]. split; [split; assumption|]. intros _. exists q. split; [exact E|].
    destruct l as [|j l].
    + split; [repeat (constructor; [assumption|]); constructor|]. split; [split; [exact Ch|constructor]|].
      split; [exact F|exact I].
    + destruct (Q ltac:(discriminate)) as (q' & Eq & Co' & Ch' & F'). cbn in Eq. subst q'.
      split; [constructor; assumption|]. split; [|split; assumption]. split; [exact Ch|].
      cbn [chain_rule] in Ch'. rewrite chain_step_truthy in Ch'. destruct Ch'. now constructor.
Qed.

Lemma loop_valid w key ps l : forall reg u p,
  loop_ok w key ps reg u p l <-> valid_sequence w key ps reg u p l.
Proof.
  induction l as [|i l IH]; intros reg u p.
  - split; [|constructor]. intros _. split; [constructor|]. split; [intros i r _ H; discriminate H|]. split.
    { split; [intros _ i r H; discriminate H|]. intros l1 i j l2 H. destruct l1; discriminate H. }
    split; [|congruence]. intros k _. split; [intros i []|]. intros l1 i l2 H. destruct l1; discriminate H.
  - rewrite valid_cons, <- IH. reflexivity.
Qed.

(** ** The state afterwards *)

Lemma final_spec key l : forall s p,
  final key s p l = match l with
                    | [] => s
                    | _ => VState (option_map fst (last_of p l)) (option_map snd (last_of p l))
                             (regs key (vs_reg s) p l) (used_after (vs_used s) l)
                    end.
Proof.
  induction l as [|i l IH]; intros s p; [reflexivity|]. cbn [final last_of regs]. rewrite IH.
  destruct l as [|j l]; reflexivity.
Qed.

Lemma last_of_app p l i : last_of p (l ++ [i]) = as_past i.
Proof. revert p. induction l as [|j l IH]; intros p; [reflexivity|]. cbn [app last_of]. apply IH. Qed.

Lemma regs_app key l1 l2 : forall reg p,
  regs key reg p (l1 ++ l2) = regs key (regs key reg p l1) (last_of p l1) l2.
Proof. induction l1 as [|i l1 IH]; intros reg p; [reflexivity|]. cbn [app regs last_of]. apply IH. Qed.

Lemma regs_fields key l : forall reg p,
  s_start (regs key reg p l) = (match p, l with None, j :: _ => Some (i_jws j) | _, _ => s_start reg end)
  /\ s_last (regs key reg p l) = s_last reg
  /\ s_chain (regs key reg p l) = (match l with [] => s_chain reg | _ =>
        match truthy (s_chain reg) with Some _ => None | None => s_chain reg end end)
  /\ s_counter (regs key reg p l) = (match key with None => s_counter reg | Some _ => s_counter reg + amounts l end)%Z.
Proof.
  induction l as [|i l IH]; intros reg p.
  - cbn [regs]. split; [now destruct p|]. split; [reflexivity|]. split; [reflexivity|].
    destruct key; [cbn; lia|reflexivity].
  - cbn [regs]. destruct (IH (reg_step key reg p i) (as_past i)) as (A & B & C & D). rewrite A, B, C, D.
    cbn [reg_step s_start s_last s_chain s_counter as_past]. split; [now destruct p|]. split; [reflexivity|].
    split.
    + destruct l; [reflexivity|]. rewrite chain_step_truthy. reflexivity.
    + destruct key; [|reflexivity]. rewrite count_amount. unfold amounts. cbn [map fold_right]. lia.
Qed.

Lemma counter_summable w k c l : counter_rule w (Some k) c l -> summable l.
Proof. intros H i I NT. destruct (H k eq_refl) as [A _]. now apply A. Qed.

Lemma register_after_iff w key ps reg u p l reg' :
  valid_sequence w key ps reg u p l ->
  register_after key reg p l reg' <->
  reg' = match l with [] => reg | _ => set_last (regs key reg p l) (option_map fst (last_of p l)) end.
Proof.
  intros (_ & _ & _ & CR & _). destruct (regs_fields key l reg p) as (A & B & C & D).
  assert (l <> [] -> s_chain (regs key reg p l)
          = match truthy (s_chain reg) with Some _ => None | None => s_chain reg end) as C'
    by (destruct l; [congruence|intros _; exact C]). clear C.
  destruct l as [|i0 l0] eqn:El.
  - unfold register_after. split; [tauto|]. intros ->. split; [reflexivity|]. intros l0 i H. destruct l0; discriminate H.
  - rewrite <- El in *. assert (l <> []) as NE by (rewrite El; discriminate).
    assert (C := C' NE). clear C'. destruct (exists_last NE) as (m & i & Em). clear NE.
    assert (s_restore (regs key reg p l) = needb (last_of p m) (i_rec i)) as R
      by (rewrite Em, regs_app; reflexivity).
    replace (last_of p l) with (as_past i) by (rewrite Em; symmetry; apply last_of_app).
    cbn [as_past option_map fst].
    unfold register_after. split.
    + intros [_ H]. destruct (H m i Em) as (H1 & H2 & H3 & H4 & H5 & H6 & H7 & H8).
      destruct reg' as [st la co re ch]. unfold set_last. cbn [s_start s_last s_counter s_restore s_chain] in *.
      f_equal.
      * rewrite A. destruct p as [x|]; [apply H3; discriminate|]. exact (H2 eq_refl _ _ El).
      * exact H1.
      * rewrite D. destruct key as [k|]; [|now apply H7]. destruct H8 as (z & T & ->); [discriminate|].
        apply turnover_iff in T as [_ ->]. reflexivity.
      * rewrite R. rewrite <- needb_iff in H4. destruct re, (needb (last_of p m) (i_rec i)); try reflexivity;
          [symmetry; now apply H4|now apply H4].
      * rewrite C. destruct (truthy (s_chain reg)); [apply H6; discriminate|now apply H5].
    + intros ->. split; [intros E; rewrite E in El; discriminate El|]. intros m' i' Em'.
      rewrite Em in Em'. apply app_inj_tail in Em' as [<- <-].
      cbn [set_last s_start s_last s_counter s_restore s_chain]. rewrite A, C, D, R.
      split; [reflexivity|]. split; [intros -> j r Ej; congruence|].
      split; [intros NP; destruct p; [reflexivity|congruence]|].
      split; [apply needb_iff|]. split; [now intros ->|].
      split; [intros NT; destruct (truthy (s_chain reg)); [reflexivity|congruence]|].
      split; [now intros ->|]. intros NK. destruct key as [k|]; [|congruence]. exists (amounts l).
      split; [|reflexivity]. apply turnover_iff. split; [|reflexivity]. now apply counter_summable in CR.
Qed.

Lemma parse_last_past w reg po :
  parse_last w (s_last reg) = Ok po <-> exists p, past_of w reg p /\ po = past_obj p.
Proof.
  unfold parse_last, past_of. destruct (truthy (s_last reg)) as [s|] eqn:T.
  - apply truthy_Some in T as [T NE]. rewrite bind_Ok. split.
    + intros ([r a] & P & E). apply Ok_inj in E. subst po. apply parse_reads in P as [_ P].
      exists (Some (s, r)). auto.
    + intros ([[s' r]|] & P & ->).
      * destruct P as (E & _ & R). rewrite T in E. apply Some_inj in E. subst s'. exists (r, lit "R1"). split; [|reflexivity].
        now apply parse_reads.
      * rewrite T in P. destruct P as [P|P]; [discriminate|]. apply Some_inj in P. congruence.
  - apply absent_truthy in T. split.
    + intros H. apply Ok_inj in H. subst po. exists None. auto.
    + intros ([[s' r]|] & P & ->); [|reflexivity]. destruct P as (E & NE & _). rewrite E in T.
      destruct T as [T|T]; [discriminate|]. apply Some_inj in T. congruence.
Qed.

Lemma past_st w reg u p : past_of w reg p -> st_past w (VState (s_last reg) (past_obj p) reg u) p.
Proof.
  unfold st_past, past_of. cbn [vs_prev vs_prevObj]. destruct p as [[s r]|].
  - intros (E & NE & R). rewrite E. split; [now apply truthy_Some|]. split; [reflexivity|exact R].
  - intros H. apply absent_truthy in H. now rewrite H.
Qed.

Lemma final_close w key reg u p l :
  past_of w reg p ->
  close (final key (VState (s_last reg) (past_obj p) reg u) p l)
  = (match l with [] => reg | _ => set_last (regs key reg p l) (option_map fst (last_of p l)) end, used_after u l).
Proof.
  intros _. rewrite final_spec. destruct l as [|i l]; [|reflexivity]. cbn. destruct reg. reflexivity.
Qed.

(** The main theorem. *)
Theorem groups_spec w groups key ps reg u reg' u' :
  groups <> [] -> Forall (fun g => proper (snd g)) groups ->
  verifyGroupsWithVerifiers w groups key ps reg u = Ok (reg', u') <->
  exists p items,
    past_of w reg p
    /\ Forall2 (item_of w) (flat groups) items
    /\ valid_sequence w key ps reg u p items
    /\ register_after key reg p items reg'
    /\ u' = used_after u items.
Proof.
  intros NE Pr. rewrite groups_vseq by assumption.
  assert (Forall (fun b => proper (snd b)) (flat groups)) as Pf.
  { unfold flat. apply Forall_flat_map. eapply Forall_impl; [|exact Pr]. intros [g v] Pv. apply Forall_map.
    apply Forall_forall. intros x _. exact Pv. }
  rewrite bind_Ok. split.
  - intros (po & P & H). apply parse_last_past in P as (p & P & ->).
    apply bind_Ok in H as (s & V & E). apply (vseq_spec _ _ _ _ Pf _ p) in V as (items & F & L & ->); [|now apply past_st].
    apply Ok_inj in E. rewrite (final_close w) in E by assumption. cbn [vs_reg vs_used] in L.
    apply loop_valid in L. injection E as <- <-. exists p, items. split; [exact P|]. split; [exact F|].
    split; [exact L|]. split; [|reflexivity]. now apply (register_after_iff _ _ _ _ _ _ _ _ L).
  - intros (p & items & P & F & L & R & ->). exists (past_obj p). split; [apply parse_last_past; eauto|].
    apply bind_Ok. exists (final key (VState (s_last reg) (past_obj p) reg u) p items). split.
    + apply (vseq_spec _ _ _ _ Pf _ p); [now apply past_st|]. exists items. split; [exact F|]. split; [|reflexivity].
      now apply loop_valid.
    + rewrite (final_close w) by assumption. apply (register_after_iff _ _ _ _ _ _ _ _ L) in R. now subst.
Qed.
