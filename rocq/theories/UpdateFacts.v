(** Updating a register without verification gives the state verification gives. *)
From Coq Require Import Lia.
From Verif Require Import PyBase World Codec PyFloat PyTime Algo Receipt ListFacts CodecFacts SpecReceipt ReceiptFacts
  DepBase Json KeyStore VerifyReceipt State DepParser Verify SpecDep VerifyFacts StepFacts DepFacts SeqFacts SpecState.
Open Scope N_scope.
Open Scope py_scope.

Definition denotes_item (w : world) (b : bytes) (i : item) : Prop :=
  utf8_decode b = Ok (i_jws i) /\ reads w (i_jws i) (i_rec i).

Lemma item_denotes w v g l : Forall2 (item_of w) (map (fun r => (r, v)) g) l -> Forall2 (denotes_item w) g l.
Proof.
  revert l. induction g as [|b g IH]; intros l F; inversion F as [|? i ? l' (A & B & _) F']; subst; constructor; [|auto].
  split; assumption.
Qed.

Lemma expand_denotes w b i : denotes_item w b i -> expandDEPReceipt b = Ok (i_jws i).
Proof. intros [A _]. now apply expand_iff. Qed.

Lemma parse_denotes w b i : denotes_item w b i -> fromJWSString w (i_jws i) = Ok (i_rec i, lit "R1").
Proof. intros [_ R]. now apply parse_reads. Qed.

Definition standardb (r : receipt) : bool := negb (trainb r) && negb (cancelb r).

Lemma standardb_standard r : standardb r = true <-> standard r.
Proof. unfold standardb. rewrite <- negb_orb, negb_true_iff. apply standardb_iff. Qed.

(** The receipts after the last standard receipt, and that receipt *)
Fixpoint tail_of (rl : list item) (acc : list item) : option item * list item :=
  match rl with
  | [] => (None, acc)
  | i :: r => if standardb (i_rec i) then (Some i, acc) else tail_of r (i :: acc)
  end.

Definition cancels (l : list item) : list receipt := filter cancelb (map i_rec l).

Lemma last_counter_tail w k rg : forall rl acc, Forall2 (denotes_item w) rg rl ->
  last_counter w k rg (cancels acc) =
  match tail_of rl acc with
  | (Some i, t) => do c <- decryptTC w (i_rec i) k; Ok (Some c, cancels t)
  | (None, t) => Ok (None, cancels t)
  end.
Proof.
  induction rg as [|b rg IH]; intros rl acc F; inversion F as [|? i ? rl' D F']; subst; cbn [last_counter tail_of]; [reflexivity|].
  rewrite (expand_denotes w b i D). cbn [bind]. rewrite (parse_denotes w b i D). cbn [bind fst].
  destruct D as [_ R]. rewrite (reads_isDummy w _ _ R), (reads_isReversal w _ _ R). cbn [notR andR bind].
  unfold standardb. destruct (trainb (i_rec i)) eqn:T; cbn [negb andb bind andR notR].
  - assert (cancelb (i_rec i) = false) as C.
    { destruct (cancelb (i_rec i)) eqn:C; [|reflexivity]. apply trainb_iff in T. apply cancelb_iff in C.
      destruct (not_both _ T C). }
    rewrite C. rewrite <- (IH rl' (i :: acc) F'). unfold cancels. cbn [map filter]. now rewrite C.
  - destruct (cancelb (i_rec i)) eqn:C; cbn [negb bind].
    + rewrite <- (IH rl' (i :: acc) F'). unfold cancels. cbn [map filter]. now rewrite C.
    + reflexivity.
Qed.

Lemma tail_of_spec rl : forall acc,
  Forall (fun i => ~ standard (i_rec i)) acc ->
  match tail_of rl acc with
  | (Some i, t) => exists l1, rev rl ++ acc = l1 ++ i :: t /\ standard (i_rec i) /\ Forall (fun i => ~ standard (i_rec i)) t
  | (None, t) => t = rev rl ++ acc /\ Forall (fun i => ~ standard (i_rec i)) t
  end.
Proof.
  induction rl as [|i rl IH]; intros acc N; cbn [tail_of rev].
  - auto.
  - destruct (standardb (i_rec i)) eqn:S.
    + exists (rev rl). rewrite <- app_assoc. apply standardb_standard in S. auto.
    + rewrite <- app_assoc. cbn [app]. apply IH. constructor; [|exact N]. intros St. apply standardb_standard in St. congruence.
Qed.

Lemma add_cents_spec t : forall c, summable t -> Forall (fun i => ~ standard (i_rec i)) t ->
  add_cents c (cancels t) = Ok (c + amounts t)%Z.
Proof.
  induction t as [|i t IH]; intros c S N; unfold cancels; cbn [map filter].
  - cbn. f_equal. lia.
  - inversion N as [|? ? N1 N2]; subst.
    assert (summable t) as S' by (intros j J; apply S; now right).
    unfold amounts. cbn [map fold_right]. fold (amounts t). unfold amount.
    destruct (cancelb (i_rec i)) eqn:C.
    + cbn [add_cents]. assert (trainb (i_rec i) = false) as T.
      { destruct (trainb (i_rec i)) eqn:T; [|reflexivity]. apply trainb_iff in T. apply cancelb_iff in C.
        destruct (not_both _ T C). }
      rewrite T. destruct (S i (or_introl eq_refl)) as [z Z]; [rewrite <- trainb_iff; congruence|].
      rewrite Z. cbn [bind]. fold (cancels t). rewrite IH by assumption. f_equal. lia.
    + fold (cancels t). rewrite IH by assumption. assert (trainb (i_rec i) = true) as ->.
      { destruct (trainb (i_rec i)) eqn:T; [reflexivity|]. exfalso. apply N1. apply standardb_iff. now rewrite T, C. }
      f_equal.
Qed.

Lemma Forall2_rev {A B} (R : A -> B -> Prop) l l' : Forall2 R l l' -> Forall2 R (rev l) (rev l').
Proof. induction 1; cbn [rev]; [constructor|]. apply Forall2_app; [assumption|]. now repeat constructor. Qed.

Lemma after_fields key reg p l : l <> [] ->
  after key reg p l = RegState (s_start (regs key reg p l)) (option_map fst (last_of p l))
    (s_counter (regs key reg p l)) (s_restore (regs key reg p l)) (s_chain (regs key reg p l)).
Proof. destruct l; [congruence|reflexivity]. Qed.

Lemma counter_after w key c g l : Forall2 (denotes_item w) g l -> counter_rule w key c l ->
  (match truthy key with
   | None => Ok c
   | Some k => do cr <- last_counter w k (rev g) []; add_cents (match fst cr with Some c => c | None => c end) (snd cr)
   end) = Ok (match key with None => c | Some _ => c + amounts l end)%Z.
Proof.
  intros F CR. destruct key as [k|]; [|reflexivity].
  pose proof (counter_summable w k c l CR) as S. destruct (CR k eq_refl) as [A B].
  destruct k as [|k0 k']; cbn [truthy].
  - (* empty key: only training receipts are possible *)
    f_equal. assert (amounts l = 0%Z) as ->; [|lia]. clear - A. unfold amounts.
    induction l as [|i l IH]; [reflexivity|]. cbn [map fold_right]. rewrite IH by (intros j J; apply A; now right).
    unfold amount. destruct (trainb (i_rec i)) eqn:T; [reflexivity|]. exfalso.
    destruct (A i (or_introl eq_refl)) as [L _]; [rewrite <- trainb_iff; congruence|discriminate].
  - set (k := k0 :: k') in *. assert (Forall2 (denotes_item w) (rev g) (rev l)) as F' by now apply Forall2_rev.
    pose proof (last_counter_tail w k (rev g) (rev l) [] F') as L. change (cancels []) with (@nil receipt) in L. rewrite L.
    pose proof (tail_of_spec (rev l) [] (Forall_nil _)) as T. rewrite rev_involutive, app_nil_r in T.
    destruct (tail_of (rev l) []) as [[i|] t].
    + destruct T as (l1 & E & St & Nt). destruct (B l1 i t E St) as (z & TO & De). unfold decrypts in De. rewrite De.
      cbn [bind fst snd]. apply turnover_iff in TO as [_ ->].
      rewrite add_cents_spec; [|intros j J; apply S; rewrite E; apply in_or_app; right; now right|exact Nt].
      f_equal. rewrite E. change (i :: t) with ([i] ++ t). rewrite (app_assoc l1 [i] t), (amounts_app (l1 ++ [i]) t). lia.
    + destruct T as (-> & Nt). cbn [bind fst snd]. now apply add_cents_spec.
Qed.

Lemma truthy_nonempty (s : str) : s <> [] -> truthy (Some s) = Some s.
Proof. destruct s; [congruence|reflexivity]. Qed.

Theorem update_after w key reg g l p :
  Forall2 (denotes_item w) g l -> past_of w reg p -> usual reg -> counter_rule w key (s_counter reg) l ->
  updateFromDEPGroup w reg g key = Ok (after key reg p l).
Proof.
  intros F P [U1 U2] CR. destruct l as [|x l'] eqn:El.
  { inversion F; subst. reflexivity. }
  rewrite <- El in *. assert (l <> []) as NE by (rewrite El; discriminate).
  rewrite after_fields by exact NE. destruct (regs_fields key l reg p) as (FA & _ & FC & FD). rewrite FA, FC, FD.
  pose proof (counter_after w key (s_counter reg) g l F CR) as CA.
  destruct (exists_last NE) as (l0 & i & Ei). rewrite Ei in F. apply Forall2_app_inv_r in F as (g0 & gb & F0 & Fb & ->).
  inversion Fb as [|b ? gt ? D Ft]; subst gb. inversion Ft; subst gt. clear Fb Ft.
  assert (s_restore (regs key reg p l) = needb (last_of p l0) (i_rec i)) as R by (rewrite Ei, regs_app; reflexivity).
  rewrite R. unfold updateFromDEPGroup. rewrite rev_app_distr in *. cbn [rev app] in *.
  (* second to last *)
  assert (exists stlj, match rev g0 with [] => Ok (s_last reg) | b0 :: _ => do s <- expandDEPReceipt b0; Ok (Some s) end = Ok stlj
    /\ match truthy stlj with None => Ok None | Some s => do rp <- fromJWSString w s; Ok (Some (fst rp)) end
       = Ok (past_obj (last_of p l0))) as (stlj & E1 & E2).
  { destruct (rev g0) as [|b1 r1] eqn:Eg.
    - assert (g0 = []) as -> by (rewrite <- (rev_involutive g0), Eg; reflexivity). inversion F0; subst.
      exists (s_last reg). split; [reflexivity|]. cbn [last_of].
      assert (parse_last w (s_last reg) = Ok (past_obj p)) as PL by (apply parse_last_past; eauto).
      exact PL.
    - assert (g0 = rev r1 ++ [b1]) as -> by (rewrite <- (rev_involutive g0), Eg; reflexivity).
      apply Forall2_app_inv_l in F0 as (l1 & lb & F1 & Fb & ->). inversion Fb as [|? i1 ? lt D1 Ft]; subst. inversion Ft; subst.
      exists (Some (i_jws i1)). rewrite (expand_denotes w b1 i1 D1). split; [reflexivity|].
      pose proof D1 as [_ R1]. rewrite truthy_nonempty by (now apply reads_nonempty in R1).
      rewrite (parse_denotes w b1 i1 D1). cbn [bind fst]. now rewrite last_of_app. }
  rewrite E1. cbn [bind]. rewrite E2. cbn [bind]. rewrite (expand_denotes w b i D). cbn [bind].
  rewrite (parse_denotes w b i D). cbn [bind fst].
  (* restore *)
  pose proof D as [_ RD].
  assert (good_past w (last_of p l0)) as GP.
  { clear - F0 P. destruct l0 as [|y l0'] eqn:E.
    - cbn [last_of]. destruct p as [[s r]|]; [|exact I]. exact (proj2 (proj2 P)).
    - rewrite <- E in *. assert (NE : l0 <> []) by (rewrite E; discriminate). clear E.
      destruct (exists_last NE) as (m & z & ->). rewrite last_of_app. cbn.
      apply Forall2_app_inv_r in F0 as (a & c & _ & Fc & _). inversion Fc as [|? ? ? ? [_ Rz] _]; subst. exact Rz. }
  assert (andR (andR (notR (isSignedBroken (i_rec i)))
                 match past_obj (last_of p l0) with None => Ok false | Some _ => notable (i_rec i) end)
            match past_obj (last_of p l0) with None => Ok false | Some s => isSignedBroken s end
          = Ok (needb (last_of p l0) (i_rec i))) as E3.
  { rewrite (reads_isSignedBroken w _ _ RD), (reads_notable w _ _ RD). unfold needb.
    destruct (last_of p l0) as [[s q]|]; cbn [past_obj option_map snd].
    - cbn [good_past] in GP. rewrite (reads_isSignedBroken w _ _ GP).
      destruct (unsignedb q), (unsignedb (i_rec i)), (notableb (i_rec i)); reflexivity.
    - destruct (unsignedb (i_rec i)); reflexivity. }
  rewrite E3. cbn [bind].
  (* start *)
  assert (match truthy (s_start reg) with
          | Some _ => Ok (s_start reg)
          | None => do s <- expandDEPReceipt (hd b (g0 ++ [b])); Ok (Some s) end
          = Ok (match p, l with None, j :: _ => Some (i_jws j) | _, _ => s_start reg end)) as E4.
  { destruct p as [[s q]|].
    - destruct P as (P1 & P2 & _). destruct (truthy (s_start reg)) eqn:T; [reflexivity|]. apply absent_truthy in T.
      apply U1 in T. rewrite P1 in T. destruct T as [T|T]; [discriminate|]. apply Some_inj in T. contradiction.
    - assert (absent (s_start reg)) as T by (now apply U1). apply absent_truthy in T. rewrite T.
      destruct g0 as [|b0 g0]; inversion F0 as [|? j ? l0' Dj _]; subst l0; rewrite Ei; cbn [app hd].
      + rewrite (expand_denotes w b i D). reflexivity.
      + rewrite (expand_denotes w b0 j Dj). reflexivity. }
  rewrite E4. cbn [bind].
  (* counter *)
  rewrite CA. cbn [bind].
  assert (match l with [] => s_chain reg | _ :: _ => match truthy (s_chain reg) with Some _ => None | None => s_chain reg end end = None) as ->.
  { rewrite El. destruct (s_chain reg) as [[|c0 cs]|] eqn:Ech; cbn [truthy]; [destruct (U2 eq_refl)|reflexivity|reflexivity]. }
  replace (last_of p l) with (as_past i) by (rewrite Ei; symmetry; apply last_of_app). reflexivity.
Qed.

Lemma usual_after w key reg p l : Forall (fun i => reads w (i_jws i) (i_rec i)) l -> past_of w reg p -> usual reg ->
  usual (after key reg p l).
Proof.
  intros R P U. destruct l as [|x l'] eqn:El; [exact U|]. rewrite <- El in *. assert (l <> []) as NE by (rewrite El; discriminate).
  rewrite after_fields by exact NE. destruct (regs_fields key l reg p) as (FA & _ & FC & _). rewrite FA, FC.
  destruct U as [U1 U2]. destruct (exists_last NE) as (l0 & i & Ei).
  assert (last_of p l = as_past i) as LE by (rewrite Ei; apply last_of_app).
  rewrite LE. split; cbn [s_start s_last s_chain].
  - assert (Ri : reads w (i_jws i) (i_rec i)).
    { rewrite Ei in R. apply Forall_app in R as [_ R]. now inversion R. }
    apply reads_nonempty in Ri. cbn [as_past option_map fst]. unfold absent.
    split; [|intros [H|H]; [discriminate|apply Some_inj in H; contradiction]].
    intros H. exfalso. destruct p as [[s q]|].
    + destruct P as (P1 & P2 & _). assert (absent (s_start reg)) as A by exact H. apply U1 in A. rewrite P1 in A.
      destruct A as [A|A]; [discriminate|]. apply Some_inj in A. contradiction.
    + rewrite El in H. rewrite El in R. inversion R as [|? ? Rx _]; subst. apply reads_nonempty in Rx.
      destruct H as [H|H]; [discriminate|]. apply Some_inj in H. contradiction.
  - rewrite El. destruct (s_chain reg) as [[|c0 cs]|] eqn:Ech; cbn [truthy]; congruence.
Qed.

(** The register after verification *)
Lemma groups_after w groups key ps reg u reg' u' :
  Forall (fun g => proper (snd g)) groups ->
  verifyGroupsWithVerifiers w groups key ps reg u = Ok (reg', u') ->
  groups = [] /\ reg' = reg \/
  exists p items, past_of w reg p /\ Forall2 (item_of w) (flat groups) items
    /\ valid_sequence w key ps reg u p items /\ reg' = after key reg p items.
Proof.
  intros Pr H. destruct groups as [|g gs] eqn:E.
  - left. cbn in H. apply Ok_inj in H. injection H as -> _. auto.
  - right. rewrite <- E in *. apply groups_spec in H as (p & items & P & F & V & R & _); [|rewrite E; discriminate|exact Pr].
    exists p, items. split; [exact P|]. split; [exact F|]. split; [exact V|]. now apply (register_after_iff _ _ _ _ _ _ _ _ V) in R.
Qed.

Lemma item_reads w bs l : Forall2 (item_of w) bs l -> Forall (fun i => reads w (i_jws i) (i_rec i)) l.
Proof. induction 1 as [|b i bs l (_ & R & _) F IH]; constructor; assumption. Qed.

Lemma verify_one w g v key ps reg u : verifyGroup w g v key ps reg u = verifyGroupsWithVerifiers w [(g, v)] key ps reg u.
Proof. cbn [verifyGroupsWithVerifiers]. destruct (verifyGroup w g v key ps reg u) as [[a b]|]; reflexivity. Qed.

Theorem update_faithful w g v key ps reg u reg' u' : proper v -> usual reg ->
  verifyGroup w g v key ps reg u = Ok (reg', u') ->
  updateFromDEPGroup w reg g key = Ok reg' /\ usual reg'.
Proof.
  intros Pv U H. rewrite verify_one in H. apply groups_after in H as [[H _]|(p & items & P & F & V & ->)];
    [discriminate| |constructor; [exact Pv|constructor]].
  cbn [flat flat_map fst snd] in F. rewrite app_nil_r in F. pose proof (item_reads _ _ _ F) as R. apply item_denotes in F.
  split; [|eapply usual_after; eassumption]. apply update_after; [exact F|exact P|exact U|]. apply V.
Qed.

Theorem predict_faithful w groups key ps : forall reg u reg' u', Forall (fun g => proper (snd g)) groups -> usual reg ->
  verifyGroupsWithVerifiers w groups key ps reg u = Ok (reg', u') ->
  predict_groups w key reg groups = Ok reg' /\ usual reg'.
Proof.
  induction groups as [|[g v] groups IH]; intros reg u reg' u' Pr U H.
  - cbn in *. apply Ok_inj in H. injection H as -> _. auto.
  - inversion Pr as [|? ? Pv Pr']; subst. cbn [verifyGroupsWithVerifiers] in H. apply bind_Ok in H as ([r1 u1] & H1 & H).
    cbn [fst snd] in *. apply update_faithful in H1 as [E1 U1]; [|exact Pv|exact U].
    cbn [predict_groups]. unfold fromDEPGroup. rewrite E1. cbn [bind]. eapply IH; eassumption.
Qed.
