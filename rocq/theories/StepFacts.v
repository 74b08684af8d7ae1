(** One turn of the loop of verifyGroup meets the specification. *)
From Verif Require Import PyBase World Codec PyFloat PyTime Algo Receipt ListFacts CodecFacts SpecReceipt ReceiptFacts
  RoundTrip DepBase Json KeyStore VerifyReceipt State DepParser Verify SpecDep VerifyFacts.
Open Scope N_scope.
Open Scope py_scope.

Lemma absent_truthy o : absent o <-> truthy o = None.
Proof.
  unfold absent. destruct o as [[|c s]|]; cbn; split; auto; try discriminate.
  intros [H|H]; discriminate.
Qed.

Lemma is_AT0_iff r : is_AT0 r = true <-> closed r.
Proof. apply str_eqb_eq. Qed.

Lemma is_AT0_false r : is_AT0 r = false <-> ~ closed r.
Proof. rewrite <- is_AT0_iff. destruct (is_AT0 r); split; congruence. Qed.

(** The object that precedes. *)
Definition past_obj (p : option past) : option receipt := option_map snd p.
Definition good_past (w : world) (p : option past) : Prop :=
  match p with None => True | Some (s, r) => reads w s r end.

Definition needb (p : option past) (ro : receipt) : bool :=
  match p with
  | None => false
  | Some (_, q) => unsignedb q && negb (unsignedb ro) && notableb ro
  end.

Lemma notableb_true r : notableb r = true <-> ~ (zero r /\ standard r).
Proof. rewrite <- notableb_iff. destruct (notableb r); split; congruence. Qed.

Lemma unsignedb_false r : unsignedb r = false <-> ~ unsigned r.
Proof. rewrite <- unsignedb_iff. destruct (unsignedb r); split; congruence. Qed.

Lemma needb_iff p ro : needb p ro = true <-> calls_for_restore p ro.
Proof.
  unfold needb, calls_for_restore. destruct p as [[s q]|].
  - rewrite !andb_true_iff, negb_true_iff, unsignedb_false, unsignedb_iff, notableb_true. split.
    + intros [[A B] C]. exists s, q. auto.
    + intros (s' & q' & E & A & B & C). injection E as -> ->. auto.
  - split; [discriminate|]. intros (s' & q' & E & _). discriminate.
Qed.

Lemma plain_zero_iff r : plain_zero r <-> unsignedb r = false /\ notableb r = false.
Proof. unfold plain_zero. rewrite notableb_iff, unsignedb_false. tauto. Qed.

Lemma check_signature_reads w v po need r x :
  check_signature w v po need r = Ok x -> exists ro, reads w r ro.
Proof.
  unfold check_signature, verifyJWS. destruct (fromJWSString w r) as [[ro alg]|e] eqn:P.
  - intros _. apply parse_reads in P as [_ P]. eauto.
  - cbn [bind]. destruct (nonfatal e); discriminate.
Qed.

Lemma check_signature_spec w v p need r ro x :
  proper v -> good_past w p -> reads w r ro ->
  check_signature w v (past_obj p) need r = Ok x <->
  authentic w v ro /\ (p = None -> ~ unsigned ro) /\ (p <> None -> need = true -> plain_zero ro)
  /\ x = (ro, needb p ro).
Proof.
  intros Pv Gp R. unfold check_signature.
  assert (fromJWSString w r = Ok (ro, lit "R1")) as P by now apply parse_reads.
  destruct (verifyJWS_spec w v r ro Pv R) as [(A & U & ->)|[(A & U & e & -> & E)|(A & e & -> & E)]].
  - destruct p as [[s q]|]; cbn [past_obj option_map snd].
    + rewrite (reads_notable _ _ _ R). cbn [bind]. rewrite (reads_isSignedBroken _ _ _ Gp). cbn [bind].
      assert (unsignedb ro = false) as UB by (rewrite <- not_true_iff_false, unsignedb_iff; assumption).
      rewrite plain_zero_iff. unfold needb. rewrite UB. cbn [negb]. rewrite andb_true_r.
      destruct (notableb ro), need, (unsignedb q); cbn; split;
        try discriminate;
        try (intros H; apply Ok_inj in H; subst; split; [exact A|split; [auto|split; [auto; congruence|reflexivity]]]);
        intros (_ & _ & H & ->); try reflexivity; destruct (H ltac:(discriminate) eq_refl); discriminate.
    + unfold needb. split.
      * intros H. apply Ok_inj in H. subst. split; [exact A|split; [auto|split; [congruence|reflexivity]]].
      * now intros (_ & _ & _ & ->).
  - replace (nonfatal e) with true by (destruct E; now subst). rewrite P. cbn [bind fst].
    assert (unsignedb ro = true) as UB by now apply unsignedb_iff.
    destruct p as [[s q]|]; cbn [past_obj option_map snd].
    + unfold needb. rewrite UB, plain_zero_iff, UB. cbn [negb]. rewrite andb_false_r. cbn [andb].
      destruct need; cbn [negb]; split; try discriminate.
      * intros (_ & _ & H & _). destruct (H ltac:(discriminate) eq_refl). discriminate.
      * intros H. apply Ok_inj in H. subst. split; [exact A|split; [congruence|split; [congruence|reflexivity]]].
      * now intros (_ & _ & _ & ->).
    + split; [discriminate|]. intros (_ & H & _). now destruct (H eq_refl).
  - replace (nonfatal e) with false by (destruct E as [E|[E|E]]; now subst).
    split; [discriminate|]. tauto.
Qed.

Lemma check_initial_spec w ps prev s ro x :
  reads w s ro -> truthy prev = None ->
  check_initial w ps prev ro = Ok x <->
  zero ro /\ standard ro /\ exists q, cluster_past w ps q
    /\ (forall s' q', q = Some (s', q') -> closed ro /\ closed q')
    /\ x = (match q with Some (s', _) => Some s' | None => prev end, past_obj q).
Proof.
  intros R NP. unfold check_initial, orR.
  rewrite (reads_isDummy _ _ _ R), (reads_isReversal _ _ _ R). cbn [bind].
  destruct (isNull ro) eqn:N.
  2:{ split; [discriminate|]. intros [H _]. apply isNull_iff in H. congruence. }
  apply isNull_iff in N.
  destruct (trainb ro || cancelb ro) eqn:T.
  { split.
    - destruct (trainb ro), (cancelb ro); cbn in *; discriminate.
    - intros (_ & H & _). apply standardb_iff in H. congruence. }
  assert (T' := T). apply standardb_iff in T'. apply orb_false_iff in T as [-> ->]. cbn [bind negb].
  destruct (truthy ps) as [s'|] eqn:E.
  - apply truthy_Some in E as [-> NE]. destruct (is_AT0 ro) eqn:C.
    2:{ split; [discriminate|]. intros (_ & _ & q & Q & H & _). apply is_AT0_false in C. destruct q as [[a b]|].
        - now destruct (H a b eq_refl).
        - destruct Q as [Q|Q]; [discriminate|]. apply Some_inj in Q. congruence. }
    apply is_AT0_iff in C. destruct (fromJWSString w s') as [[q alg]|e] eqn:P; cbn [bind fst].
    + apply parse_reads in P as [_ P]. destruct (is_AT0 q) eqn:D.
      * apply is_AT0_iff in D. split.
        -- intros H. apply Ok_inj in H. subst x. split; [assumption|]. split; [assumption|].
           exists (Some (s', q)). split; [|split].
           ++ cbn. auto.
           ++ intros a b Eab. injection Eab as <- <-. auto.
           ++ reflexivity.
        -- intros (_ & _ & q0 & Q & _ & ->). destruct q0 as [[a b]|].
           ++ destruct Q as (Q & _ & Rb). injection Q as <-. now rewrite (reads_fun _ _ _ _ P Rb).
           ++ destruct Q as [Q|Q]; [discriminate|]. apply Some_inj in Q. congruence.
      * split; [discriminate|]. intros (_ & _ & q0 & Q & H & _). apply is_AT0_false in D. destruct q0 as [[a b]|].
        -- destruct Q as (Q & _ & Rb). injection Q as <-. rewrite (reads_fun _ _ _ _ P Rb) in D.
           now destruct (H s' b eq_refl).
        -- destruct Q as [Q|Q]; [discriminate|]. apply Some_inj in Q. congruence.
    + split; [discriminate|]. intros (_ & _ & q0 & Q & _ & _). destruct q0 as [[a b]|].
      * destruct Q as (Q & _ & Rb). injection Q as <-.
        assert (fromJWSString w s' = Ok (b, lit "R1")) by now apply parse_reads. congruence.
      * destruct Q as [Q|Q]; [discriminate|]. apply Some_inj in Q. congruence.
  - apply absent_truthy in E. split.
    + intros H. apply Ok_inj in H. subst x. split; [assumption|]. split; [assumption|].
      exists None. split; [exact E|]. split; [discriminate|]. reflexivity.
    + intros (_ & _ & q & Q & _ & ->). destruct q as [[a b]|]; [|reflexivity].
      destruct Q as (-> & NE & _). destruct E as [E|E]; [discriminate|]. apply Some_inj in E. congruence.
Qed.

Lemma check_previous_spec w q u i :
  check_previous w (past_obj q) u (i_rec i) = Ok tt <->
  consistent (q, i) /\ (is_some q = true -> used_check w u (r_receiptId (i_rec i)) = Ok tt).
Proof.
  unfold check_previous, consistent, not_before. cbn [fst snd]. destruct q as [[s p]|]; cbn [past_obj option_map snd is_some].
  - rewrite bind_Ok. split.
    + intros ([] & U & H). split; [|auto]. intros s' p' E. injection E as <- <-.
      destruct (str_eqb (r_registerId p) (r_registerId (i_rec i))) eqn:E1; [|discriminate].
      destruct (negb ((is_AT0 p && negb (is_AT0 (i_rec i))) || (negb (is_AT0 p) && is_AT0 (i_rec i)))) eqn:E2; [|discriminate].
      destruct (dt_ltb (r_dateTime (i_rec i)) (r_dateTime p)) eqn:E3; [discriminate|].
      apply str_eqb_eq in E1. split; [auto|]. split; [|reflexivity].
      rewrite <- !is_AT0_iff. destruct (is_AT0 p), (is_AT0 (i_rec i)); cbn in E2; try discriminate; tauto.
    + intros [C U]. exists tt. split; [now apply U|]. destruct (C s p eq_refl) as (E1 & E2 & E3).
      rewrite E1, str_eqb_refl, E3. rewrite <- !is_AT0_iff in E2.
      destruct (is_AT0 p), (is_AT0 (i_rec i)); cbn; try reflexivity; exfalso;
        [enough (false = true) by discriminate; now apply E2|enough (false = true) by discriminate; now apply E2].
  - split; [|reflexivity]. intros _. split; [discriminate|congruence].
Qed.

Lemma verifyChainValue_Ok r v : verifyChainValue r v = Ok tt <-> r_previousChain r = v.
Proof.
  unfold verifyChainValue. destruct (str_eqb v (r_previousChain r)) eqn:E.
  - apply str_eqb_eq in E. split; auto.
  - apply str_eqb_neq in E. split; [discriminate|congruence].
Qed.

Lemma check_chain_spec w ps reg q prev i x :
  truthy prev = option_map fst q ->
  check_chain w ps reg prev (i_jws i) (i_rec i) = Ok x <->
  (match truthy (s_chain reg) with
   | Some v => r_previousChain (i_rec i) = v
   | None => chained w (q, i)
   end) /\ x = match truthy (s_chain reg) with Some _ => None | None => s_chain reg end.
Proof.
  intros E.
  assert (check_chain w ps reg prev (i_jws i) (i_rec i) = Ok x <->
          match truthy (s_chain reg) with
          | Some v => do _x <- verifyChainValue (i_rec i) v; Ok None
          | None => do _x <- verifyChain w (i_rec i) prev; Ok (s_chain reg)
          end = Ok x) as L.
  { unfold check_chain. match goal with |- _ <-> ?m = _ => destruct m as [y|e] end; [reflexivity|].
    destruct e; try reflexivity.
    destruct (match s_start reg with Some s => _ | None => _ end); [|reflexivity].
    destruct (truthy ps); split; discriminate. }
  rewrite L. clear L. destruct (truthy (s_chain reg)) as [v|] eqn:T.
  - rewrite bind_Ok. split.
    + intros ([] & V & X). apply verifyChainValue_Ok in V. apply Ok_inj in X. auto.
    + intros (V & ->). exists tt. split; [now apply verifyChainValue_Ok|reflexivity].
  - rewrite bind_Ok. unfold verifyChain, chained, chain_value, r1_chain, r1_hash. cbn [fst snd]. rewrite E.
    assert (forall t,
      (exists _ : unit, (do v <- do h <- do b <- utf8_encode t; Ok (w_sha256 w b); Ok (firstn 8 h);
            verifyChainValue (i_rec i) (b64encode v)) = Ok tt /\ Ok (s_chain reg) = Ok x) <->
      (exists b, utf8_encode t = Ok b /\ r_previousChain (i_rec i) = b64encode (firstn 8 (w_sha256 w b)))
      /\ x = s_chain reg) as L.
    { intros t. split.
      - intros ([] & V & X). apply Ok_inj in X. subst x. split; [|reflexivity].
        apply bind_Ok in V as (v & V & C). apply bind_Ok in V as (h & V & Hv). apply bind_Ok in V as (b & Hb & Hh).
        apply Ok_inj in Hv, Hh. subst. apply verifyChainValue_Ok in C. exists b. auto.
      - intros ((b & Hb & V) & ->). exists tt. split; [|reflexivity]. rewrite Hb. cbn [bind].
        now apply verifyChainValue_Ok. }
    destruct q as [[a b]|]; cbn [option_map fst]; rewrite <- L;
      (split; [intros ([] & V); now exists tt|intros (? & V); now exists tt]).
Qed.

(** The counter after a receipt. *)
Definition count (key : option bytes) (c : Z) (ro : receipt) : Z :=
  match key with
  | None => c
  | Some _ => if trainb ro then c else match cents ro with Ok z => (c + z)%Z | Err _ => c end
  end.

Definition counter_ok (w : world) (key : option bytes) (c : Z) (ro : receipt) : Prop :=
  forall k, key = Some k -> ~ training ro ->
    List.length k = 32%nat /\ exists z, cents ro = Ok z /\ (standard ro -> decrypts w k ro (c + z)%Z).

Lemma check_counter_spec w key c s ro x :
  reads w s ro ->
  check_counter w key c ro = Ok x <-> counter_ok w key c ro /\ x = count key c ro.
Proof.
  intros R. unfold check_counter, counter_ok, count. rewrite (reads_isDummy _ _ _ R), (reads_isReversal _ _ _ R).
  cbn [bind]. destruct (trainb ro) eqn:T.
  - assert (T' := T). apply trainb_iff in T'. destruct key as [k|].
    + split.
      * intros H. apply Ok_inj in H. split; [|auto]. intros k' _ NT. contradiction.
      * now intros (_ & ->).
    + split; [|now intros (_ & ->)]. intros H. apply Ok_inj in H. split; [discriminate|auto].
  - assert (~ training ro) as NT by (rewrite <- trainb_iff; congruence).
    destruct key as [k|].
    2:{ split; [|now intros (_ & ->)]. intros H. apply Ok_inj in H. split; [discriminate|auto]. }
    unfold raiseForKey, r1_verifyKey. destruct (List.length k =? 32)%nat eqn:L; cbn [bind].
    2:{ split; [discriminate|]. intros (H & _). destruct (H k eq_refl NT) as [H' _].
        apply Nat.eqb_neq in L. contradiction. }
    apply Nat.eqb_eq in L. destruct (cents ro) as [z|e] eqn:C; cbn [bind].
    2:{ split; [discriminate|]. intros (H & _). destruct (H k eq_refl NT) as (_ & z & H' & _). discriminate. }
    destruct (cancelb ro) eqn:V.
    + split.
      * intros H. apply Ok_inj in H. split; [|auto]. intros k' E _. split; [congruence|].
        exists z. split; [reflexivity|]. intros [_ NC]. apply cancelb_iff in V. contradiction.
      * now intros (_ & ->).
    + assert (standard ro) as S by (apply standardb_iff; now rewrite T, V).
      rewrite bind_Ok. unfold decrypts. split.
      * intros (tc & D & H). destruct (Z.eqb_spec tc (c + z)%Z) as [->|]; [|discriminate].
        apply Ok_inj in H. split; [|auto]. intros k' E _. apply Some_inj in E. subst k'. split; [assumption|].
        exists z. auto.
      * intros (H & ->). destruct (H k eq_refl NT) as (_ & z' & E & D). apply Ok_inj in E. subst z'.
        exists (c + z)%Z. split; [now apply D|]. now rewrite Z.eqb_refl.
Qed.

(** The state of the loop that corresponds to a preceding receipt. *)
Definition st_past (w : world) (s : vstate) (p : option past) : Prop :=
  truthy (vs_prev s) = option_map fst p /\ vs_prevObj s = past_obj p /\ good_past w p.

(** The conditions of one turn. *)
Definition step_ok (w : world) (key : option bytes) (ps : option str) (reg : regstate) (u : used)
    (p : option past) (i : item) : Prop :=
  authentic w (i_ver i) (i_rec i)
  /\ (p = None -> plain_zero (i_rec i)
        /\ forall s q, cluster_past w ps (Some (s, q)) -> closed (i_rec i) /\ closed q)
  /\ (s_restore reg = true -> plain_zero (i_rec i))
  /\ counter_ok w key (s_counter reg) (i_rec i)
  /\ exists q, effective_past w ps p q
       /\ consistent (q, i)
       /\ (match truthy (s_chain reg) with
           | Some v => r_previousChain (i_rec i) = v
           | None => chained w (q, i)
           end)
       /\ (is_some q = true -> used_check w u (r_receiptId (i_rec i)) = Ok tt).

Definition reg_step (key : option bytes) (reg : regstate) (p : option past) (i : item) : regstate :=
  RegState (match p with None => Some (i_jws i) | Some _ => s_start reg end) (s_last reg)
    (count key (s_counter reg) (i_rec i)) (needb p (i_rec i))
    (match truthy (s_chain reg) with Some _ => None | None => s_chain reg end).

Definition next_state (key : option bytes) (s : vstate) (p : option past) (i : item) : vstate :=
  VState (Some (i_jws i)) (Some (i_rec i)) (reg_step key (vs_reg s) p i)
    (used_add (vs_used s) (r_receiptId (i_rec i))).

Lemma next_st_past w key s p i :
  reads w (i_jws i) (i_rec i) -> st_past w (next_state key s p i) (Some (i_jws i, i_rec i)).
Proof.
  intros R. unfold st_past, next_state. cbn [vs_prev vs_prevObj past_obj option_map fst snd good_past].
  split; [|auto]. apply truthy_Some. split; [reflexivity|]. now apply reads_nonempty in R.
Qed.

Lemma expand_iff b s : expandDEPReceipt b = Ok s <-> utf8_decode b = Ok s.
Proof. unfold expandDEPReceipt. apply catch_Ok. Qed.

Lemma cluster_past_fun w ps q q' : cluster_past w ps q -> cluster_past w ps q' -> q = q'.
Proof.
  destruct q as [[a b]|], q' as [[a' b']|]; cbn.
  - intros (-> & N & R) (E & _ & R'). injection E as <-. now rewrite (reads_fun _ _ _ _ R R').
  - intros (-> & N & R) [H|H]; [discriminate|]. apply Some_inj in H. congruence.
  - intros [H|H] (-> & N & R); [discriminate|]. apply Some_inj in H. congruence.
  - reflexivity.
Qed.

Theorem verify_step_spec w v key ps s cr p s' :
  proper v -> st_past w s p ->
  verify_step w v key ps s cr = Ok s' <->
  exists i, item_of w (cr, v) i /\ step_ok w key ps (vs_reg s) (vs_used s) p i /\ s' = next_state key s p i.
Proof.
  intros Pv (SP & SO & GP). unfold verify_step. rewrite bind_Ok. unfold item_of. cbn [fst snd]. split.
  - intros (r & X & H). apply expand_iff in X. apply bind_Ok in H as ([ro n] & C & H).
    destruct (check_signature_reads _ _ _ _ _ _ C) as [ro' R].
    rewrite SO in C. apply (check_signature_spec _ _ _ _ _ _ _ Pv GP R) in C as (A & C1 & C2 & E).
    injection E as -> ->. cbn [fst snd] in H. rename ro' into ro.
    apply bind_Ok in H as ([[prev po] reg] & I & H). cbn [fst snd] in H.
    set (i := Item r ro v).
    assert (exists q, effective_past w ps p q /\ truthy prev = option_map fst q /\ po = past_obj q
            /\ (p = None -> plain_zero ro /\ forall a b, cluster_past w ps (Some (a, b)) -> closed ro /\ closed b)
            /\ reg = RegState (match p with None => Some r | Some _ => s_start (vs_reg s) end) (s_last (vs_reg s))
                 (s_counter (vs_reg s)) (needb p ro) (s_chain (vs_reg s)))
      as (q & Q1 & Q2 & Q3 & Q4 & Q5).
    { rewrite SO in I. destruct p as [[a b]|]; cbn [past_obj option_map snd] in I.
      - apply Ok_inj in I. injection I as <- <- <-. exists (Some (a, b)). repeat split; try assumption; try congruence.
      - apply bind_Ok in I as (pp & I & E). apply Ok_inj in E. injection E as <- <- <-.
        apply (check_initial_spec _ _ _ _ _ _ R) in I as (Z & St & q & Q & QC & ->); [|exact SP].
        exists q. split; [exact Q|]. split; [|split; [reflexivity|split; [|reflexivity]]].
        + destruct q as [[a b]|]; cbn [option_map fst]; [|exact SP]. apply truthy_Some. destruct Q as (_ & N & _). auto.
        + intros _. split; [exact (conj (C1 eq_refl) (conj Z St))|]. intros a b Hab.
          apply QC with a. now rewrite (cluster_past_fun _ _ _ _ Hab Q). }
    apply bind_Ok in H as ([] & CP & H). apply bind_Ok in H as (cn & CC & H). apply bind_Ok in H as (c & CT & H).
    apply Ok_inj in H. subst s' reg po.
    apply (check_previous_spec w q (vs_used s) i) in CP as [CP1 CP2].
    apply (check_chain_spec w ps _ q prev i) in CC as [CC1 CC2]; [|assumption].
    cbn [s_chain s_counter s_start s_last s_restore] in *.
    apply (check_counter_spec _ _ _ _ _ _ R) in CT as [CT1 CT2]. subst c cn.
    exists i. split; [auto|]. split.
    + split; [exact A|]. split; [exact Q4|]. split.
      { intros N. destruct p as [x|]; [apply C2; [discriminate|assumption]|]. now apply Q4. }
      split; [exact CT1|]. exists q. auto.
    + reflexivity.
  - intros (i & (X & R & V) & (A & Q4 & N & CT & q & Q & CP & CC & U) & ->).
    exists (i_jws i). split; [now apply expand_iff|]. rewrite SO.
    assert (check_signature w v (past_obj p) (s_restore (vs_reg s)) (i_jws i) = Ok (i_rec i, needb p (i_rec i))) as E.
    { apply (check_signature_spec _ _ _ _ _ _ _ Pv GP R). rewrite <- V. split; [exact A|]. split.
      - intros E. apply Q4 in E as [[E _] _]. exact E.
      - auto. }
    rewrite E. cbn [bind fst snd]. clear E.
    assert (exists prev, truthy prev = option_map fst q /\
      match past_obj p with
      | Some p0 => Ok (vs_prev s, Some p0, set_restore (vs_reg s) (needb p (i_rec i)))
      | None => do pp <- check_initial w ps (vs_prev s) (i_rec i);
                Ok (fst pp, snd pp, set_start (set_restore (vs_reg s) (needb p (i_rec i))) (i_jws i))
      end = Ok (prev, past_obj q, RegState (match p with None => Some (i_jws i) | Some _ => s_start (vs_reg s) end) (s_last (vs_reg s))
                 (s_counter (vs_reg s)) (needb p (i_rec i)) (s_chain (vs_reg s)))) as (prev & E1 & E2).
    { destruct p as [[a b]|]; cbn [past_obj option_map snd].
      - cbn in Q. subst q. exists (vs_prev s). split; [exact SP|reflexivity].
      - cbn in Q. exists (match q with Some (s', _) => Some s' | None => vs_prev s end). split.
        + destruct q as [[a b]|]; [|exact SP]. cbn [option_map fst]. apply truthy_Some. destruct Q as (_ & NE & _). auto.
        + destruct (Q4 eq_refl) as [(_ & Z & St) QC].
          assert (check_initial w ps (vs_prev s) (i_rec i)
                  = Ok (match q with Some (s', _) => Some s' | None => vs_prev s end, past_obj q)) as I.
          { apply (check_initial_spec _ _ _ _ _ _ R SP). split; [exact Z|]. split; [exact St|].
            exists q. split; [exact Q|]. split; [|reflexivity]. intros a b ->. now apply QC in Q. }
          rewrite I. reflexivity. }
    rewrite E2. cbn [bind fst snd].
    assert (check_previous w (past_obj q) (vs_used s) (i_rec i) = Ok tt) as E3 by (apply check_previous_spec; auto).
    rewrite E3. cbn [bind].
    assert (check_chain w ps (RegState (match p with None => Some (i_jws i) | Some _ => s_start (vs_reg s) end) (s_last (vs_reg s))
                 (s_counter (vs_reg s)) (needb p (i_rec i)) (s_chain (vs_reg s))) prev (i_jws i) (i_rec i)
            = Ok (match truthy (s_chain (vs_reg s)) with Some _ => None | None => s_chain (vs_reg s) end)) as E4.
    { apply (check_chain_spec w ps _ q prev i); [exact E1|]. cbn [s_chain]. auto. }
    rewrite E4. cbn [bind s_start s_last s_counter s_restore s_chain].
    assert (check_counter w key (s_counter (vs_reg s)) (i_rec i) = Ok (count key (s_counter (vs_reg s)) (i_rec i))) as E5.
    { apply (check_counter_spec _ _ _ _ _ _ R). auto. }
    rewrite E5. reflexivity.
Qed.
