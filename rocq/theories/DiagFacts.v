(** The exceptions of verification are right. *)
From Coq Require Import Lia ZifyClasses ZifyN ZifyNat ZifyBool.
From Verif Require Import PyBase World Codec PyFloat PyTime Algo Receipt DepBase Json Pem KeyStore VerifyReceipt State DepParser Verify
  ListFacts CodecFacts CodecFacts2 SpecReceipt ReceiptFacts RoundTrip RoundTrip2 SpecDep VerifyFacts StepFacts DepFacts SpecCluster ClusterFacts
  SpecDoc SeqFacts AcceptFacts CounterFacts SpecClean CleanFacts SpecReading ReadingFacts SpecDiag.
Open Scope N_scope.
Open Scope py_scope.

Lemma nat_key_err w s e : nat_key w s = Err e -> e = PyTypeError \/ e = PyValueError.
Proof.
  unfold nat_key. revert e. induction (num_split s) as [|x l IH]; intros e; cbn [mapM]; [discriminate|].
  destruct (convert_piece w x) as [y|e'] eqn:C; cbn [bind].
  - destruct (mapM (convert_piece w) l) as [ys|e']; cbn [bind]; [discriminate|]. intros H. injection H as <-. now apply IH.
  - intros H. injection H as <-. unfold convert_piece in C. destruct (isdigit w x); [|discriminate].
    destruct (py_int w 10 x); [discriminate|]. injection C as <-. auto.
Qed.
Lemma key_lt_err a : forall b e, key_lt a b = Err e -> e = PyTypeError.
Proof.
  induction a as [|x a IH]; intros [|y b] e; cbn [key_lt]; try discriminate. destruct x, y.
  - destruct (_ =? _)%Z; [apply IH|discriminate].
  - intros H. now injection H as <-.
  - intros H. now injection H as <-.
  - destruct (str_eqb _ _); [apply IH|discriminate].
Qed.

Section Step.
Context (w : world) (key : option bytes) (ps : option str).

Lemma fault_verify v reg u p t r e : proper v -> reads w t r -> verifyJWS w v t = Err e -> nonfatal e = false ->
  fault w key ps reg u p (Item t r v) e.
Proof.
  intros Pv R. unfold verifyJWS. assert (fromJWSString w t = Ok (r, lit "R1")) as P by now apply parse_reads.
  rewrite P. cbn [bind fst snd]. unfold verify. change (known_alg (lit "R1")) with true. cbn iota.
  destruct (choose_key_spec w v r t Pv R) as [(C & o & K & Ko)|(C & K)]; rewrite K; cbn [bind].
  2:{ intros H _. injection H as <-. exact (f_serial w key ps reg u p (Item t r v) C). }
  rewrite (reads_isSignedBroken _ _ _ R). cbn [bind]. destruct (unsignedb r) eqn:U.
  - rewrite (reads_isDummy _ _ _ R), (reads_isReversal _ _ _ R). cbn [bind]. intros H N. exfalso.
    destruct (trainb r), (cancelb r), (isNull r); cbn [bind negb andb] in H; injection H as <-; discriminate N.
  - assert (~ unsigned r) as NU by (rewrite <- unsignedb_iff; congruence).
    destruct o as [k|].
    + destruct (r1_verify_spec w r k t R) as (jws & J & V). rewrite J. cbn [bind].
      destruct (r1_verify w jws k) eqn:E; [discriminate|]. intros H _. injection H as <-.
      apply (f_signature w key ps reg u p (Item t r v) k); cbn [i_rec i_ver]; [exact NU|now apply Ko|].
      intros S. apply V in S. congruence.
    + intros H _. injection H as <-. apply (f_no_key w key ps reg u p (Item t r v)); cbn [i_rec i_ver]; [exact NU|].
      intros k K'. apply Ko in K'. discriminate.
Qed.

Lemma fault_signature v p reg u t r e : proper v -> good_past w p -> reads w t r ->
  check_signature w v (past_obj p) (s_restore reg) t = Err e -> fault w key ps reg u p (Item t r v) e.
Proof.
  intros Pv Gp R. unfold check_signature.
  assert (fromJWSString w t = Ok (r, lit "R1")) as P by now apply parse_reads.
  destruct (verifyJWS w v t) as [[ro alg]|e'] eqn:V.
  - assert (ro = r) as ->.
    { destruct (verifyJWS_spec w v t r Pv R) as [(_ & _ & X)|[(_ & _ & x & X & _)|(_ & x & X & _)]]; rewrite V in X; try discriminate.
      apply Ok_inj in X. now injection X as -> _. }
    destruct p as [[s q]|]; cbn [past_obj option_map snd]; [|discriminate].
    rewrite (reads_notable _ _ _ R). cbn [bind]. destruct (notableb r) eqn:N; [|discriminate].
    destruct (s_restore reg) eqn:NR; cbn [negb].
    + intros H. injection H as <-. apply (f_restore w key ps reg u (Some (s, q)) (Item t r v)); cbn [i_rec]; [discriminate|exact NR|].
      rewrite plain_zero_iff. intros [_ X]. congruence.
    + rewrite (reads_isSignedBroken _ _ _ Gp). discriminate.
  - destruct (nonfatal e') eqn:N.
    2:{ intros H. injection H as <-. now apply (fault_verify v reg u p t r e'). }
    rewrite P. cbn [bind fst].
    assert (unsigned r) as U.
    { destruct (verifyJWS_spec w v t r Pv R) as [(_ & _ & X)|[(_ & U & _)|(_ & x & X & Y)]]; [congruence|exact U|].
      rewrite V in X. injection X as ->. destruct Y as [->|[->| ->]]; discriminate N. }
    destruct p as [[s q]|]; cbn [past_obj option_map snd].
    + destruct (s_restore reg) eqn:NR; cbn [negb]; [|discriminate]. intros H. injection H as <-.
      apply (f_restore w key ps reg u (Some (s, q)) (Item t r v)); cbn [i_rec]; [discriminate|exact NR|].
      intros [X _]. contradiction.
    + intros H. injection H as <-. now apply (f_start_unsigned w key ps reg u None (Item t r v)).
Qed.

Lemma fault_initial v reg u prev t r e : start_readable w ps -> reads w t r ->
  check_initial w ps prev r = Err e -> fault w key ps reg u None (Item t r v) e.
Proof.
  intros [q SR] R. unfold check_initial, orR. rewrite (reads_isDummy _ _ _ R), (reads_isReversal _ _ _ R). cbn [bind].
  destruct (isNull r) eqn:N.
  2:{ intros H. injection H as <-. apply (f_start_turnover w key ps reg u None (Item t r v)); [reflexivity|].
      cbn [i_rec]. rewrite <- isNull_iff. congruence. }
  destruct (trainb r || cancelb r) eqn:T.
  { assert (~ standard r) as NS by (rewrite <- standardb_iff; congruence).
    intros H. assert (e = NonstandardTypeOnInitial (r_receiptId r)) as ->
      by (destruct (trainb r), (cancelb r); cbn in *; try discriminate; now injection H as <-).
    now apply (f_start_type w key ps reg u None (Item t r v)). }
  apply orb_false_iff in T as [-> ->]. cbn [bind negb].
  destruct (truthy ps) as [s'|] eqn:E; [|discriminate].
  apply truthy_Some in E as [Eps NE].
  destruct (is_AT0 r) eqn:C.
  2:{ intros H. injection H as <-. apply is_AT0_false in C.
      apply (f_start_open w key ps reg u None (Item t r v) s'); auto. }
  destruct q as [[a b]|].
  2:{ destruct SR as [SR|SR]; rewrite Eps in SR; [discriminate|]. apply Some_inj in SR. congruence. }
  destruct SR as (SR & _ & Rb). rewrite Eps in SR. apply Some_inj in SR. subst a.
  assert (fromJWSString w s' = Ok (b, lit "R1")) as -> by now apply parse_reads. cbn [bind fst].
  destruct (is_AT0 b) eqn:D; [discriminate|]. intros H. injection H as <-. apply is_AT0_false in D.
  apply (f_start_open w key ps reg u None (Item t r v) s'); eauto.
Qed.

Lemma used_check_diag u i e : used_check w u i = Err e ->
  (id_taken w u i /\ e = DuplicateReceiptId i) \/ (id_unordered w u i /\ (e = PyTypeError \/ e = PyValueError)).
Proof.
  intros H. destruct u as [l|mi [m|]]; cbn [used_check] in H; [| |discriminate].
  - destruct (mem i l) eqn:M; cbn [negb] in H; [|discriminate]. injection H as <-. left. split; [|reflexivity].
    now apply mem_In in M.
  - assert ((e = PyTypeError \/ e = PyValueError) \/ id_taken w (Natural mi (Some m)) i /\ e = DuplicateReceiptId i) as K.
    { destruct (nat_key w m) as [ka|x] eqn:A; cbn [bind] in H.
      2:{ left. injection H as <-. exact (nat_key_err w m x A). }
      destruct (nat_key w i) as [kb|x] eqn:B; cbn [bind] in H.
      2:{ left. injection H as <-. exact (nat_key_err w i x B). }
      destruct (key_lt ka kb) as [[]|x] eqn:L; cbn [bind] in H; [discriminate| |].
      - right. injection H as <-. split; [|reflexivity]. cbn [id_taken]. eauto.
      - left. injection H as <-. left. exact (key_lt_err ka kb x L). }
    destruct K as [K|K]; [|now left]. right. split; [|exact K]. exists mi, m. split; [reflexivity|].
    intros ka kb b A B L. rewrite A, B in H. cbn [bind] in H. rewrite L in H. cbn [bind] in H.
    destruct b; [discriminate|]. injection H as <-. destruct K; discriminate.
Qed.

Lemma fault_previous v reg u p q t r e : effective_past w ps p q ->
  check_previous w (past_obj q) u r = Err e -> fault w key ps reg u p (Item t r v) e.
Proof.
  intros Q. unfold check_previous. destruct q as [[s b]|]; cbn [past_obj option_map snd]; [|discriminate].
  destruct (used_check w u (r_receiptId r)) as [[]|e'] eqn:U; cbn [bind].
  2:{ intros H. injection H as <-. destruct (used_check_diag _ _ _ U) as [(T & ->)|(T & X)].
      - now apply (f_id w key ps reg u p (Item t r v) (s, b)).
      - now apply (f_order w key ps reg u p (Item t r v) (s, b)). }
  destruct (str_eqb (r_registerId b) (r_registerId r)) eqn:E1.
  2:{ intros H. injection H as <-. apply str_eqb_neq in E1. apply (f_register w key ps reg u p (Item t r v) s b); [exact Q|].
      cbn [i_rec]. congruence. }
  destruct (negb ((is_AT0 b && negb (is_AT0 r)) || (negb (is_AT0 b) && is_AT0 r))) eqn:E2.
  2:{ intros H. injection H as <-. apply (f_system w key ps reg u p (Item t r v) s b); [exact Q|].
      cbn [i_rec]. rewrite <- !is_AT0_iff. destruct (is_AT0 b), (is_AT0 r); cbn in E2; try discriminate; intros [X Y].
      - now specialize (Y eq_refl).
      - now specialize (X eq_refl). }
  destruct (dt_ltb (r_dateTime r) (r_dateTime b)) eqn:E3; cbn [negb]; [|discriminate].
  intros H. injection H as <-. apply (f_date w key ps reg u p (Item t r v) s b); [exact Q|].
  unfold not_before. cbn [i_rec]. congruence.
Qed.

(** [reg'] is the register while the receipt is looked at: its start receipt is
    already set. *)
Lemma fault_chain v reg reg' u p q prev t r e : reads w t r -> effective_past w ps p q ->
  (forall a b, q = Some (a, b) -> reads w a b) ->
  truthy prev = option_map fst q ->
  s_chain reg' = s_chain reg -> s_start reg' = match p with None => Some t | Some _ => s_start reg end ->
  check_chain w ps reg' prev t r = Err e -> fault w key ps reg u p (Item t r v) e.
Proof.
  intros R Q RQ E SC SS H.
  assert (raises verdict (check_chain w ps reg' prev t r)) as V.
  { destruct (truthy prev) as [a|] eqn:TP.
    - apply (check_chain_raises w verdict (fun e x => x) ps reg' prev t r t R). intros a' Ea.
      apply truthy_Some in TP as [TP _]. rewrite TP in Ea. apply Some_inj in Ea. subst a'.
      destruct q as [[a' b]|]; cbn [option_map fst] in E; [|discriminate]. apply Some_inj in E. subst a'.
      exists a. apply (reads_encodes w a b). now apply RQ.
    - apply (check_chain_raises w verdict (fun e x => x) ps reg' prev t r t R). intros a' Ea.
      apply absent_truthy in TP as [TP|TP]; rewrite TP in Ea; [discriminate|]. apply Some_inj in Ea. subst a'. now exists []. }
  assert (~ chain_holds w reg q (Item t r v)) as NC.
  { intros C. unfold chain_holds in C. rewrite <- SC in C.
    assert (check_chain w ps reg' prev t r = Ok (match truthy (s_chain reg') with Some _ => None | None => s_chain reg' end)) as X.
    { apply (check_chain_spec w ps reg' q prev (Item t r v) _ E). split; [exact C|reflexivity]. }
    congruence. }
  assert (exists b : bool, (b = true <-> starts reg p (Item t r v)) /\
    e = if b then match truthy ps with Some _ => InvalidChainingOnClusterInitial (r_receiptId r) | None => InvalidChainingOnInitial (r_receiptId r) end
        else ChainingError (r_receiptId r)) as (b & Sb & Eb).
  { exists (match s_start reg' with Some s => str_eqb s t | None => false end). split.
    - unfold starts. cbn [i_jws]. rewrite SS. destruct p as [x|].
      + destruct (s_start reg) as [s|]; [rewrite str_eqb_eq|]; split; try discriminate.
        * intros ->. now right.
        * intros [X|X]; [discriminate|now apply Some_inj in X].
        * intros [X|X]; discriminate.
      + rewrite str_eqb_refl. split; auto.
    - unfold check_chain in H. destruct (reads_ids _ _ _ R) as (ra & ri & RA & RI).
      set (m := match truthy (s_chain reg') with Some v => _ | None => _ end) in H.
      assert (forall x, m = Err x -> x = ChainingError (r_receiptId r)) as M.
      { subst m. intros x. unfold verifyChain, verifyChainValue. destruct (truthy (s_chain reg')) as [c|].
        - destruct (str_eqb c (r_previousChain r)); cbn [bind]; [discriminate|]. intros X. now injection X as <-.
        - unfold r1_chain, r1_hash.
          assert (exists bb, utf8_encode (match truthy prev with Some p => p | None => r_registerId r end) = Ok bb) as [bb ->].
          { destruct (truthy prev) as [a|]; [|eauto]. destruct q as [[a' b']|]; cbn [option_map fst] in E; [|discriminate].
            apply Some_inj in E. subst a'. exists a. apply (reads_encodes w a b'). now apply RQ. }
          cbn [bind]. destruct (str_eqb _ (r_previousChain r)); cbn [bind]; [discriminate|]. intros X. now injection X as <-. }
      destruct m as [y|x]; [discriminate|]. rewrite (M x eq_refl) in H.
      destruct (match s_start reg' with Some s => _ | None => _ end); [destruct (truthy ps)|]; now injection H as <-. }
  destruct b.
  - assert (starts reg p (Item t r v)) as S by now apply Sb. destruct (truthy ps) as [s|] eqn:T; subst e.
    + apply (f_chain_cluster w key ps reg u p (Item t r v) q Q NC S). intros A. apply absent_truthy in A. congruence.
    + apply (f_chain_start w key ps reg u p (Item t r v) q Q NC S). now apply absent_truthy.
  - subst e. apply (f_chain w key ps reg u p (Item t r v) q Q NC). intros S. apply Sb in S. discriminate.
Qed.

Lemma fault_counter v reg u p t r e : reads w t r ->
  check_counter w key (s_counter reg) r = Err e -> fault w key ps reg u p (Item t r v) e.
Proof.
  intros R. unfold check_counter. rewrite (reads_isDummy _ _ _ R). cbn [bind]. destruct (trainb r) eqn:T; [discriminate|].
  assert (~ training r) as NT by (rewrite <- trainb_iff; congruence).
  destruct key as [k|] eqn:K; [|discriminate].
  unfold raiseForKey, r1_verifyKey. destruct (List.length k =? 32)%nat eqn:L; cbn [bind].
  2:{ intros H. injection H as <-. apply Nat.eqb_neq in L. now apply (f_key w (Some k) ps reg u p (Item t r v) k). }
  apply Nat.eqb_eq in L. destruct (cents r) as [z|x] eqn:C; cbn [bind].
  2:{ intros H. injection H as <-. apply (f_amount w (Some k) ps reg u p (Item t r v)); cbn [i_rec]; [discriminate|exact NT| |].
      - intros z. congruence.
      - exact (cents_err r x C). }
  rewrite (reads_isReversal _ _ _ R). cbn [bind]. destruct (cancelb r) eqn:V; [discriminate|].
  assert (standard r) as S by (apply standardb_iff; now rewrite T, V).
  destruct (decryptTC_eq w t r k R) as (_ & _ & D2). destruct (D2 S L) as (ct & _ & D). destruct (reads_ids _ _ _ R) as (a & b & A & B).
  assert (exists tc, decryptTC w r k = Ok tc) as [tc E].
  { rewrite D. unfold r1_decrypt, r1_iv. rewrite A. cbn [bind]. rewrite B. eexists. reflexivity. }
  rewrite E. cbn [bind]. destruct (Z.eqb_spec tc (s_counter reg + z)%Z) as [|NE]; [discriminate|].
  intros H. injection H as <-. now apply (f_counter w (Some k) ps reg u p (Item t r v) k z tc).
Qed.

Lemma fault_unread t e r : text_fault w t e -> ~ reads w t r.
Proof.
  intros F R. pose proof (reads_encodes _ _ _ R) as En. apply jws_diagnosis in F; [|now exists t].
  assert (fromJWSString w t = Ok (r, lit "R1")) by now apply parse_reads. congruence.
Qed.

Theorem step_diag v s cr p t e : proper v -> st_past w s p -> start_readable w ps ->
  utf8_decode cr = Ok t -> encodable t -> verify_step w v key ps s cr = Err e ->
  text_fault w t e
  \/ exists r, reads w t r /\ fault w key ps (vs_reg s) (vs_used s) p (Item t r v) e.
Proof.
  intros Pv (SP & SO & GP) SR X ET. unfold verify_step.
  assert (expandDEPReceipt cr = Ok t) as -> by now apply expand_iff. cbn [bind]. rewrite SO.
  destruct (fromJWSString w t) as [[r alg]|x] eqn:P.
  2:{ intros H. left.
        assert (e = x) as ->; [|now apply jws_diagnosis]. unfold check_signature, verifyJWS in H. rewrite P in H. cbn [bind] in H.
        destruct (nonfatal x); cbn [bind] in H; now injection H as <-. }
  apply parse_reads in P as [_ R]. intros H. right. exists r. split; [exact R|].
  destruct (check_signature w v (past_obj p) (s_restore (vs_reg s)) t) as [[ro n]|x] eqn:C; cbn [bind fst snd] in H.
  2:{ injection H as <-. now apply fault_signature. }
  apply (check_signature_spec _ _ _ _ _ _ _ Pv GP R) in C as (A & C1 & C2 & E). injection E as -> ->.
  destruct p as [[a b]|]; cbn [past_obj option_map snd] in H; cbn [bind fst snd] in H.
  - cbn [option_map fst] in SP. assert (effective_past w ps (Some (a, b)) (Some (a, b))) as Q by reflexivity.
    destruct (check_previous w (Some b) (vs_used s) r) as [[]|x] eqn:CP; cbn [bind] in H.
    2:{ injection H as <-. apply (fault_previous v (vs_reg s) (vs_used s) (Some (a, b)) (Some (a, b)) t r x Q CP). }
    match type of H with context [check_chain w ps ?g ?pv t r] =>
      destruct (check_chain w ps g pv t r) as [y|x] eqn:CC; cbn [bind] in H end.
    2:{ injection H as <-. refine (fault_chain v (vs_reg s) _ (vs_used s) (Some (a, b)) (Some (a, b)) (vs_prev s) t r x R Q _ SP _ _ CC);
        [|reflexivity|reflexivity]. intros a' b' Eab. injection Eab as <- <-. exact GP. }
    cbn [set_restore s_counter] in H.
    destruct (check_counter w key (s_counter (vs_reg s)) r) as [y'|x] eqn:CT; cbn [bind] in H; [discriminate|].
    injection H as <-. now apply fault_counter.
  - destruct (check_initial w ps (vs_prev s) r) as [pp|x] eqn:I; cbn [bind fst snd] in H.
    2:{ injection H as <-. now apply (fault_initial v (vs_reg s) (vs_used s) (vs_prev s)). }
    apply (check_initial_spec _ _ _ _ _ _ R) in I as (Zr & St & q & Q & QC & ->); [|exact SP]. cbn [fst snd] in H.
    assert (effective_past w ps None q) as Q' by exact Q.
    destruct (check_previous w (past_obj q) (vs_used s) r) as [[]|x] eqn:CP; cbn [bind] in H.
    2:{ injection H as <-. now apply (fault_previous v (vs_reg s) (vs_used s) None q t r x Q' CP). }
    match type of H with context [check_chain w ps ?g ?pv t r] =>
      destruct (check_chain w ps g pv t r) as [y|x] eqn:CC; cbn [bind] in H end.
    2:{ injection H as <-. refine (fault_chain v (vs_reg s) _ (vs_used s) None q _ t r x R Q' _ _ _ _ CC); try reflexivity.
        - intros a b ->. apply Q.
        - destruct q as [[a b]|]; cbn [option_map fst]; [|exact SP]. apply truthy_Some. split; [reflexivity|]. apply Q. }
    cbn [set_restore set_start s_counter] in H.
    destruct (check_counter w key (s_counter (vs_reg s)) r) as [y'|x] eqn:CT; cbn [bind] in H; [discriminate|].
    injection H as <-. now apply fault_counter.
Qed.

End Step.

(** ** Every fault is a violation *)

Lemma effective_fun w ps p q q' : effective_past w ps p q -> effective_past w ps p q' -> q = q'.
Proof. destruct p; cbn; [congruence|apply cluster_past_fun]. Qed.

Lemma taken_unchecked w u i : id_taken w u i -> used_check w u i <> Ok tt.
Proof.
  destruct u as [l|mi [m|]]; cbn [id_taken used_check]; [| |tauto].
  - intros H. apply mem_In in H. rewrite H. discriminate.
  - intros (ka & kb & -> & -> & L). cbn [bind]. rewrite L. discriminate.
Qed.
Lemma unordered_unchecked w u i : id_unordered w u i -> used_check w u i <> Ok tt.
Proof.
  intros (mi & m & -> & H). cbn [used_check]. destruct (nat_key w m) as [ka|] eqn:A; cbn [bind]; [|discriminate].
  destruct (nat_key w i) as [kb|] eqn:B; cbn [bind]; [|discriminate].
  destruct (key_lt ka kb) as [b|] eqn:L; cbn [bind]; [|discriminate]. now apply (H ka kb b) in L.
Qed.

Theorem fault_wrong w key ps reg u p i e : proper (i_ver i) -> reads w (i_jws i) (i_rec i) ->
  fault w key ps reg u p i e -> ~ step_ok w key ps reg u p i.
Proof.
  intros Pv R F (A & St & Re & Co & q & Q & CQ & Ch & U).
  destruct F as [H|NU NK|k NU K NS|P N NP|P Un|P NZ|P NS|s P E NE O|q' Q' T|q' e Q' T _|s q' Q' D|s q' Q' D|s q' Q' D
                |q' Q' C _|q' Q' C _ _|q' Q' C _ _|k K NT L|e K NT C _|k z z' K S C D NZ].
  - now destruct A.
  - destruct A as (_ & [A|(k & A & _)]); [contradiction|]. now apply (NK k).
  - destruct A as (_ & [A|(k' & A & S)]); [contradiction|].
    destruct (choose_key_spec w (i_ver i) (i_rec i) (i_jws i) Pv R) as [(_ & o & _ & Ko)|(C & _)].
    + apply Ko in K, A. rewrite K in A. apply Some_inj in A. subst k'. contradiction.
    + (* the certificate does not fit *)
      unfold key_of in K, A. destruct (v_cert (i_ver i)) as [c|] eqn:V.
      * subst. contradiction.
      * apply C. intros c Ec. congruence.
  - now apply NP, Re.
  - destruct (St P) as ((X & _) & _). contradiction.
  - destruct (St P) as ((_ & X & _) & _). contradiction.
  - destruct (St P) as ((_ & _ & X) & _). contradiction.
  - destruct (St P) as (_ & X). rewrite P in Q. cbn in Q. destruct q as [[a b]|].
    + destruct (X a b Q) as [X1 X2]. destruct O as [O|(q' & Rq & O)]; [contradiction|].
      destruct Q as (Q & _ & Rb). rewrite E in Q. apply Some_inj in Q. subst a. rewrite (reads_fun _ _ _ _ Rq Rb) in O. contradiction.
    + destruct Q as [Q|Q]; rewrite E in Q; [discriminate|]. apply Some_inj in Q. congruence.
  - apply (taken_unchecked _ _ _ T). apply U. now rewrite (effective_fun _ _ _ _ _ Q Q').
  - apply (unordered_unchecked _ _ _ T). apply U. now rewrite (effective_fun _ _ _ _ _ Q Q').
  - destruct (CQ s q') as (X & _); [cbn [fst]; now apply (effective_fun w ps p)|]. contradiction.
  - destruct (CQ s q') as (_ & X & _); [cbn [fst]; now apply (effective_fun w ps p)|]. contradiction.
  - destruct (CQ s q') as (_ & _ & X); [cbn [fst]; now apply (effective_fun w ps p)|]. contradiction.
  - apply C. unfold chain_holds. now rewrite (effective_fun _ _ _ _ _ Q' Q).
  - apply C. unfold chain_holds. now rewrite (effective_fun _ _ _ _ _ Q' Q).
  - apply C. unfold chain_holds. now rewrite (effective_fun _ _ _ _ _ Q' Q).
  - destruct (Co k K NT) as [X _]. contradiction.
  - destruct key as [k|]; [|congruence]. destruct (Co k eq_refl NT) as (_ & z & X & _). now apply (C z).
  - destruct (Co k K (proj1 S)) as (_ & z0 & X & D'). rewrite C in X. apply Ok_inj in X. subst z0.
    specialize (D' S). unfold decrypts in *. rewrite D in D'. apply Ok_inj in D'. contradiction.
Qed.

Lemma fault_last w key ps reg u p i e x : fault w key ps reg u p i e -> fault w key ps (set_last reg x) u p i e.
Proof.
  destruct 1; [eapply f_serial|eapply f_no_key|eapply f_signature|eapply f_restore|eapply f_start_unsigned|eapply f_start_turnover
    |eapply f_start_type|eapply f_start_open|eapply f_id|eapply f_order|eapply f_register|eapply f_system|eapply f_date
    |eapply f_chain|eapply f_chain_start|eapply f_chain_cluster|eapply f_key|eapply f_amount|eapply f_counter]; eauto.
Qed.

(** ** Sequences *)

Lemma vseq_diag w key ps l e : Forall (fun b => proper (snd b)) l -> start_readable w ps ->
  Forall (fun b => exists t, encodable t /\ utf8_decode (fst b) = Ok t) l -> forall s p,
  st_past w s p -> vseq w key ps s l = Err e ->
  exists l1 cr v l2 items t, l = l1 ++ (cr, v) :: l2 /\ Forall2 (item_of w) l1 items
    /\ loop_ok w key ps (vs_reg s) (vs_used s) p items /\ utf8_decode cr = Ok t
    /\ (text_fault w t e
        \/ exists r, reads w t r /\ fault w key ps (regs key (vs_reg s) p items) (used_after (vs_used s) items) (last_of p items) (Item t r v) e).
Proof.
  intros Pl SR. induction Pl as [|[cr v] l Pv Pl IH]; intros El s p SP; cbn [vseq]; [discriminate|].
  apply Forall_cons_iff in El as [(t & Et & Dt) El]. cbn [fst snd] in *.
  destruct (verify_step w v key ps s cr) as [s1|x] eqn:V; cbn [bind].
  - apply (verify_step_spec _ _ _ _ _ _ _ _ Pv SP) in V as (i & I & St & ->). intros H.
    apply (IH El _ (as_past i)) in H as (l1 & cr' & v' & l2 & items & t' & -> & F & L & D & H).
    2:{ apply next_st_past. apply I. }
    exists ((cr, v) :: l1), cr', v', l2, (i :: items), t'. split; [reflexivity|]. split; [now constructor|]. split; [now split|].
    split; [exact D|exact H].
  - intros H. injection H as <-. exists [], cr, v, l, [], t. split; [reflexivity|]. split; [constructor|]. split; [exact I|]. split; [exact Dt|].
    exact (step_diag w key ps v s cr p t x Pv SP SR Dt Et V).
Qed.

(** ** Certificates *)

Lemma cert_from_diag w ks first chain e : hash_ok w -> forall c, verifyCert_from w ks first c chain = Err e ->
  (none_stored w ks (c :: chain) /\ signed_in_turn w (c :: chain) /\ e = UntrustedCertificate (key_id w first))
  \/ (exists l1 a b l2, c :: chain = l1 ++ a :: b :: l2 /\ none_stored w ks (l1 ++ [a]) /\ signed_in_turn w (l1 ++ [a])
        /\ w_cert_signed_by w a b <> true /\ e = CertificateChainBroken (key_id w a) (key_id w b))
  \/ (exists l1 a l2 k, c :: chain = l1 ++ a :: l2 /\ none_stored w ks l1 /\ signed_in_turn w (l1 ++ [a])
        /\ stored w ks a k /\ ~ same_fingerprint w k a
        /\ e = CertSerialCollision (key_id w a) (certFingerprint w a) (certFingerprint w k)).
Proof.
  intros HO. induction chain as [|d chain IH]; intros c; cbn [verifyCert_from]; unfold numSerialToKeyId;
    destruct (getCert ks (fmt_x (Z.abs (w_serial w c)))) as [k|] eqn:G.
  1,3: destruct (str_eqb (certFingerprint w k) (certFingerprint w c)) eqn:F; [discriminate|];
    intros H; injection H as <-; right; right; exists [], c; eexists; exists k; split; [reflexivity|];
    split; [intros x y []|]; split; [apply signed_in_turn_one|]; split; [exact G|]; split; [|reflexivity];
    intros S; apply (fingerprint_iff _ _ _ HO) in S; congruence.
  - intros H. injection H as <-. left. split; [|split; [apply signed_in_turn_one|reflexivity]].
    intros x k [<-|[]] S. unfold stored in S. congruence.
  - destruct (w_cert_signed_by w c d) eqn:SB.
    + intros H. assert (forall k, ~ stored w ks c k) as NS by (intros k S; unfold stored in S; congruence).
      assert (forall l, none_stored w ks l -> none_stored w ks (c :: l)) as NC
        by (intros l N x k [<-|X]; [apply NS|now apply N]).
      destruct (IH d H) as [(N & S & ->)|[(l1 & a & b & l2 & E & N & S & B & ->)|(l1 & a & l2 & k & E & N & S & K & Fp & ->)]].
      * left. split; [now apply NC|]. split; [|reflexivity]. now apply signed_in_turn_cons.
      * right. left. exists (c :: l1), a, b, l2. split; [cbn [app]; now rewrite E|]. split; [now apply NC|]. split; [|now split].
        destruct l1 as [|y l1]; cbn [app] in *; injection E as <- E; apply signed_in_turn_cons; now split.
      * right. right. exists (c :: l1), a, l2, k. split; [cbn [app]; now rewrite E|]. split; [now apply NC|]. split; [|now split].
        destruct l1 as [|y l1]; cbn [app] in *; injection E as <- E; apply signed_in_turn_cons; now split.
    + intros H. injection H as <-. right. left. exists [], c, d, chain. split; [reflexivity|]. split.
      { intros x k [<-|[]] S. unfold stored in S. congruence. }
      split; [apply signed_in_turn_one|]. split; [congruence|reflexivity].
Qed.

Lemma cert_diag w ks c chain e : hash_ok w -> verifyCert w c chain ks = Err e -> cert_fault w ks c chain e.
Proof.
  intros HO H. destruct (cert_from_diag w ks c chain e HO c H)
    as [(N & S & ->)|[(l1 & a & b & l2 & E & N & S & B & ->)|(l1 & a & l2 & k & E & N & S & K & Fp & ->)]].
  - now apply cf_untrusted.
  - now apply (cf_broken w ks c chain l1 a b l2).
  - now apply (cf_collision w ks c chain l1 a l2 k).
Qed.

Lemma split_twice {A} (l1 l2 m1 m2 : list A) x y : l1 ++ x :: l2 = m1 ++ y :: m2 ->
  (l1 = m1 /\ x = y /\ l2 = m2) \/ (exists k, m1 = l1 ++ x :: k /\ l2 = k ++ y :: m2) \/ (exists k, l1 = m1 ++ y :: k /\ m2 = k ++ x :: l2).
Proof.
  revert m1. induction l1 as [|a l1 IH]; intros [|b m1]; cbn [app]; intros E; injection E as -> E.
  - auto.
  - right. left. exists m1. auto.
  - right. right. exists l1. auto.
  - destruct (IH m1 E) as [(-> & -> & ->)|[(k & -> & ->)|(k & -> & ->)]]; [auto|right; left; now exists k|right; right; now exists k].
Qed.

Theorem cert_fault_untrusted w ks c chain e : cert_fault w ks c chain e -> ~ trusted w ks c chain.
Proof.
  intros F (before & x & after & E & (k & S & SF) & T & O).
  destruct F as [N _|l1 a b l2 E' N _ B|l1 a l2 k' E' N _ S' NF].
  - apply (N x k); [rewrite E; apply in_or_app; right; now left|exact S].
  - rewrite E' in E. destruct (split_twice _ _ _ _ _ _ E) as [(-> & -> & _)|[(j & -> & X)|(j & -> & X)]].
    + apply (N x k); [apply in_or_app; right; now left|exact S].
    + apply B. destruct j as [|y j]; cbn [app] in X; injection X as -> X.
      * apply (T l1 a x []). now rewrite <- app_assoc.
      * apply (T l1 a y (j ++ [x])). now rewrite <- app_assoc.
    + apply (N x k); [apply in_or_app; left; apply in_or_app; right; now left|exact S].
  - rewrite E' in E. destruct (split_twice _ _ _ _ _ _ E) as [(-> & -> & _)|[(j & -> & X)|(j & -> & X)]].
    + unfold stored in *. rewrite S in S'. apply Some_inj in S'. subst k'. contradiction.
    + apply NF, (O a k'); [apply in_or_app; right; now left|exact S'].
    + apply (N x k); [apply in_or_app; right; now left|exact S].
Qed.

Theorem group_fault_untrusted w ks gs g e : group_fault w ks gs g e -> ~ trust_rule w ks (gs ++ [g]).
Proof.
  intros F [A|(g' & E & N)].
  - apply Forall_app in A as [A1 A2]. apply Forall_inv in A2. destruct A2 as (c & C & T). destruct F as [_ [X|X]|c' e C' X].
    + congruence.
    + apply X. unfold all_certs. apply Forall_forall. intros x Hx. rewrite Forall_forall in A1. destruct (A1 x Hx) as (cx & Ex & _). congruence.
    + rewrite C in C'. apply Some_inj in C'. subst c'. now apply cert_fault_untrusted in X.
  - destruct gs as [|x gs]; [|destruct gs; discriminate]. cbn [app] in E. injection E as ->. destruct F as [X _|c e C _]; congruence.
Qed.

(** ** Groups *)

Lemma tuple_texts ks g dg : tuple_for g dg ->
  Forall2 (fun (t : str * verifier) (b : bytes * verifier) => utf8_encode (fst t) = Ok (fst b) /\ snd t = snd b)
    (with_verifier ks g (gr_texts g)) (map (fun r => (r, verifier_of ks (gr_cert g))) (g_recs dg)).
Proof.
  intros (F & _). unfold with_verifier. induction F as [|t b ts bs H F IH]; [constructor|]. cbn [map]. constructor; [|exact IH]. now split.
Qed.

Lemma Forall2_split {A B} (R : A -> B -> Prop) l m1 y m2 : Forall2 R l (m1 ++ y :: m2) ->
  exists l1 x l2, l = l1 ++ x :: l2 /\ Forall2 R l1 m1 /\ R x y /\ Forall2 R l2 m2.
Proof.
  intros F. apply Forall2_app_inv_r in F as (l1 & l2 & F1 & F2 & ->). inversion F2 as [|x ? l2' ? X F3]. subst.
  exists l1, x, l2'. auto.
Qed.

Definition one_of (gs : list group) : option bool :=
  match gs with [] => None | _ => Some (existsb (fun g => match gr_cert g with None => true | Some _ => false end) gs) end.

Lemma one_of_snoc gs g : one_of (gs ++ [g]) = Some (existsb (fun g => match gr_cert g with None => true | Some _ => false end) (gs ++ [g])).
Proof. destruct gs; reflexivity. Qed.
Lemma one_of_inj gs b : one_of gs = Some b -> existsb (fun g => match gr_cert g with None => true | Some _ => false end) gs = b.
Proof. destruct gs; [discriminate|]. apply Some_inj. Qed.
Lemma existsb_certs gs : existsb (fun g => match gr_cert g with None => true | Some _ => false end) gs = false <-> all_certs gs.
Proof.
  unfold all_certs. induction gs as [|g gs IH]; cbn [existsb]; [split; constructor|].
  rewrite Forall_cons_iff, <- IH, orb_false_iff. destruct (gr_cert g); split; intros [H1 H2]; split; congruence.
Qed.
Lemma dep_texts_snoc ks gs g : dep_texts ks (gs ++ [g]) = dep_texts ks gs ++ with_verifier ks g (gr_texts g).
Proof. unfold dep_texts, with_verifier. rewrite flat_map_app. cbn [flat_map]. now rewrite app_nil_r. Qed.

Section Groups.
Context (w : world) (ks : keystore) (key : option bytes) (ps : option str) (reg : regstate) (u : used) (p : option past).
Context (gs : list group) (HO : hash_ok w) (SR : start_readable w ps) (PO : past_of w reg p).

Lemma dep_groups_diag gs' dgs e : Forall2 tuple_for gs' dgs -> forall gs1 l1,
  occupied gs = gs1 ++ gs' -> trust_rule w ks gs1 -> Forall2 (text_item w) (dep_texts ks gs1) l1 ->
  valid_sequence w key ps reg u p l1 ->
  dep_groups w ks key ps dgs (one_of gs1) (after key reg p l1) (used_after u l1) = Err e ->
  diagnosis w ks key ps reg u p gs e.
Proof.
  induction 1 as [|g dg gs' dgs T F IH]; intros gs1 l1 EO TR FI V; cbn [dep_groups]; [discriminate|].
  pose proof T as (Te & Tc & Tch).
  assert (in_order_before w ks key ps reg u p gs gs1 g (gr_texts g) l1) as IO.
  { exists gs', []. split; [exact EO|]. split; [reflexivity|]. split; [exact TR|]. split; [|split; [exact V|congruence]].
    unfold with_verifier. cbn [map]. now rewrite app_nil_r. }
  destruct (one_of gs1) as [[|]|] eqn:O1; cbn iota.
  { intros H. injection H as <-. apply (d_group w ks key ps reg u p gs gs1 g l1 _ IO). apply gf_none.
    - intros ->. discriminate.
    - right. rewrite <- existsb_certs. apply one_of_inj in O1. rewrite O1. discriminate. }
  all: match goal with |- (do vo <- ?m; _) = _ -> _ =>
    assert ((exists b, m = Ok (verifier_of ks (gr_cert g), b) /\ trust_rule w ks (gs1 ++ [g]) /\ one_of (gs1 ++ [g]) = Some b)
            \/ (exists x, m = Err x /\ group_fault w ks gs1 g x)) as VO end.
  1,3: rewrite Tc, Tch; destruct (gr_cert g) as [c|] eqn:C.
  1,3: destruct (verifyCert w c (gr_chain g) ks) as [[]|x] eqn:VC; cbn [bind].
  1,3: left; exists false; split; [reflexivity|]; split.
  1,3: left; apply Forall_app; split;
       [|constructor; [|constructor]; exists c; split; [exact C|]; now apply verifyCert_spec in VC].
  1: destruct TR as [TR|(g0 & -> & N)]; [exact TR|]; cbn [one_of existsb] in O1; rewrite N in O1; discriminate.
  1: destruct gs1; [constructor|discriminate].
  1,2: rewrite one_of_snoc; f_equal; apply existsb_certs; apply Forall_app; (split; [|constructor; [congruence|constructor]]);
       destruct gs1; [constructor|]; try discriminate; apply existsb_certs; now apply one_of_inj in O1.
  1,2: right; exists x; (split; [reflexivity|]); apply (gf_cert w ks gs1 g c x C); now apply cert_diag.
  1: { right. exists NoCertificateGiven. split; [reflexivity|]. apply gf_none; [intros ->; discriminate|now left]. }
  1: { left. exists true. destruct gs1; [|discriminate]. split; [reflexivity|]. split; [right; exists g; now split|].
       cbn [app one_of existsb]. rewrite C. reflexivity. }
  all: destruct VO as [(b & EV & TR1 & OS)|(x & EV & GF)]; rewrite EV; cbn [bind fst snd];
    [|intros H; injection H as <-; now apply (d_group w ks key ps reg u p gs gs1 g l1 x IO)].
  all: clear IO O1 EV; rewrite verifyGroup_vseq.
  all: assert (Forall (fun i => reads w (i_jws i) (i_rec i)) l1) as RL
    by (clear -FI; induction FI as [|? i ? ? (E1 & R1 & _) ? ?]; constructor; [rewrite E1; exact R1|assumption]).
  all: pose proof (past_after w key reg p l1 PO RL) as PA;
    assert (parse_last w (s_last (after key reg p l1)) = Ok (past_obj (last_of p l1))) as PL by (apply parse_last_past; eauto);
    rewrite PL; cbn [bind].
  all: pose proof (past_st w _ (used_after u l1) _ PA) as SP.
  all: assert (Forall (fun b : bytes * verifier => proper (snd b)) (map (fun r => (r, verifier_of ks (gr_cert g))) (g_recs dg))) as Pv
    by (apply Forall_map, Forall_forall; intros r _; cbn [snd]; unfold verifier_of, proper; destruct (gr_cert g); eauto).
  all: destruct (vseq w key ps (VState (s_last (after key reg p l1)) (past_obj (last_of p l1)) (after key reg p l1) (used_after u l1))
      (map (fun r => (r, verifier_of ks (gr_cert g))) (g_recs dg))) as [s|x] eqn:VS; cbn [bind].
  1,3: apply (vseq_spec w key ps _ Pv _ _ _ SP) in VS as (items & FI' & L & ->); cbn [vs_reg vs_used] in L;
    rewrite (final_close w key _ _ _ _ PA); cbn [fst snd]; fold (after key (after key reg p l1) (last_of p l1) items);
    rewrite <- after_app, <- used_after_app, <- OS; intros H;
    apply (IH (gs1 ++ [g]) (l1 ++ items)); [now rewrite <- app_assoc|exact TR1| | |exact H];
    [rewrite dep_texts_snoc; apply Forall2_app; [exact FI|]; now apply (items_texts w _ _ _ (tuple_texts ks g dg T))
    |apply valid_app; split; [exact V|]; now apply loop_valid].
  all: intros H; injection H as <-;
    assert (Forall (fun b => exists t, encodable t /\ utf8_decode (fst b) = Ok t) (map (fun r => (r, verifier_of ks (gr_cert g))) (g_recs dg))) as EN
      by (apply Forall_map; cbn [fst]; clear -Te; induction Te as [|t b ts bs Ht F IH]; constructor; [|exact IH];
          exists t; split; [now exists b|now apply utf8_decode_encode]);
    destruct (vseq_diag w key ps _ x Pv SR EN _ _ SP VS) as (m1 & cr & v & m2 & items & t & Em & FI' & L & D & K).
  all: cbn [vs_reg vs_used] in L, K.
  all: pose proof (tuple_texts ks g dg T) as TT; rewrite Em in TT; apply Forall2_split in TT as (k1 & [t' v'] & k2 & Ek & F1 & (Ht & Hv) & _);
    cbn [fst snd] in Ht, Hv; subst v';
    assert (t' = t) as -> by (apply utf8_decode_encode in Ht; rewrite D in Ht; now apply Ok_inj in Ht);
    apply (items_texts w _ _ _ F1) in FI';
    assert (exists t1 t2, gr_texts g = t1 ++ t :: t2 /\ k1 = with_verifier ks g t1 /\ v = verifier_of ks (gr_cert g)) as (t1 & t2 & Et & -> & ->)
      by (clear -Ek; unfold with_verifier in *; apply map_eq_app in Ek as (t1 & r & E & <- & Er); destruct r as [|a r]; [discriminate|];
          cbn [map] in Er; injection Er as -> <- _; exists t1, r; auto).
  all: assert (valid_sequence w key ps reg u p (l1 ++ items)) as VV by (apply valid_app; split; [exact V|]; now apply loop_valid);
    assert (in_order_before w ks key ps reg u p gs gs1 g (t :: t2) (l1 ++ items)) as IO
      by (exists gs', t1; split; [exact EO|]; split; [exact Et|]; split; [exact TR|]; split; [now apply Forall2_app|split; [exact VV|intros _; exact TR1]]).
  all: destruct K as [UR|(r & R & FA)];
    [now apply (d_text w ks key ps reg u p gs gs1 g t t2 (l1 ++ items) x IO TR1)|].
  all: apply (d_receipt w ks key ps reg u p gs gs1 g t t2 (l1 ++ items) r (after key reg p (l1 ++ items)) x IO TR1 R);
    [apply (register_after_iff w key ps reg u p (l1 ++ items) _ VV); unfold after; reflexivity|].
  all: rewrite after_app, used_after_app, last_of_app2; unfold after at 1; destruct items as [|i0 items0]; [exact FA|];
    apply fault_last; exact FA.
Qed.

End Groups.

(** ** DEPs *)

Lemma tuples_encodable ks gs : texts_encodable ks gs -> exists dgs, Forall2 tuple_for gs dgs.
Proof.
  unfold texts_encodable, dep_texts. induction gs as [|g gs IH]; [exists []; constructor|]. cbn [flat_map].
  intros H. apply Forall_app in H as [H1 H2]. destruct (IH H2) as (dgs & F).
  assert (exists bs, Forall2 (fun t b => utf8_encode t = Ok b) (gr_texts g) bs) as (bs & B).
  { rewrite Forall_map in H1. cbn [fst] in H1. clear -H1. induction H1 as [|t ts (b & E) _ (bs & F)]; [exists []; constructor|].
    exists (b :: bs). now constructor. }
  exists (DGroup bs (gr_cert g) (gr_chain g) :: dgs). constructor; [|exact F]. split; [exact B|split; reflexivity].
Qed.

Theorem verifyDEP_diag w dep gs ks key c idx before reg after' p c' e : hash_ok w ->
  dep_is w dep gs -> texts_encodable ks gs -> selects c idx before reg after' -> past_of w reg p -> start_readable w (start_of_last before) ->
  verifyDEP w dep ks key c idx = (c', Some e) ->
  diagnosis w ks key (start_of_last before) reg (c_used c) p gs e.
Proof.
  intros HO I TE S P SR. unfold verifyDEP, with_register. rewrite (get_selects _ _ _ _ _ S). cbn [bind].
  destruct (dep_body w ks key (parse_dict w 1 dep 0) (start_of_last before, reg, c_used c)) as [[reg' u']|x] eqn:B; cbn [bind fst snd].
  { rewrite (update_selects _ _ _ _ _ _ _ _ S). discriminate. }
  intros H. injection H as _ <-. destruct (tuples_encodable _ _ TE) as (dgs & T).
  assert (Forall2 tuple_for (occupied gs) (filled dgs)) as T' by now apply filled_occupied.
  destruct (occupied gs) as [|g0 gs0] eqn:O.
  - apply d_empty; [exact O|]. assert (filled dgs = []) as X by (clear -T'; now inversion T'). destruct I as (d & js & -> & E & F).
    unfold parse_dict in B. rewrite E in B. destruct js as [|j js].
    { cbn in B. injection B as <-. auto. }
    cbn [Nat.ltb Nat.leb andb] in B. unfold groupChunkGen in B. cbn [Nat.eqb] in B.
    assert (gen_groups w (j :: js) = ([], None)) as G by (apply gen_groups_spec; exists gs, dgs; rewrite X; auto).
    rewrite G in B. cbn in B. injection B as <-. auto.
  - assert (filled dgs <> []) as NE by (intros X; rewrite X in T'; inversion T').
    assert (parse_dict w 1 dep 0 = (map (fun g => [g]) (filled dgs), None)) as EP by (apply parse_dict_spec; eauto 10).
    rewrite EP in B. unfold dep_body in B. cbn [fst snd] in B. rewrite dep_chunks_single in B.
    destruct (dep_groups w ks key (start_of_last before) (filled dgs) None reg (c_used c)) as [[[one r1] u1]|y] eqn:D; cbn [bind finished snd] in B.
    { discriminate. }
    injection B as <-.
    apply (dep_groups_diag w ks key (start_of_last before) reg (c_used c) p gs HO SR P (g0 :: gs0) (filled dgs) y T' [] []).
    + exact O.
    + left. constructor.
    + constructor.
    + apply loop_valid. exact Logic.I.
    + exact D.
Qed.

(** Each diagnosis is a reason to reject the DEP. *)
Lemma trust_rule_prefix w ks gs1 gs2 : trust_rule w ks (gs1 ++ gs2) -> trust_rule w ks gs1.
Proof.
  intros [A|(g & E & N)]; [left; now apply Forall_app in A|]. destruct gs1 as [|g1 gs1]; [left; constructor|].
  right. cbn [app] in E. injection E as -> E. apply app_eq_nil in E as [-> _]. exists g. now split.
Qed.

Lemma in_order_prefix w ks key ps reg u p gs gs1 g t t2 l :
  in_order_before w ks key ps reg u p gs gs1 g (t :: t2) l ->
  forall items, Forall2 (text_item w) (dep_texts ks gs) items -> valid_sequence w key ps reg u p items ->
  exists i items2, items = l ++ i :: items2 /\ text_item w (t, verifier_of ks (gr_cert g)) i
    /\ valid_sequence w key ps reg u p (l ++ [i]).
Proof.
  intros (gs2 & t1 & EO & ET & _ & F & V & _) items FI VI.
  rewrite <- dep_texts_occupied, EO in FI. unfold dep_texts in FI. rewrite flat_map_app in FI. cbn [flat_map] in FI.
  fold (dep_texts ks gs1) (dep_texts ks gs2) in FI. rewrite ET, map_app in FI. cbn [map] in FI. rewrite <- !app_assoc in FI. rewrite app_assoc in FI.
  apply Forall2_app_inv_l in FI as (l' & r & F1 & F2 & ->).
  assert (l' = l) as ->.
  { clear -F F1. unfold with_verifier in F. revert l F. induction F1 as [|x y xs ys H F IH]; intros l Fl; inversion Fl; subst; [reflexivity|].
    f_equal; [eapply text_item_fun; eassumption|now apply IH]. }
  inversion F2 as [|? i ? items2 Ti F3]. subst. exists i, items2. split; [reflexivity|]. split; [exact Ti|].
  change (i :: items2) with ([i] ++ items2) in VI. rewrite app_assoc in VI. now apply valid_app in VI.
Qed.

Theorem diagnosis_right w ks key ps reg u p gs e :
  diagnosis w ks key ps reg u p gs e ->
  forall items, Forall2 (text_item w) (dep_texts ks gs) items -> items <> [] ->
  trust_rule w ks (occupied gs) -> valid_sequence w key ps reg u p items -> False.
Proof.
  intros D items FI NE TR V. destruct D as [e O _|gs1 g l e IO GF|gs1 g t t2 l e IO _ UR|gs1 g t t2 l r reg1 e IO _ R RA FA].
  - apply (Forall2_nonempty _ _ _ FI) in NE. apply (occupied_nonempty ks) in NE. contradiction.
  - destruct IO as (gs2 & t1 & EO & _). rewrite EO in TR. change (g :: gs2) with ([g] ++ gs2) in TR. rewrite app_assoc in TR.
    apply trust_rule_prefix in TR. now apply group_fault_untrusted in GF.
  - destruct (in_order_prefix _ _ _ _ _ _ _ _ _ _ _ _ _ IO items FI V) as (i & items2 & _ & (_ & Ri & _) & _). exact (fault_unread _ _ _ _ UR Ri).
  - destruct (in_order_prefix _ _ _ _ _ _ _ _ _ _ _ _ _ IO items FI V) as (i & items2 & _ & Ti & Vi).
    assert (i = Item t r (verifier_of ks (gr_cert g))) as Ei.
    { apply (text_item_fun w (t, verifier_of ks (gr_cert g))); [exact Ti|]. repeat split. exact R. }
    rewrite Ei in Vi. apply valid_app in Vi as [Vl Vi].
    apply (register_after_iff w key ps reg u p l reg1 Vl) in RA. fold (after key reg p l) in RA. rewrite <- RA in Vi.
    apply loop_valid in Vi. destruct Vi as [Vi _]. revert Vi. apply (fault_wrong w key ps reg1 (used_after u l) (last_of p l) _ e); [|exact R|exact FA].
    unfold verifier_of, proper. cbn [i_ver]. destruct (gr_cert g); eauto.
Qed.
