(** Which exceptions verification raises. *)
From Coq Require Import Lia ZifyClasses ZifyN ZifyNat ZifyBool.
From Verif Require Import PyBase World Codec PyFloat PyTime Algo Receipt DepBase Json Pem KeyStore VerifyReceipt State DepParser Verify
  ListFacts CodecFacts CodecFacts2 SpecReceipt ReceiptFacts RoundTrip RoundTrip2 SpecDep VerifyFacts DepFacts SpecCluster SpecDoc AcceptFacts CounterFacts
  IncTheorems StepFacts SpecAmount AmountFacts SpecClean.
Open Scope N_scope.
Open Scope py_scope.

Definition raises {A} (P : exn -> Prop) (m : result A) : Prop := forall e, m = Err e -> P e.
Lemma raises_Ok {A} P (a : A) : raises P (Ok a).
Proof. discriminate. Qed.
Lemma raises_Err {A} (P : exn -> Prop) e : P e -> @raises A P (Err e).
Proof. intros H x E. now injection E as <-. Qed.
Lemma raises_bind {A B} P (m : result A) (f : A -> result B) : raises P m -> (forall a, m = Ok a -> raises P (f a)) -> raises P (bind m f).
Proof. intros H F e E. destruct m as [a|x]; cbn [bind] in E; [exact (F a eq_refl e E)|apply H; congruence]. Qed.
Lemma raises_check {B} (P : exn -> Prop) (b : bool) (m : result B) e : P e -> raises P m -> raises P (if b then m else Err e).
Proof. intros H F. destruct b; [exact F|now apply raises_Err]. Qed.
Lemma raises_mono {A} (P Q : exn -> Prop) (m : result A) : (forall e, P e -> Q e) -> raises P m -> raises Q m.
Proof. intros H F e E. auto. Qed.

Lemma verdict_library e : verdict e -> library_exn e.
Proof. now destruct e. Qed.
Lemma receipt_verdict e : receipt_exn e -> verdict e.
Proof. intros (s & [->|[->|[->|[->| ->]]]]); exact I. Qed.
Lemma dep_verdict e : dep_exception e -> verdict e.
Proof. unfold dep_exception. cbn [In]. intros [<-|[<-|[<-|[<-|[<-|[<-|[]]]]]]]; exact I. Qed.
Lemma dep_library e : dep_exception e -> library_exn e.
Proof. intros H. now apply verdict_library, dep_verdict. Qed.

Section Raises.
Context (w : world) (P : exn -> Prop) (HP : forall e, verdict e -> P e).
Context (key : option bytes) (HK : forall k, key = Some k -> List.length k <> 32%nat -> P InvalidKey).

Local Ltac lib := apply HP; exact I.

Lemma jws_raises s : encodable s -> raises P (fromJWSString w s).
Proof. intros H e E. apply HP, receipt_verdict. exact (fromJWSString_clean w s H e E). Qed.

Lemma verifyJWS_raises v s : proper v -> encodable s -> raises P (verifyJWS w v s).
Proof.
  intros Pv H. unfold verifyJWS. apply raises_bind; [now apply jws_raises|]. intros [r alg] E.
  apply parse_reads in E as [-> R]. cbn [fst snd].
  destruct (verify_spec w v r s Pv R) as [(_ & ->)|[(_ & _ & ->)|[(_ & _ & _ & ->)|(_ & _ & _ & e & -> & [->| ->])]]].
  - apply raises_Err. lib.
  - apply raises_Err. destruct (negb _ && _); lib.
  - apply raises_Ok.
  - apply raises_Err. lib.
  - apply raises_Err. lib.
Qed.

Lemma check_signature_raises v po need s : proper v -> encodable s -> (forall p, po = Some p -> exists t, reads w t p) ->
  raises P (check_signature w v po need s).
Proof.
  intros Pv H Hp. unfold check_signature. pose proof (verifyJWS_raises v s Pv H) as V.
  destruct (verifyJWS w v s) as [[ro alg]|e] eqn:E.
  - assert (exists t, reads w t ro) as [t R].
    { unfold verifyJWS in E. apply bind_Ok in E as ([r a] & Er & E). apply parse_reads in Er as [-> R]. cbn [fst snd] in E.
      destruct (verify_spec w v r s Pv R) as [(_ & X)|[(_ & _ & X)|[(_ & _ & _ & X)|(_ & _ & _ & x & X & _)]]]; rewrite X in E; try discriminate.
      apply Ok_inj in E. injection E as <- _. eauto. }
    destruct po as [p|]; [|apply raises_Ok]. rewrite (reads_notable _ _ _ R). cbn [bind].
    destruct (notableb ro); [|apply raises_Ok]. apply raises_check; [lib|].
    destruct (Hp p eq_refl) as [t' Rp]. rewrite (reads_isSignedBroken _ _ _ Rp). apply raises_Ok.
  - destruct (nonfatal e); [|now apply raises_Err; apply V].
    apply raises_bind; [now apply jws_raises|]. intros rp _. destruct po; [|apply raises_Err; lib].
    apply raises_check; [lib|apply raises_Ok].
Qed.

Lemma check_initial_raises ps prev ro t : (forall s, ps = Some s -> encodable s) -> reads w t ro -> raises P (check_initial w ps prev ro).
Proof.
  intros Hs R. unfold check_initial. apply raises_check; [lib|]. unfold orR.
  rewrite (reads_isDummy _ _ _ R), (reads_isReversal _ _ _ R). cbn [bind].
  apply raises_bind; [destruct (trainb ro); apply raises_Ok|]. intros ns _. apply raises_check; [lib|].
  destruct (truthy ps) as [s|] eqn:E; [|apply raises_Ok]. apply truthy_Some in E as [-> _].
  apply raises_check; [lib|]. apply raises_bind; [apply jws_raises; now apply Hs|]. intros pp _. apply raises_check; [lib|apply raises_Ok].
Qed.

Lemma check_previous_raises po u ro : raises P (used_check w u (r_receiptId ro)) -> raises P (check_previous w po u ro).
Proof.
  intros H. unfold check_previous. destruct po; [|apply raises_Ok]. apply raises_bind; [exact H|]. intros _ _.
  apply raises_check; [lib|]. apply raises_check; [lib|]. apply raises_check; [lib|apply raises_Ok].
Qed.

Lemma chain_raises reg prev : encodable reg -> (forall s, prev = Some s -> encodable s) -> raises P (r1_chain w reg prev).
Proof.
  intros R H. unfold r1_chain, r1_hash. assert (encodable (match truthy prev with Some p => p | None => reg end)) as [b ->].
  { destruct (truthy prev) as [s|] eqn:E; [|exact R]. apply truthy_Some in E as [E _]. auto. }
  apply raises_Ok.
Qed.

Lemma check_chain_raises ps reg prev r ro t : reads w t ro -> (forall s, prev = Some s -> encodable s) -> raises P (check_chain w ps reg prev r ro).
Proof.
  intros R H. unfold check_chain. destruct (reads_ids _ _ _ R) as (a & b & A & _).
  set (m := match truthy (s_chain reg) with Some v => _ | None => _ end).
  assert (raises P m) as M.
  { subst m. destruct (truthy (s_chain reg)).
    - apply raises_bind; [|intros; apply raises_Ok]. unfold verifyChainValue. apply raises_check; [lib|apply raises_Ok].
    - apply raises_bind; [|intros; apply raises_Ok]. unfold verifyChain. apply raises_bind; [apply chain_raises; [now exists a|exact H]|].
      intros v _. unfold verifyChainValue. apply raises_check; [lib|apply raises_Ok]. }
  destruct m as [x|e]; [apply raises_Ok|]. specialize (M e eq_refl).
  destruct e; try (now apply raises_Err).
  match goal with |- raises _ (if ?b then _ else _) => destruct b end; [|now apply raises_Err].
  destruct (truthy ps); apply raises_Err; lib.
Qed.

Lemma check_counter_raises c ro t : reads w t ro -> (key <> None -> raises P (cents ro)) -> raises P (check_counter w key c ro).
Proof.
  intros R Hc. unfold check_counter. rewrite (reads_isDummy _ _ _ R). cbn [bind]. destruct (trainb ro) eqn:T; [apply raises_Ok|].
  destruct key as [k|]; [|apply raises_Ok]. specialize (Hc ltac:(discriminate)).
  unfold raiseForKey. destruct (r1_verifyKey k) eqn:K; unfold r1_verifyKey in K;
    [apply Nat.eqb_eq in K|apply Nat.eqb_neq in K; apply raises_Err; exact (HK k eq_refl K)]. cbn [bind].
  apply raises_bind; [exact Hc|]. intros x _. rewrite (reads_isReversal _ _ _ R). cbn [bind]. destruct (cancelb ro) eqn:C; [apply raises_Ok|].
  assert (standard ro) as S by (apply standardb_iff; now rewrite T, C).
  apply raises_bind; [|intros tc _; apply raises_check; [lib|apply raises_Ok]].
  destruct (decryptTC_eq w t ro k R) as (_ & _ & D2).
  destruct (D2 S K) as (ct & _ & ->). destruct (reads_ids _ _ _ R) as (a & b & A & B). unfold r1_decrypt, r1_iv. rewrite A. cbn [bind]. rewrite B.
    apply raises_Ok.
Qed.

(** What is known between two receipts *)
Definition settled (ps : option str) (s : vstate) : Prop := tracked w s /\ (forall t, ps = Some t -> encodable t).

Lemma tracked_prev s : tracked w s -> (forall t, vs_prev s = Some t -> encodable t) /\ forall p, vs_prevObj s = Some p -> exists t, reads w t p.
Proof.
  unfold tracked, parse_last. intros T. destruct (truthy (vs_prev s)) as [t|] eqn:E.
  - apply truthy_Some in E as [E _]. apply bind_Ok in T as ([r a] & Er & T). apply parse_reads in Er as [-> R]. apply Ok_inj in T. cbn [fst] in T.
    rewrite E, <- T. split.
    + intros t' X. apply Some_inj in X. subst t'. exists t. exact (reads_encodes _ _ _ R).
    + intros p X. apply Some_inj in X. subst p. eauto.
  - apply Ok_inj in T. rewrite <- T. split; [|discriminate]. intros t X. rewrite X in E. unfold truthy in E.
    destruct t; [exists []; reflexivity|discriminate].
Qed.

Lemma step_raises v ps s cr : proper v -> settled ps s ->
  (forall i, raises P (used_check w (vs_used s) i)) ->
  (forall t r, utf8_decode cr = Ok t -> reads w t r -> key <> None -> raises P (cents r)) ->
  raises P (verify_step w v key ps s cr).
Proof.
  intros Pv [T Hs] Hu Hc. destruct (tracked_prev _ T) as [Ep Rp]. unfold verify_step.
  apply raises_bind.
  { unfold expandDEPReceipt, catch. destruct (utf8_decode cr) as [t|e] eqn:D; [apply raises_Ok|].
    apply utf8_decode_err in D. subst e. apply raises_Err. lib. }
  intros r Er. unfold expandDEPReceipt in Er. apply catch_Ok in Er. assert (encodable r) as En by (exists cr; now apply utf8_encode_decode).
  apply raises_bind; [now apply check_signature_raises|]. intros [ro n] C. cbn [fst snd].
  assert (reads w r ro) as R.
  { pose proof (check_signature_reads _ _ _ _ _ _ C) as [ro' R]. unfold check_signature in C.
    assert (fromJWSString w r = Ok (ro', lit "R1")) as F by now apply parse_reads.
    assert (forall x y, verifyJWS w v r = Ok (x, y) -> x = ro') as V.
    { intros x y. unfold verifyJWS. rewrite F. cbn [bind fst snd]. intros E.
      destruct (verify_spec w v ro' r Pv R) as [(_ & X)|[(_ & _ & X)|[(_ & _ & _ & X)|(_ & _ & _ & z & X & _)]]]; rewrite X in E; congruence. }
    destruct (verifyJWS w v r) as [[x y]|e].
    - specialize (V x y eq_refl). subst x. destruct (vs_prevObj s).
      + apply bind_Ok in C as (b & _ & C). destruct b; [|apply Ok_inj in C; congruence].
        destruct (negb _); [|discriminate]. apply bind_Ok in C as (b & _ & C). apply Ok_inj in C. congruence.
      + apply Ok_inj in C. congruence.
    - destruct (nonfatal e); [|discriminate]. rewrite F in C. cbn [bind fst] in C. destruct (vs_prevObj s); [|discriminate].
      destruct (negb _); [|discriminate]. apply Ok_inj in C. congruence. }
  apply raises_bind.
  { destruct (vs_prevObj s); [apply raises_Ok|]. apply raises_bind; [exact (check_initial_raises _ _ _ r Hs R)|intros; apply raises_Ok]. }
  intros [[prev po] reg] I. cbn [fst snd].
  assert (forall t, prev = Some t -> encodable t) as Epr.
  { destruct (vs_prevObj s); [apply Ok_inj in I; injection I as <- _ _; exact Ep|]. apply bind_Ok in I as ([a b] & I & X).
    apply Ok_inj in X. cbn [fst snd] in X. injection X as <- _ _. unfold check_initial in I.
    destruct (isNull ro); [|discriminate]. apply bind_Ok in I as (ns & _ & I). destruct (negb ns); [|discriminate].
    destruct (truthy ps) as [q|] eqn:Eq; [|apply Ok_inj in I; injection I as <- _; exact Ep].
    apply truthy_Some in Eq as [Eq _]. destruct (is_AT0 ro); [|discriminate]. apply bind_Ok in I as (pp & _ & I). destruct (is_AT0 (fst pp)); [|discriminate].
    apply Ok_inj in I. injection I as <- _. intros t X. apply Some_inj in X. subst t. now apply Hs. }
  apply raises_bind; [apply check_previous_raises; apply Hu|]. intros _ _.
  apply raises_bind; [exact (check_chain_raises _ _ _ _ _ r R Epr)|]. intros cn _.
  apply raises_bind; [|intros; apply raises_Ok]. apply (check_counter_raises _ _ r R). intros K. exact (Hc r ro Er R K).
Qed.

(** The used IDs: an invariant that adding an ID preserves *)
Context (U : used -> Prop) (HU : forall u i, U u -> U (used_add u i)) (Hck : forall u i, U u -> raises P (used_check w u i)).
Context (ps : option str) (Hps : forall t, ps = Some t -> encodable t).

(** A record whose amounts can be added or whose failure counts *)
Definition summed (cr : bytes) : Prop := forall t r, utf8_decode cr = Ok t -> reads w t r -> key <> None -> raises P (cents r).

Lemma step_used v s cr s' : verify_step w v key ps s cr = Ok s' -> U (vs_used s) -> U (vs_used s').
Proof.
  unfold verify_step. intros H Hu. apply bind_Ok in H as (r & _ & H). apply bind_Ok in H as (rn & _ & H). apply bind_Ok in H as (ini & _ & H).
  apply bind_Ok in H as (x & _ & H). apply bind_Ok in H as (cn & _ & H). apply bind_Ok in H as (c & _ & H). apply Ok_inj in H. subst s'. now apply HU.
Qed.

Lemma loop_raises v l s : proper v -> tracked w s -> U (vs_used s) -> Forall summed l -> raises P (verify_loop w v key ps s l)
  /\ forall s', verify_loop w v key ps s l = Ok s' -> tracked w s' /\ U (vs_used s').
Proof.
  intros Pv. revert s. induction l as [|cr l IH]; intros s T Hu F; cbn [verify_loop].
  - split; [apply raises_Ok|]. intros s' E. apply Ok_inj in E. now subst.
  - inversion F as [|? ? F1 F2]; subst. assert (raises P (verify_step w v key ps s cr)) as R.
    { apply step_raises; [exact Pv|now split|intros i; now apply Hck|exact F1]. }
    destruct (verify_step w v key ps s cr) as [s1|e] eqn:E; cbn [bind].
    + pose proof (step_tracked _ _ _ _ _ _ _ E) as T1. pose proof (step_used _ _ _ _ E Hu) as U1. exact (IH s1 T1 U1 F2).
    + split; [apply raises_Err; now apply R|discriminate].
Qed.

Lemma group_raises v l reg u : proper v -> (forall t, s_last reg = Some t -> encodable t) -> U u -> Forall summed l ->
  raises P (verifyGroup w l v key ps reg u)
  /\ forall ru, verifyGroup w l v key ps reg u = Ok ru -> (forall t, s_last (fst ru) = Some t -> encodable t) /\ U (snd ru).
Proof.
  intros Pv Hl Hu F. unfold verifyGroup.
  assert (raises P (parse_last w (s_last reg))) as R.
  { unfold parse_last. destruct (truthy (s_last reg)) as [t|] eqn:E; [|apply raises_Ok]. apply truthy_Some in E as [E _].
    apply raises_bind; [|intros; apply raises_Ok]. apply jws_raises. now apply Hl. }
  destruct (parse_last w (s_last reg)) as [po|e] eqn:E; cbn [bind]; [|split; [apply raises_Err; now apply R|discriminate]].
  destruct (loop_raises v l (VState (s_last reg) po reg u) Pv E Hu F) as [L L'].
  destruct (verify_loop w v key ps (VState (s_last reg) po reg u) l) as [s|e]; cbn [bind]; [|split; [apply raises_Err; now apply L|discriminate]].
  split; [apply raises_Ok|]. intros ru X. apply Ok_inj in X. subst ru. cbn [fst snd set_last s_last].
  destruct (L' s eq_refl) as [T Us]. split; [|exact Us]. exact (proj1 (tracked_prev _ T)).
Qed.

Lemma verifyCert_raises ks first c chain : raises P (verifyCert_from w ks first c chain).
Proof.
  revert c. induction chain as [|d chain IH]; intros c; cbn [verifyCert_from]; destruct (getCert ks _).
  - apply raises_check; [lib|apply raises_Ok].
  - apply raises_Err. lib.
  - apply raises_check; [lib|apply raises_Ok].
  - apply raises_check; [lib|apply IH].
Qed.

Lemma dep_groups_raises ks groups one reg u : (forall t, s_last reg = Some t -> encodable t) -> U u ->
  Forall (fun g => Forall summed (g_recs g)) groups ->
  raises P (dep_groups w ks key ps groups one reg u)
  /\ forall ru, dep_groups w ks key ps groups one reg u = Ok ru -> (forall t, s_last (snd (fst ru)) = Some t -> encodable t) /\ U (snd ru).
Proof.
  revert one reg u. induction groups as [|g groups IH]; intros one reg u Hl Hu F; cbn [dep_groups].
  - split; [apply raises_Ok|]. intros ru E. apply Ok_inj in E. now subst.
  - inversion F as [|? ? F1 F2]; subst. destruct (match one with Some true => false | _ => true end); [|split; [apply raises_Err; lib|discriminate]].
    set (m := match g_cert g with Some c => _ | None => _ end).
    assert (raises P m /\ forall x, m = Ok x -> proper (fst x)) as [M M'].
    { subst m. destruct (g_cert g) as [c|].
      - split; [apply raises_bind; [apply verifyCert_raises|intros; apply raises_Ok]|]. intros x E. apply bind_Ok in E as (y & _ & E).
        apply Ok_inj in E. subst x. left. now exists c.
      - destruct (match one with Some false => false | _ => true end); [|split; [apply raises_Err; lib|discriminate]].
        split; [apply raises_Ok|]. intros x E. apply Ok_inj in E. subst x. right. now exists ks. }
    destruct m as [vo|e]; cbn [bind]; [|split; [apply raises_Err; now apply M|discriminate]].
    destruct (group_raises (fst vo) (g_recs g) reg u (M' vo eq_refl) Hl Hu F1) as [G G'].
    destruct (verifyGroup w (g_recs g) (fst vo) key ps reg u) as [ru|e]; cbn [bind]; [|split; [apply raises_Err; now apply G|discriminate]].
    destruct (G' ru eq_refl) as [Hl' Hu']. exact (IH _ _ _ Hl' Hu' F2).
Qed.

Lemma dep_chunks_raises ks chunks one reg u : (forall t, s_last reg = Some t -> encodable t) -> U u ->
  Forall (fun c => c <> [] /\ Forall (fun g => Forall summed (g_recs g)) c) chunks ->
  raises P (dep_chunks w ks key ps chunks one reg u).
Proof.
  revert one reg u. induction chunks as [|c chunks IH]; intros one reg u Hl Hu F; cbn [dep_chunks]; [apply raises_Ok|].
  inversion F as [|? ? [N F1] F2]; subst. assert (negb (List.length c =? 0)%nat = true) as -> by (destruct c; [congruence|reflexivity]).
  destruct (dep_groups_raises ks c one reg u Hl Hu F1) as [G G'].
  destruct (dep_groups w ks key ps c one reg u) as [ru|e]; cbn [bind]; [|exact G]. destruct (G' ru eq_refl) as [Hl' Hu'].
  now apply IH.
Qed.

Lemma dep_body_raises ks s reg u : (forall t, s_last reg = Some t -> encodable t) -> U u ->
  Forall (fun c => c <> [] /\ Forall (fun g => Forall summed (g_recs g)) c) (fst s) -> (forall e, snd s = Some e -> P e) ->
  raises P (dep_body w ks key s (ps, reg, u)).
Proof.
  intros Hl Hu F E. unfold dep_body. apply raises_bind; [now apply dep_chunks_raises|]. intros ru _.
  apply raises_bind; [|intros; apply raises_Ok]. destruct s as [cs [e|]]; cbn [finished snd]; [apply raises_Err; apply E; reflexivity|apply raises_Ok].
Qed.

End Raises.

(** Choosing the register *)
Lemma with_register_raises (P : exn -> Prop) c idx body c' e : (forall x, library_exn x -> P x) ->
  (forall ps reg u, state_encodes c -> opt_encodes ps -> opt_encodes (s_last reg) -> u = c_used c -> raises P (body (ps, reg, u))) ->
  state_encodes c -> with_register c idx body = (c', Some e) -> P e.
Proof.
  intros HP Hb Sc H. unfold with_register in H. destruct (getCashRegisterInfo c idx) as [c1 info] eqn:G.
  assert (raises P (do i <- info; do ru <- body i; updateCashRegisterInfo c1 idx (fst ru) (snd ru))) as R.
  2:{ destruct (do i <- info; do ru <- body i; updateCashRegisterInfo c1 idx (fst ru) (snd ru)) as [c2|x]; [congruence|].
      assert (e = x) as -> by congruence. now apply R. }
  clear H. unfold getCashRegisterInfo in G.
  set (n := Z.of_nat (List.length (c_regs c))) in G. set (new := match idx with None => true | Some i => (i =? n)%Z end) in G.
  set (i := if new then n else match idx with None => n | Some i => i end) in G. cbv zeta in G.
  assert ((new = true /\ i = n) \/ (new = false /\ exists j, idx = Some j /\ i = j /\ j <> n)) as Hi.
  { subst i new. destruct idx as [j|]; [|now left]. destruct (Z.eqb_spec j n); [left; now split|right]. split; [reflexivity|]. exists j. auto. }
  destruct (if new then addNewCashRegister c else Ok c) as [c2|x] eqn:A.
  2:{ injection G as <- <-. apply raises_Err. destruct new; [|discriminate]. unfold addNewCashRegister in A.
      destruct (rev (c_regs c)) as [|r l]; [discriminate|]. destruct (truthy (s_start r)); [discriminate|]. injection A as <-. apply HP. exact I. }
  assert (state_encodes c2 /\ c_used c2 = c_used c /\ (new = true -> List.length (c_regs c2) = S (List.length (c_regs c)))
          /\ (new = false -> c2 = c)) as (S2 & U2 & L2 & N2).
  { destruct new.
    - unfold addNewCashRegister in A. destruct (rev (c_regs c)) as [|r l] eqn:Er.
      + apply Ok_inj in A. subst c2. apply (f_equal (@List.length _)) in Er. rewrite rev_length in Er. cbn [c_regs c_used]. rewrite Er.
        split; [apply Forall_cons; [split; discriminate|constructor]|]. split; [reflexivity|]. split; [intros _; reflexivity|discriminate].
      + destruct (truthy (s_start r)); [|discriminate]. apply Ok_inj in A. subst c2. cbn [c_regs c_used]. rewrite app_length. split; [|split; [reflexivity|]].
        * apply Forall_app. split; [exact Sc|]. apply Forall_cons; [|constructor]. split; discriminate.
        * split; [intros _; cbn [List.length]; lia|discriminate].
    - apply Ok_inj in A. subst c2. split; [exact Sc|]. split; [reflexivity|]. split; [discriminate|reflexivity]. }
  destruct ((i <? 0) || (Z.of_nat (List.length (c_regs c2)) <? i))%Z eqn:B.
  { injection G as <- <-. apply raises_Err. apply HP. exact I. }
  apply orb_false_iff in B as [B1 B2]. apply Z.ltb_ge in B1. apply Z.ltb_ge in B2.
  assert (i < Z.of_nat (List.length (c_regs c2)))%Z as B3.
  { destruct Hi as [[Hn Hi]|(Hn & j & _ & Hi & Hj)].
    - rewrite (L2 Hn). subst n. lia.
    - rewrite (N2 Hn) in *. subst n. lia. }
  destruct (nth_error (c_regs c2) (Z.to_nat i)) as [r|] eqn:Nr.
  2:{ apply nth_error_None in Nr. lia. }
  injection G as <- <-. cbn [bind]. apply nth_error_In in Nr. pose proof (proj1 (Forall_forall _ _) S2 r Nr) as [_ Lr].
  apply raises_bind.
  - apply Hb; [exact Sc| |exact Lr|exact U2]. destruct (0 <? i)%Z; [|discriminate].
    destruct (nth_error (c_regs c2) (Z.to_nat (i - 1))) as [p|] eqn:Np; [|discriminate].
    apply nth_error_In in Np. exact (proj1 (proj1 (Forall_forall _ _) S2 p Np)).
  - intros ru _. unfold updateCashRegisterInfo. apply raises_check; [apply HP; exact I|].
    assert (0 <=? match idx with Some j => j | None => Z.of_nat (List.length (c_regs c2)) - 1 end = true)%Z as ->; [|apply raises_Ok].
    apply Z.leb_le. destruct idx as [j|]; [|lia]. subst i new. destruct (Z.eqb_spec j n); subst; lia.
Qed.

(** The records the dictionary parser delivers are texts of the document. *)
Lemma dict_get_In (d : list (str * json)) k v : dict_get d k = Some v -> In (k, v) d.
Proof.
  induction d as [|[k' v'] d IH]; cbn [dict_get]; [discriminate|]. destruct (str_eqb k' k) eqn:X.
  - apply str_eqb_eq in X. subst. intros Y. injection Y as ->. now left.
  - intros Y. right. now apply IH.
Qed.

Lemma shrink_text j cr : shrinkJ j = Ok cr -> exists t, j = JStr t /\ utf8_decode cr = Ok t.
Proof. destruct j; try discriminate. cbn [shrinkJ]. unfold shrinkDEPReceipt. intros H. eexists. split; [reflexivity|]. now apply utf8_decode_encode. Qed.

Lemma mapM_In {A B} (f : A -> result B) l m y : mapM f l = Ok m -> In y m -> exists x, In x l /\ f x = Ok y.
Proof.
  revert m. induction l as [|a l IH]; intros m H Hy; cbn [mapM] in H.
  - apply Ok_inj in H. subst m. destruct Hy.
  - apply bind_Ok in H as (b & Hb & H). apply bind_Ok in H as (bs & Hbs & H). apply Ok_inj in H. subst m. destruct Hy as [<-|Hy].
    + exists a. split; [now left|exact Hb].
    + destruct (IH bs Hbs Hy) as (x & Hx & E). exists x. split; [now right|exact E].
Qed.

Lemma gen_groups_texts w groups c : (forall j d jr, In j groups -> j = JDict d -> dict_get d k_recs = Some jr -> exists texts, jr = JList (map JStr texts)) -> In c (fst (gen_groups w groups)) ->
  c <> [] /\ forall g cr, In g c -> In cr (g_recs g) -> exists j t, In j groups /\ text_in j t /\ utf8_decode cr = Ok t.
Proof.
  intros Ht. assert (forall d jr, In (JDict d) groups -> dict_get d k_recs = Some jr -> exists texts, jr = JList (map JStr texts)) as Hj by eauto.
  clear Ht. revert Hj. induction groups as [|j groups IH]; intros Hj; cbn [gen_groups]; [intros []|].
  specialize (IH (fun d jr Hd => Hj d jr (or_intror Hd))).
  assert (forall d jr, j = JDict d -> dict_get d k_recs = Some jr -> exists texts, jr = JList (map JStr texts)) as Ht by (intros d jr ->; apply Hj; now left). clear Hj.
  destruct (do p <- parseDEPGroup w j; do recs <- mapM shrinkJ (fst (fst p)); Ok (DGroup recs (snd (fst p)) (snd p))) as [dg|x] eqn:E; [|intros []].
  assert (In c (fst (gen_groups w groups)) -> c <> [] /\ forall g cr, In g c -> In cr (g_recs g) -> exists j' t, In j' (j :: groups) /\ text_in j' t /\ utf8_decode cr = Ok t) as K.
  { intros H. destruct (IH H) as [N K]. split; [exact N|]. intros g cr Hg Hr. destruct (K g cr Hg Hr) as (j' & t & Hj & T). exists j', t. split; [now right|exact T]. }
  intros H. assert (c = [dg] \/ In c (fst (gen_groups w groups))) as [->|H'].
  { destruct (g_recs dg); [now right|]. unfold s_cons in H. destruct H as [<-|H]; auto. }
  2:{ exact (K H'). }
  split; [discriminate|]. intros g cr [<-|[]] Hr.
  apply bind_Ok in E as (p & Ep & E). apply bind_Ok in E as (recs & Er & E). apply Ok_inj in E. subst dg. cbn [g_recs] in Hr.
  destruct (mapM_In _ _ _ _ Er Hr) as (x & Hx & Sx). apply shrink_text in Sx as (t & -> & Dt).
  exists j, t. split; [now left|]. split; [|exact Dt].
  unfold parseDEPGroup in Ep. destruct j as [| | | | | |d]; try discriminate. destruct (dict_get d k_recs) as [jr|] eqn:D1; [|discriminate].
  destruct (dict_get d k_cert) as [jc|]; [|discriminate]. destruct (dict_get d k_certs) as [jl|]; [|discriminate].
  apply bind_Ok in Ep as (l & Il & Ep).
  assert (fst (fst p) = l) as Hp.
  { destruct jc; try discriminate. destruct jl; try discriminate. apply bind_Ok in Ep as (c & _ & Ep). apply bind_Ok in Ep as (ch & _ & Ep).
    apply Ok_inj in Ep. now subst p. }
  rewrite Hp in Hx. destruct (Ht d jr eq_refl D1) as (texts & ->).
  cbn [iter] in Il. apply Ok_inj in Il. subst l.
  apply (text_dict d k_recs (JList (map JStr texts))); [now apply dict_get_In|]. apply (text_list _ (JStr t)); [exact Hx|constructor].
Qed.

Lemma dict_texts w dep c : receipts_are_texts dep -> In c (fst (parse_dict w 1 dep 0)) ->
  c <> [] /\ forall g cr, In g c -> In cr (g_recs g) -> exists t, text_in dep t /\ utf8_decode cr = Ok t.
Proof.
  intros Ht H. unfold parse_dict in H. destruct dep as [| | | | | |d]; try (now destruct H).
  destruct (dict_get d k_bg) as [jb|] eqn:E; [|now destruct H].
  destruct jb as [| | | | |[|j js]|]; try (now destruct H).
  cbn [Nat.ltb Nat.leb andb] in H. unfold groupChunkGen in H. cbn [Nat.eqb] in H.
  assert (In c (fst (gen_groups w (j :: js)))) as Hc by (destruct (gen_groups w (j :: js)) as [[|c0 cs] [e|]]; exact H).
  destruct (gen_groups_texts w (j :: js) c) as [N K].
  - intros j' d' jr Hj -> Er. exact (Ht d (j :: js) d' jr eq_refl E Hj Er).
  - exact Hc.
  - split; [exact N|]. intros g cr Hg Hr. destruct (K g cr Hg Hr) as (j' & t & Hj & T & D). exists t. split; [|exact D].
    apply (text_dict d k_bg (JList (j :: js))); [now apply dict_get_In|]. now apply (text_list _ j').
Qed.

(** Exceptions of the comparison of IDs *)
Lemma used_check_raises (P : exn -> Prop) w u i : (forall x, verdict x -> P x) -> (forall a b, u = Natural a b -> P PyTypeError /\ P PyValueError) ->
  raises P (used_check w u i).
Proof.
  intros HP N. unfold used_check. destruct u as [ids|a b]; [apply raises_check; [apply HP; exact I|apply raises_Ok]|].
  destruct b as [m|]; [|apply raises_Ok]. destruct (N a (Some m) eq_refl) as [T V].
  assert (forall s, raises P (nat_key w s)) as K.
  { intros s. unfold nat_key. induction (num_split s) as [|x l IH]; cbn [mapM]; [apply raises_Ok|].
    apply raises_bind; [unfold convert_piece; destruct (isdigit w x); [destruct (py_int w 10 x)|]; try apply raises_Ok; now apply raises_Err|].
    intros y _. apply raises_bind; [exact IH|intros; apply raises_Ok]. }
  assert (forall x y, raises P (key_lt x y)) as L.
  { induction x as [|x xs IH]; intros [|y ys]; cbn [key_lt]; try apply raises_Ok. destruct x, y.
    - destruct (_ =? _)%Z; [apply IH|apply raises_Ok].
    - now apply raises_Err.
    - now apply raises_Err.
    - destruct (str_eqb _ _); [apply IH|apply raises_Ok]. }
  apply raises_bind; [apply K|intros x _]. apply raises_bind; [apply K|intros y _]. apply raises_bind; [apply L|intros z _].
  apply raises_check; [apply HP; exact I|apply raises_Ok].
Qed.

Lemma cents_err r e : cents r = Err e -> e = PyOverflowError \/ e = PyValueError.
Proof. unfold cents. destruct (fmul _ _); cbn [py_round]; try discriminate; intros H; injection H as <-; auto. Qed.

Theorem verifyDEP_raises w dep ks key c idx c' e : receipts_are_texts dep -> texts_encode dep -> state_encodes c ->
  verifyDEP w dep ks key c idx = (c', Some e) ->
  library_exn e
  \/ ((e = PyOverflowError \/ e = PyValueError) /\ key <> None /\ amounts_fail w dep e)
  \/ ((e = PyTypeError \/ e = PyValueError) /\ exists a b, c_used c = Natural a b).
Proof.
  intros Ht He Hs H. unfold verifyDEP in H.
  set (P := fun e => library_exn e \/ ((e = PyOverflowError \/ e = PyValueError) /\ key <> None /\ amounts_fail w dep e)
    \/ ((e = PyTypeError \/ e = PyValueError) /\ exists a b, c_used c = Natural a b)).
  change (P e). assert (forall x, library_exn x -> P x) as HP by (intros x X; now left).
  assert (forall x, verdict x -> P x) as HV by (intros x X; apply HP; now apply verdict_library).
  assert (forall k, key = Some k -> List.length k <> 32%nat -> P InvalidKey) as HI by (intros; apply HP; exact I).
  apply (with_register_raises P c idx _ c' e HP) in H; [exact H| |exact Hs].
  intros ps reg u _ Hps Hl ->.
  apply (dep_body_raises w P HV key HI (fun u => forall a b, u = Natural a b -> exists a' b', c_used c = Natural a' b')).
  - intros u i K a b E. destruct u as [ids|a' b']; [cbn [used_add] in E; destruct (mem i ids); discriminate|]. exact (K a' b' eq_refl).
  - intros u i K. apply used_check_raises; [exact HV|]. intros a b ->. specialize (K a b eq_refl). split; right; right; auto.
  - exact Hps.
  - exact Hl.
  - intros a b E. eauto.
  - apply Forall_forall. intros ch Hch. destruct (dict_texts w dep ch Ht Hch) as [N K]. split; [exact N|].
    apply Forall_forall. intros g Hg. apply Forall_forall. intros cr Hr t r D R Hk x X.
    destruct (K g cr Hg Hr) as (t' & T & D'). rewrite D in D'. apply Ok_inj in D'. subst t'.
    right. left. split; [exact (cents_err _ _ X)|]. split; [exact Hk|]. exists t, r. auto.
  - intros x X. destruct (parse_dict w 1 dep 0) as [chunks o] eqn:Ep. cbn [snd] in X. subst o.
    destruct (dict_regular _ _ _ _ _ _ Ht Ep) as [D|(-> & s & T & S)]; [left; now apply dep_library|].
    destruct (He s T) as [b B]. congruence.
Qed.

Theorem verifyDEP_clean w dep ks c idx ids c' e : receipts_are_texts dep -> texts_encode dep -> state_encodes c ->
  c_used c = Unique ids -> verifyDEP w dep ks None c idx = (c', Some e) -> library_exn e.
Proof.
  intros Ht He Hs Hu H. destruct (verifyDEP_raises _ _ _ _ _ _ _ _ Ht He Hs H) as [L|[(_ & N & _)|(_ & a & b & E)]]; [exact L|congruence|congruence].
Qed.

(** Short amounts are moderate. *)
Lemma decimal_bound w cs ds : Forall2 (fun c d => decimal w c = Some d) cs ds -> (0 <= decimal_value ds < 10 ^ Z.of_nat (List.length ds))%Z /\ List.length cs = List.length ds.
Proof.
  induction 1 as [|c d cs ds D F [IH L]]; cbn [decimal_value List.length]; [lia|]. split; [|congruence].
  assert (d < 10) as B.
  { unfold decimal in D. destruct (c <? 128).
    - destruct (is_09 c) eqn:E; [|discriminate]. apply Some_inj in D. subst d. unfold is_09 in E. lia.
    - destruct (u_decimal w c) as [x|]; [|discriminate]. destruct (N.ltb_spec x 10); [|discriminate]. apply Some_inj in D. now subst. }
  rewrite Nat2Z.inj_succ, Z.pow_succ_r by lia. nia.
Qed.
Lemma short_moderate w s z : amount_cents w s z -> (List.length s <= 15)%nat -> moderate z.
Proof.
  intros [_ (sign & euros & x & y & nl & ds & -> & _ & F & S)] L. destruct (decimal_bound _ _ _ F) as [B E].
  rewrite !app_length in *. cbn [List.length] in *.
  assert (10 ^ Z.of_nat (List.length ds) <= 10 ^ 14)%Z by (apply Z.pow_le_mono_r; lia). unfold moderate. destruct S as [[_ ->]|[_ ->]]; lia.
Qed.

Theorem verifyDEP_short w dep ks key c idx ids c' e : receipts_are_texts dep -> texts_encode dep -> state_encodes c ->
  c_used c = Unique ids -> short_amounts w dep -> verifyDEP w dep ks key c idx = (c', Some e) -> library_exn e.
Proof.
  intros Ht He Hs Hu Sh H. destruct (verifyDEP_raises _ _ _ _ _ _ _ _ Ht He Hs H) as [L|[(_ & _ & s & r & T & R & C)|(_ & a & b & E)]]; [exact L| |congruence].
  exfalso. destruct (reads_printed _ _ _ R) as [zs Pz]. rewrite (reads_cents _ _ _ zs R Pz) in C; [discriminate|].
  specialize (Sh s r T R). cbv zeta in Sh. unfold printed_amounts in Pz. cbv zeta in Pz. clear - Pz Sh.
  induction Pz as [|a z l zs A F IH]; [constructor|]. inversion Sh as [|? ? L Sh']; subst. constructor; [exact (short_moderate _ _ _ A L)|exact (IH Sh')].
Qed.
