(** Verification that starts in the middle of a register's receipts (C33). *)
From Coq Require Import Lia ZifyClasses ZifyN ZifyNat ZifyBool.
From Verif Require Import PyBase World Regex Codec PyFloat PyTime Algo Receipt DepBase Json Pem KeyStore VerifyReceipt State DepParser
  Verify ListFacts CodecFacts SpecReceipt FieldFacts ReceiptFacts RoundTrip SpecDep SpecCluster VerifyFacts StepFacts DepFacts SeqFacts
  ClusterFacts AcceptFacts DepTheorems.
Open Scope N_scope.
Open Scope py_scope.

(** ** The made up receipt *)

Definition dummy_fields (r : receipt) : fields :=
  Fields (r_zda r) (r_registerId r) (lit "dummyrec") (r_dateTimeStr r)
    (lit "0,00") (lit "0,00") (lit "0,00") (lit "0,00") (lit "0,00")
    dummy000 (r_certSerial r) (b64encode dummy000).

Lemma zero_amount w : amount_text w (lit "0,00").
Proof.
  exists [], [48], 48, 48, []. split; [reflexivity|]. split; [now left|]. split; [now left|].
  assert (digit w 48) by (exists 0; reflexivity).
  split; [now constructor|]. split; [assumption|]. split; [assumption|]. left. now exists 48.
Qed.

Lemma dummy_wf w s r : reads w s r -> wf_printed w (dummy_fields r).
Proof.
  intros (f & sg & (h & p & hb & pb & gb & _ & _ & _ & _ & _ & _ & W) & I).
  destruct W as (W & _ & _ & NS). destruct I as (F & _). subst f.
  destruct W as (_ & _ & G1 & G2 & Z & T & _ & _ & _ & _ & _ & _ & _ & S).
  unfold r_fields in *. rsimpl. unfold dummy_fields, wf_printed, wf_fields. rsimpl.
  pose proof (zero_amount w) as A0. split.
  - split; [discriminate|]. split; [cbn; unfold c_us; intuition discriminate|]. split; [exact G1|]. split; [exact G2|].
    split; [exact Z|]. split; [exact T|]. do 5 (split; [exact A0|]). split.
    + eexists. split; [vm_compute; reflexivity|]. right. left. cbn. lia.
    + split; [eexists; vm_compute; reflexivity|exact S].
  - split; [exists 68; split; [now left|discriminate]|]. split; [|exact NS].
    eexists. split; [vm_compute; reflexivity|reflexivity].
Qed.

Lemma dummy_payload w s r : reads w s r -> exists pb, utf8_encode (payload_text (dummy_fields r)) = Ok pb.
Proof.
  intros (f & sg & J & I). apply jws_text_encodable in J. destruct I as (F & _). subst f.
  unfold payload_text in J. pose proof (encodable_join _ _ J) as E. unfold r_fields in E. rsimpl.
  change (encodable (payload_text (dummy_fields r))). apply encodable_In. intros c Hc.
  assert (forall t, Forall (fun c => c < 128) t -> In c t -> encodable [c]) as A.
  { intros t Ft Ht. apply encodable_ascii in Ft. exact (proj1 (encodable_In t) Ft c Ht). }
  assert (forall t, encodable t -> In c t -> encodable [c]) as B.
  { intros t Et Ht. exact (proj1 (encodable_In t) Et c Ht). }
  assert (encodable (lit "R1-" ++ r_zda r)) as E1 by (apply E; cbn [In]; tauto).
  assert (encodable (r_registerId r)) as E2 by (apply E; cbn [In]; tauto).
  assert (encodable (r_dateTimeStr r)) as E3 by (apply E; cbn [In]; tauto).
  assert (encodable (r_certSerial r)) as E4 by (apply E; cbn [In]; tauto).
  assert (forall sep l, In c (join sep l) -> In c sep \/ exists t, In t l /\ In c t) as Jn.
  { intros sep l. induction l as [|x l IH]; [intros []|]. destruct l as [|y l].
    - cbn [join]. intros H. right. exists x. split; [now left|exact H].
    - change (join sep (x :: y :: l)) with (x ++ sep ++ join sep (y :: l)). rewrite !in_app_iff. intros [H|[H|H]].
      + right. exists x. split; [now left|exact H].
      + now left.
      + apply IH in H as [H|(t & H & H')]; [now left|]. right. exists t. split; [now right|exact H']. }
  apply Jn in Hc as [Hc|(t & Ht & Hc)].
  - apply (A [c_us]); [|exact Hc]. repeat constructor.
  - unfold dummy_fields in Ht. rsimpl. cbn [In] in Ht.
    repeat match goal with H : _ \/ _ |- _ => destruct H as [<-|H] end; try contradiction;
      try (eapply B; [|exact Hc]; assumption); eapply A; try exact Hc; repeat constructor.
Qed.

(** The state that is made for a standard receipt. *)
Lemma state_made w s r key b : hash_ok w -> reads w s r -> standard r ->
  (forall k, key = Some k -> List.length k = 32%nat /\ (exists z, cents r = Ok z) /\ exists z, decrypts w k r z) ->
  exists t d tc, reads w t d /\ fromArbitraryReceipt w r (lit "R1") key b =
      Ok (Cluster [RegState None (Some t) tc false (Some (r_previousChain r))] (used_new b))
    /\ r_registerId d = r_registerId r /\ r_zda d = r_zda r /\ r_dateTime d = r_dateTime r /\ ~ unsigned d
    /\ r_previousChain r <> []
    /\ forall k z x, key = Some k -> decrypts w k r z -> cents r = Ok x -> tc = (z - x)%Z.
Proof.
  intros HO R St K. pose proof (dummy_wf w s r R) as W. destruct (dummy_payload w s r R) as (pb & Pb).
  destruct (wf_has_receipt w (dummy_fields r) (proj1 W)) as (d0 & D0). pose proof D0 as D0'. apply mk_receipt_spec in D0' as [_ I].
  assert (seg_decodes dummy000 (match urlsafe_b64decode dummy000 with Ok x => x | Err _ => [] end)) as G
    by (split; vm_compute; reflexivity).
  set (d := with_sig d0 (es256_header, dummy000)).
  assert (is_receipt w (dummy_fields r) (Some (es256_header, dummy000)) d) as Id by (eapply is_receipt_sig; exact I).
  pose proof (toJWSString_spec w _ _ _ _ Id Pb) as J.
  set (t := b64url_nopad es256_header ++ [c_dot] ++ b64url_nopad pb ++ [c_dot] ++ dummy000) in *.
  assert (reads w t d) as Rt.
  { exists (dummy_fields r), dummy000. split; [|exact Id].
    exists (b64url_nopad es256_header), (b64url_nopad pb), es256_header, pb, (match urlsafe_b64decode dummy000 with Ok x => x | Err _ => [] end).
    split; [reflexivity|]. split; [apply seg_nopad, header_is_bytes|]. split; [apply header_bytes|].
    split; [apply seg_nopad; now apply utf8_encode_bytes in Pb|]. split; [assumption|]. split; assumption. }
  assert (exists tc, match truthy key with
           | None => Ok 0%Z
           | Some k =>
               do std <- andR (notR (isDummy r)) (notR (isReversal r));
               if std then do cur <- decryptTC w r k; do x <- cents r; Ok (cur - x)%Z else Ok 0%Z
           end = Ok tc /\ forall k z x, key = Some k -> decrypts w k r z -> cents r = Ok x -> tc = (z - x)%Z) as (tc & Tc & Hc).
  { destruct key as [k|]; [|exists 0%Z; split; [reflexivity|discriminate]].
    destruct (K k eq_refl) as (L & (x & X) & (z & D)). destruct k as [|k0 k']; [discriminate|]. cbn [truthy].
    rewrite (reads_isDummy _ _ _ R), (reads_isReversal _ _ _ R). apply standardb_iff in St as St'.
    destruct (trainb r), (cancelb r); try discriminate. cbn [andR notR bind negb]. unfold decrypts in D. rewrite D, X. cbn [bind].
    exists (z - x)%Z. split; [reflexivity|]. intros k z' x' E D' X'. apply Some_inj in E. subst k. unfold decrypts in D'.
    rewrite D in D'. apply Ok_inj in D', X'. now subst. }
  exists t, d, tc. split; [exact Rt|].
  assert (r_previousChain r <> []) as NC.
  { destruct R as (f & sg & (h & p & hb & pb' & gb & _ & _ & _ & _ & _ & _ & (_ & _ & (cb & C & L) & _)) & (F & _)).
    subst f. unfold r_fields in C. rsimpl. intros E. rewrite E in C. vm_compute in C. apply Ok_inj in C. subst cb. discriminate. }
  split.
  - unfold fromArbitraryReceipt. change (known_alg (lit "R1")) with true. cbn iota. rewrite Tc. cbn [bind].
    change (mk_of w (dummy_fields r) = Ok d0) in D0. unfold mk_of, dummy_fields in D0. rsimpl. rewrite D0. cbn [bind].
    rewrite (proj2 (sign_receipt_spec d0 r1_jwsHeader dummy000 d)); [|split; [eauto|reflexivity]]. cbn [bind].
    rewrite J. cbn [bind]. unfold init_cluster. cbn [truthy].
    destruct t as [|t0 t'] eqn:Et; [apply reads_nonempty in Rt; congruence|]. cbn [truthy].
    destruct (r_previousChain r) as [|c0 c']; [congruence|]. reflexivity.
  - destruct Id as (F & S & T & _). unfold dummy_fields, r_fields in F. injection F as F1 F2 F3 F4 _ _ _ _ _ _ F5 F6.
    split; [exact F2|]. split; [exact F1|]. split.
    + destruct R as (f & sg & _ & (Fr & _ & Tr & _)). subst f. unfold r_fields, dummy_fields in *. rsimpl. rewrite T in Tr. now apply Some_inj in Tr.
    + split; [|split; [exact NC|exact Hc]]. unfold unsigned, r_signature. rewrite S. discriminate.
Qed.

(** ** Used IDs *)

Lemma fresh_forget w u x l b : fresh_ids w (used_add u x) true l -> b = backend_of u \/ b = B_unique ->
  fresh_ids w (used_add (used_new b) x) true l.
Proof.
  intros F B. destruct u as [u|mi ma].
  - assert (b = B_unique) as -> by (destruct B as [->| ->]; reflexivity).
    destruct l as [|y l]; [exact I|]. cbn [used_new used_add mem existsb app]. apply fresh_unique.
    assert (In x (match used_add (Unique u) x with Unique v => v | _ => [] end)) as Hx.
    { cbn [used_add]. destruct (mem x u) eqn:M; [now apply mem_In|]. apply in_or_app. right. now left. }
    cbn [used_add] in F, Hx. destruct (mem x u); apply fresh_unique in F as (ND & A & C); cbn iota in Hx;
      (split; [exact ND|]; split; [intros z Hz [<-|[]]; now apply (A x Hz)|intros _ [<-|[]]; now apply C]).
  - cbn [used_add] in F. apply fresh_natural in F as [Inc F]. destruct B as [->| ->]; cbn [used_new backend_of used_add].
    + apply fresh_natural. split; [exact Inc|]. destruct l; [constructor|exact F].
    + cbn [mem existsb app]. apply fresh_unique. destruct l as [|y l]; [exact I|]. specialize (F eq_refl).
      assert (increasing w (x :: y :: l)) as Inc' by (split; assumption). apply increasing_NoDup in Inc'.
      apply NoDup_cons_iff in Inc' as [NI ND]. split; [exact ND|].
      split; [intros z Hz [<-|[]]; apply NI; now right|intros _ [<-|[]]; apply NI; now left].
Qed.

(** ** The rest of the sequence *)

Lemma rest_valid w key ps ps' reg u p i l t d tc b :
  valid_sequence w key ps reg u p (i :: l) ->
  reads w t d ->
  r_registerId d = r_registerId (i_rec i) -> r_zda d = r_zda (i_rec i) -> r_dateTime d = r_dateTime (i_rec i) -> ~ unsigned d ->
  r_previousChain (i_rec i) <> [] ->
  (key <> None -> tc = s_counter reg) -> (b = backend_of u \/ b = B_unique) ->
  valid_sequence w key ps' (RegState None (Some t) tc false (Some (r_previousChain (i_rec i)))) (used_new b) (Some (t, d)) (i :: l).
Proof.
  intros V R E1 E2 E3 U NC C B. apply valid_cons in V as [(A & S & Re & Co & q & Eq & Cs & Ch & F) V]. apply valid_cons.
  assert (truthy (Some (r_previousChain (i_rec i))) = Some (r_previousChain (i_rec i))) as Tr
    by (destruct (r_previousChain (i_rec i)); [congruence|reflexivity]).
  split.
  - split; [exact A|]. split; [discriminate|]. cbn [s_restore s_counter s_chain]. split; [discriminate|]. split.
    + unfold counter_ok in *. intros k Ek NT. rewrite C by congruence. now apply Co.
    + exists (Some (t, d)). split; [reflexivity|]. split.
      * intros s p' H. cbn [fst snd] in *. injection H as <- <-. split; [now symmetry|]. unfold closed. rewrite E2. split; [reflexivity|].
        unfold not_before. rewrite E3. unfold dt_ltb. induction (dt_fields (r_dateTime (i_rec i))) as [|x xs IH]; [reflexivity|].
        cbn [lex_ltb]. now rewrite N.ltb_irrefl.
      * rewrite Tr. split; [reflexivity|]. intros _. destruct B as [->| ->]; [destruct u|]; reflexivity.
  - destruct V as (Al & _ & (Rl & Rl2) & Cl & Q). split; [exact Al|]. split; [intros ? ? X; discriminate X|].
    cbn [reg_step s_restore s_counter s_chain]. split.
    { split; [|exact Rl2]. cbn [needb]. apply unsignedb_false in U. rewrite U. cbn [andb]. discriminate. }
    split.
    { unfold counter_rule in *. intros k Ek. rewrite C by congruence. cbn [reg_step s_counter] in Cl. now apply Cl. }
    intros NE. destruct (Q NE) as (q' & Eq' & Co' & Ch' & F'). exists q'. split; [exact Eq'|]. split; [exact Co'|]. split.
    + destruct l as [|j l]; [congruence|]. cbn [reg_step s_chain chain_rule] in *. rewrite chain_step_truthy in *. exact Ch'.
    + cbn in Eq'. subst q'. unfold is_some in *. cbn [as_past] in *. now apply (fresh_forget w u).
Qed.

(** ** DEPs *)

Lemma suffix_items w ks dep dep2 gs gs1 gs2 items :
  dep_is w dep gs -> dep_is w dep2 gs2 -> cut gs gs1 gs2 -> dep_texts ks gs2 <> [] -> dep_ok w ks dep items ->
  exists l1 l2, items = l1 ++ l2 /\ dep_ok w ks dep2 l2 /\ Forall (fun i => reads w (i_jws i) (i_rec i)) l1.
Proof.
  intros D D2 (pre & t1 & t2 & c & ch & post & -> & -> & -> & Ce) NE (gs' & D' & T & F & _).
  rewrite <- (dep_is_fun _ _ _ _ D D') in *. clear D' gs'.
  assert (dep_texts ks (pre ++ Group (t1 ++ t2) c ch :: post)
    = (dep_texts ks pre ++ map (fun s => (s, verifier_of ks c)) t1) ++ dep_texts ks (Group t2 c ch :: post)) as E.
  { unfold dep_texts. rewrite flat_map_app. cbn [flat_map gr_texts gr_cert]. rewrite map_app, !app_assoc. reflexivity. }
  rewrite E in F. apply Forall2_app_inv_l in F as (l1 & l2 & F1 & F2 & ->). exists l1, l2. split; [reflexivity|]. split.
  - exists (Group t2 c ch :: post). split; [exact D2|]. split; [|split; [exact F2|]].
    2: { intros ->. apply NE. destruct (dep_texts ks (Group t2 c ch :: post)); [reflexivity|inversion F2]. }
    assert (forall g, In g (occupied (Group t2 c ch :: post)) ->
      exists g', In g' (occupied (pre ++ Group (t1 ++ t2) c ch :: post)) /\ gr_cert g' = gr_cert g /\ gr_chain g' = gr_chain g) as Sub.
    { intros g Hg. unfold occupied in *. apply filter_In in Hg as [[<-|Hg] Hn].
      - exists (Group (t1 ++ t2) c ch). split; [|split; reflexivity]. apply filter_In. split; [apply in_elt|].
        cbn [gr_texts] in *. destruct t1; [exact Hn|reflexivity].
      - exists g. split; [|split; reflexivity]. apply filter_In. split; [|exact Hn]. apply in_or_app. right. now right. }
    assert (occupied (pre ++ Group (t1 ++ t2) c ch :: post) <> []) as NO.
    { assert (exists g, In g (occupied (Group t2 c ch :: post))) as (g & Hg).
      { unfold dep_texts in NE. destruct (occupied (Group t2 c ch :: post)) as [|g o] eqn:Eo; [|exists g; now left]. exfalso. apply NE.
        unfold occupied in Eo. revert Eo. generalize (Group t2 c ch :: post). intros l. induction l as [|g l IH]; [reflexivity|].
        cbn [filter flat_map]. destruct (gr_texts g); [|discriminate]. cbn [map app]. exact IH. }
      apply Sub in Hg as (g' & Hg' & _). intros X. rewrite X in Hg'. destruct Hg'. }
    destruct T as [T|(g & Eg & Cg)].
    + left. apply Forall_forall. intros g Hg. apply Sub in Hg as (g' & Hg' & <- & <-). rewrite Forall_forall in T. now apply T.
    + right. destruct Ce as [AC|[-> ->]].
      * exfalso. assert (In g (pre ++ Group (t1 ++ t2) c ch :: post)) as Hg.
        { assert (In g (occupied (pre ++ Group (t1 ++ t2) c ch :: post))) as X by (rewrite Eg; now left).
          unfold occupied in X. now apply filter_In in X. }
        unfold all_certs in AC. rewrite Forall_forall in AC. now apply (AC g Hg).
      * cbn [app] in *. unfold occupied in Eg. cbn [filter gr_texts] in Eg. exists (Group t2 c ch).
        destruct (t1 ++ t2) eqn:E12; [discriminate|]. injection Eg as Eg. split; [|subst g; exact Cg].
        unfold dep_texts in NE. cbn [flat_map gr_texts] in NE. unfold occupied. cbn [filter gr_texts]. destruct t2; [contradiction NE; reflexivity|reflexivity].
  - unfold text_item in F1. clear - F1. induction F1 as [|x y l l' H _ IH]; constructor; [|exact IH]. destruct H as (-> & R & _). exact R.
Qed.

Theorem middle w dep dep2 gs gs1 gs2 ks key c idx c' s v rest r alg b : hash_ok w ->
  dep_is w dep gs -> dep_is w dep2 gs2 -> cut gs gs1 gs2 ->
  verifyDEP w dep ks key c idx = (c', None) ->
  dep_texts ks gs2 = (s, v) :: rest -> fromJWSString w s = Ok (r, alg) -> standard r ->
  b = backend_of (c_used c) \/ b = B_unique ->
  exists c0 c2 reg2 before reg after reg',
    fromArbitraryReceipt w r alg key b = Ok c0
    /\ verifyDEP w dep2 ks key c0 (Some 0%Z) = (c2, None)
    /\ c_regs c2 = [reg2]
    /\ selects c idx before reg after /\ c_regs c' = before ++ reg' :: after
    /\ s_last reg2 = s_last reg' /\ (key <> None -> s_counter reg2 = s_counter reg').
Proof.
  intros HO D D2 Cu H T J St B. apply verifyDEP_spec in H as (before & reg & aft & reg' & p & items & S & Dk & P & V & Ra & ->); [|exact HO].
  destruct (suffix_items w ks dep dep2 gs gs1 gs2 items D D2 Cu ltac:(rewrite T; discriminate) Dk) as (l1 & l2 & -> & D2k & R1).
  assert (exists i l, l2 = i :: l /\ i_jws i = s /\ i_rec i = r /\ reads w s r) as (i & l & -> & Ei & Er & Rr).
  { destruct D2k as (gs' & D' & _ & F & _). rewrite <- (dep_is_fun _ _ _ _ D2 D') in F. rewrite T in F.
    inversion F as [|a i0 la l0 (Ej & Rd & _) F']; subst. exists i0, l0. split; [reflexivity|]. split; [exact Ej|]. cbn [fst] in *.
    apply fromJWSString_spec in J as (_ & J). split; [|exact J]. eapply reads_fun; [exact Rd|exact J]. }
  subst r. assert (alg = lit "R1") as -> by (now apply fromJWSString_spec in J as (-> & _)).
  pose proof V as V0. apply valid_app in V0 as [V1 V2].
  assert (forall k, key = Some k -> List.length k = 32%nat /\ exists z, cents (i_rec i) = Ok z
    /\ decrypts w k (i_rec i) (s_counter (SeqFacts.after key reg p l1) + z)%Z) as K.
  { intros k Ek. pose proof V2 as V2'. apply valid_cons in V2' as [(_ & _ & _ & Co & _) _].
    destruct (Co k Ek (proj1 St)) as (L & z & Z & Dz). split; [exact L|]. exists z. split; [exact Z|now apply Dz]. }
  destruct (state_made w s (i_rec i) key b HO Rr St) as (t & d & tc & Rt & Fr & E1 & E2 & E3 & Ud & NC & Tc).
  { intros k Ek. destruct (K k Ek) as (L & z & Z & Dz). split; [exact L|]. split; eauto. }
  set (reg0 := RegState None (Some t) tc false (Some (r_previousChain (i_rec i)))) in *.
  assert (key <> None -> tc = s_counter (SeqFacts.after key reg p l1)) as Tc'.
  { intros NK. destruct key as [k|]; [|congruence]. destruct (K k eq_refl) as (_ & z & Z & Dz). rewrite (Tc k _ _ eq_refl Dz Z). lia. }
  assert (backend_of (used_after (c_used c) l1) = backend_of (c_used c)) as Bk.
  { unfold used_after. generalize (ids l1) as xs. intros xs. generalize (c_used c) as u. induction xs as [|x xs IH]; intros u; [reflexivity|].
    cbn [fold_left]. rewrite IH. destruct u as [u|]; cbn [used_add]; [destruct (mem x u)|]; reflexivity. }
  assert (valid_sequence w key (start_of_last []) reg0 (used_new b) (Some (t, d)) (i :: l)) as V3.
  { eapply rest_valid; try eassumption; try assumption. now rewrite Bk. }
  set (reg2 := SeqFacts.after key reg0 (Some (t, d)) (i :: l)).
  exists (Cluster [reg0] (used_new b)), (Cluster [reg2] (used_after (used_new b) (i :: l))), reg2, before, reg, aft, reg'.
  split; [exact Fr|]. split; [|split; [reflexivity|split; [exact S|split; [reflexivity|]]]].
  - apply verifyDEP_spec; [exact HO|]. exists [], reg0, [], reg2, (Some (t, d)), (i :: l).
    split; [exact (sel_old (Cluster [reg0] (used_new b)) [] reg0 [] eq_refl)|]. split; [exact D2k|]. split.
    { split; [reflexivity|]. split; [now apply reads_nonempty in Rt|exact Rt]. }
    split; [exact V3|]. split; [|reflexivity]. now apply (register_after_iff _ _ _ _ _ _ _ _ V3).
  - apply (register_after_iff _ _ _ _ _ _ _ _ V) in Ra. fold (SeqFacts.after key reg p (l1 ++ i :: l)) in Ra.
    rewrite after_app in Ra. subst reg' reg2.
    rewrite !after_nonempty by discriminate. cbn [set_last s_last s_counter last_of]. split; [reflexivity|]. intros NK.
    destruct (regs_fields key (i :: l) reg0 (Some (t, d))) as (_ & _ & _ & A).
    destruct (regs_fields key (i :: l) (SeqFacts.after key reg p l1) (last_of p l1)) as (_ & _ & _ & A').
    rewrite A, A'. destruct key; [|congruence]. cbn [s_counter reg0]. now rewrite Tc'.
Qed.
