(** The first receipt that is wrong is the one that verification reports. *)
From Verif Require Import PyBase World ListFacts Codec PyTime Algo Receipt SpecReceipt ReceiptFacts Json KeyStore VerifyReceipt VerifyFacts State DepBase DepParser Verify
  SpecDep SpecCluster SpecReading ReadingFacts SpecDiag SeqFacts StepFacts DepFacts AcceptFacts DiagFacts.
Open Scope N_scope.

Lemma verifier_proper ks o : proper (verifier_of ks o).
Proof. unfold verifier_of, proper. destruct o; eauto. Qed.

Lemma dep_texts_proper ks gs t v : In (t, v) (dep_texts ks gs) -> proper v.
Proof.
  unfold dep_texts. intros (g & _ & I)%in_flat_map. apply in_map_iff in I as (s & [= _ <-] & _). apply verifier_proper.
Qed.

Lemma items_fun w ts : forall l l', Forall2 (text_item w) ts l -> Forall2 (text_item w) ts l' -> l = l'.
Proof.
  induction ts as [|x ts IH]; intros l l' F F'; inversion F; inversion F'; subst; [reflexivity|].
  f_equal; [eapply text_item_fun; eassumption|now apply IH].
Qed.

Lemma split_compare {A} (a b a' b' : list A) x y : a ++ x :: b = a' ++ y :: b' ->
  (exists m, a = a' ++ y :: m) \/ (a = a' /\ x = y /\ b = b') \/ (exists m, a' = a ++ x :: m).
Proof.
  revert a'. induction a as [|z a IH]; intros [|z' a'] E; cbn [app] in E.
  - injection E as <- <-. right. left. auto.
  - injection E as <- ->. right. right. now exists a'.
  - injection E as -> <-. left. now exists a.
  - injection E as <- E. destruct (IH a' E) as [(m & ->)|[(-> & -> & ->)|(m & ->)]]; [left; now exists m|right; left; auto|right; right; now exists m].
Qed.

(** The texts before a place in a DEP *)
Lemma place_texts ks gs gs1 g gs2 t1 t t2 : occupied gs = gs1 ++ g :: gs2 -> gr_texts g = t1 ++ t :: t2 ->
  exists rest, dep_texts ks gs = (dep_texts ks gs1 ++ with_verifier ks g t1) ++ (t, verifier_of ks (gr_cert g)) :: rest.
Proof.
  intros EO ET. rewrite <- dep_texts_occupied, EO. unfold dep_texts at 1. rewrite flat_map_app. cbn [flat_map].
  fold (dep_texts ks gs1) (dep_texts ks gs2). rewrite ET, map_app. cbn [map]. eexists. unfold with_verifier. rewrite <- !app_assoc. reflexivity.
Qed.

Definition rejected_at (w : world) (key : option bytes) (ps : option str) (reg : regstate) (u : used) (p : option past)
    (items : list item) (t : str) (v : verifier) (e : exn) : Prop :=
  text_fault w t e
  \/ exists r, reads w t r /\ fault w key ps (after key reg p items) (used_after u items) (last_of p items) (Item t r v) e.

Theorem diagnosis_at w ks key ps reg u p gs ts items t v rest e : trust_rule w ks (occupied gs) ->
  dep_texts ks gs = ts ++ (t, v) :: rest -> Forall2 (text_item w) ts items -> valid_sequence w key ps reg u p items ->
  (forall r, reads w t r -> ~ step_ok w key ps (after key reg p items) (used_after u items) (last_of p items) (Item t r v)) ->
  diagnosis w ks key ps reg u p gs e -> rejected_at w key ps reg u p items t v e.
Proof.
  intros TR ET FI VI Bad D. assert (proper v) as Pv. { apply (dep_texts_proper ks gs t). rewrite ET. apply in_or_app. right. now left. }
  (* items at a place before, at or after *)
  assert (forall ts' l t' v' rest', dep_texts ks gs = ts' ++ (t', v') :: rest' -> Forall2 (text_item w) ts' l -> valid_sequence w key ps reg u p l ->
            (ts' = ts /\ l = items /\ t' = t /\ v' = v)
            \/ (exists i m, items = l ++ i :: m /\ text_item w (t', v') i)) as Place.
  { intros ts' l t' v' rest' E' F' V'. rewrite ET in E'. destruct (split_compare _ _ _ _ _ _ E') as [(m & ->)|[(-> & [= -> ->] & _)|(m & ->)]].
    - right. apply Forall2_app_inv_l in FI as (l1 & l2 & F1 & F2 & ->). inversion F2 as [|? i ? l3 Ti F3]; subst.
      rewrite (items_fun w _ _ _ F1 F') in *. exists i, l3. auto.
    - left. split; [reflexivity|]. split; [|auto]. exact (items_fun w _ _ _ F' FI).
    - exfalso. apply Forall2_app_inv_l in F' as (l1 & l2 & F1 & F2 & ->). inversion F2 as [|? i ? l3 Ti F3]; subst.
      rewrite (items_fun w _ _ _ F1 FI) in *. apply valid_app in V' as [_ V']. apply valid_cons in V' as [V' _].
      destruct i as [s r v0]. destruct Ti as (A & R & B). cbn [i_jws i_rec i_ver fst snd] in *. subst s v0. exact (Bad r R V'). }
  destruct D as [e O _|gs1 g l e IO GF|gs1 g t' t2 l e IO _ UR|gs1 g t' t2 l r reg1 e IO _ R RA FA].
  - exfalso. rewrite <- dep_texts_occupied, O in ET. destruct ts; discriminate ET.
  - exfalso. destruct IO as (gs2 & t1 & EO & _). rewrite EO in TR. change (g :: gs2) with ([g] ++ gs2) in TR. rewrite app_assoc in TR.
    apply trust_rule_prefix in TR. now apply group_fault_untrusted in GF.
  - destruct IO as (gs2 & t1 & EO & Et & _ & F & V & _). destruct (place_texts ks gs gs1 g gs2 t1 t' t2 EO Et) as (rest' & E').
    destruct (Place _ _ _ _ _ E' F V) as [(_ & _ & -> & _)|(i & m & _ & (_ & R & _))]; [left; auto|]. exfalso. exact (fault_unread _ _ _ _ UR R).
  - destruct IO as (gs2 & t1 & EO & Et & _ & F & V & _). destruct (place_texts ks gs gs1 g gs2 t1 t' t2 EO Et) as (rest' & E').
    apply (register_after_iff w key ps reg u p l reg1 V) in RA. change (reg1 = after key reg p l) in RA. subst reg1.
    destruct (Place _ _ _ _ _ E' F V) as [(_ & -> & -> & <-)|(i & m & -> & Ti)]; [right; exists r; auto|]. exfalso.
    assert (i = Item t' r (verifier_of ks (gr_cert g))) as -> by (apply (text_item_fun w _ _ _ Ti); repeat split; exact R).
    apply valid_app in VI as [_ VI]. apply valid_cons in VI as [VI _]. revert VI.
    apply (fault_wrong w key ps _ _ _ _ e); [apply verifier_proper|exact R|exact FA].
Qed.

Theorem verifyDEP_located w dep gs ks key c idx before reg after' p ts items t v rest : hash_ok w ->
  dep_is w dep gs -> texts_encodable ks gs -> selects c idx before reg after' -> past_of w reg p -> start_readable w (start_of_last before) ->
  trust_rule w ks (occupied gs) -> dep_texts ks gs = ts ++ (t, v) :: rest -> Forall2 (text_item w) ts items ->
  valid_sequence w key (start_of_last before) reg (c_used c) p items ->
  (forall r, reads w t r -> ~ valid_sequence w key (start_of_last before) reg (c_used c) p (items ++ [Item t r v])) ->
  exists c' e, verifyDEP w dep ks key c idx = (c', Some e) /\ rejected_at w key (start_of_last before) reg (c_used c) p items t v e.
Proof.
  intros HO DI TE S P SR TR ET FI VI Bad.
  assert (forall r, reads w t r -> ~ step_ok w key (start_of_last before) (after key reg p items) (used_after (c_used c) items) (last_of p items) (Item t r v)) as Bad'.
  { intros r R V. apply (Bad r R). apply valid_app. split; [exact VI|]. apply valid_cons. split; [exact V|]. apply loop_valid. constructor. }
  destruct (verifyDEP w dep ks key c idx) as [c' [e|]] eqn:E.
  - exists c', e. split; [reflexivity|]. apply (diagnosis_at w ks key (start_of_last before) reg (c_used c) p gs ts items t v rest e TR ET FI VI Bad').
    exact (verifyDEP_diag w dep gs ks key c idx before reg after' p c' e HO DI TE S P SR E).
  - exfalso. apply (verifyDEP_spec w dep ks key c idx c' HO) in E as (b' & r' & a' & reg' & p' & items' & S' & (gs' & DI' & _ & FI' & _) & P' & V' & _).
    destruct (selects_fun _ _ _ _ _ _ _ _ S S') as (<- & <- & <-). rewrite <- (dep_is_fun w dep _ _ DI DI') in FI'.
    rewrite ET in FI'. apply Forall2_app_inv_l in FI' as (l1 & l2 & F1 & F2 & ->). inversion F2 as [|? i ? l3 Ti F3]; subst.
    rewrite (items_fun w _ _ _ F1 FI) in *.
    assert (p' = p) as -> by exact (past_of_fun _ _ _ _ P' P).
    destruct i as [s r v0]. destruct Ti as (A & R & B). cbn [i_jws i_rec i_ver fst snd] in *. subst s v0.
    apply (Bad r R). change (Item t r v :: l3) with ([Item t r v] ++ l3) in V'. rewrite app_assoc in V'. now apply valid_app in V' as [V' _].
Qed.

Theorem verifyDEP_first w dep gs ks key c idx before reg after' p ts items t v rest : hash_ok w ->
  dep_is w dep gs -> texts_encodable ks gs -> selects c idx before reg after' -> past_of w reg p -> start_readable w (start_of_last before) ->
  trust_rule w ks (occupied gs) -> dep_texts ks gs = ts ++ (t, v) :: rest -> Forall2 (text_item w) ts items ->
  valid_sequence w key (start_of_last before) reg (c_used c) p items ->
  (forall r, reads w t r -> ~ valid_sequence w key (start_of_last before) reg (c_used c) p (items ++ [Item t r v])) ->
  exists c' e, verifyDEP w dep ks key c idx = (c', Some e)
    /\ (text_fault w t e
        \/ exists r reg1, reads w t r /\ register_after key reg p items reg1
           /\ fault w key (start_of_last before) reg1 (used_after (c_used c) items) (last_of p items) (Item t r v) e).
Proof.
  intros HO DI TE S P SR TR ET FI VI Bad.
  destruct (verifyDEP_located w dep gs ks key c idx before reg after' p ts items t v rest HO DI TE S P SR TR ET FI VI Bad) as (c' & e & E & [U|(r & R & F)]);
    exists c', e; (split; [exact E|]); [now left|right]. exists r, (after key reg p items). split; [exact R|]. split; [|exact F].
  exact (proj2 (register_after_iff w key _ reg _ p items _ VI) eq_refl).
Qed.
