(** A complete DEP is determined by its last receipt. *)
From Verif Require Import PyBase World Regex Codec PyFloat PyTime Algo Receipt ListFacts CodecFacts CodecFacts2 SpecReceipt ReceiptFacts
  RoundTrip DepBase Json Pem KeyStore VerifyReceipt State DepParser Verify SpecDep SpecCluster VerifyFacts StepFacts
  DepFacts ClusterFacts AcceptFacts SeqFacts DepTheorems.
From Coq Require Import Lia.
Open Scope N_scope.
Open Scope py_scope.

(** ** The register ID is shorter than the receipt. *)

Lemma a2b_length s : forall qp l pads b, a2b qp l pads s = Ok b -> (List.length b <= List.length (remove_char c_eq s))%nat.
Proof.
  induction s as [|c s IH]; intros qp l pads b H; cbn [a2b] in H.
  - destruct qp; [|discriminate]. apply Ok_inj in H. subst. cbn. lia.
  - unfold remove_char. cbn [filter]. change (filter _ s) with (remove_char c_eq s). destruct (c =? c_eq); cbn [negb].
    + destruct qp as [|[|q]]; eauto. destruct (4 <=? N.of_nat (S (S q)) + (pads + 1)); [|eauto].
      apply Ok_inj in H. subst. cbn [List.length]. lia.
    + cbn [List.length]. destruct (b64_val c).
      2:{ apply IH in H. lia. }
      destruct qp as [|[|[|q]]]; [apply IH in H; lia| | |];
        match type of H with bind ?m _ = _ => destruct m as [t|] eqn:E; [|discriminate] end; cbn [bind] in H;
        apply Ok_inj in H; subst; apply IH in E; cbn [List.length]; lia.
Qed.

Lemma utf8_length s : forall b, utf8_encode s = Ok b -> (List.length s <= List.length b)%nat.
Proof.
  induction s as [|c s IH]; intros b H; cbn [utf8_encode] in H; [cbn; lia|].
  destruct (utf8_char c) as [h|] eqn:E; [|discriminate]. destruct (utf8_encode s) as [t|]; [|discriminate].
  apply Ok_inj in H. subst. specialize (IH t eq_refl). rewrite app_length. cbn [List.length].
  assert (1 <= List.length h)%nat; [|lia].
  unfold utf8_char in E. repeat match type of E with context [if ?c then _ else _] => destruct c end; try discriminate;
    apply Some_inj in E; subst; cbn; lia.
Qed.

Lemma remove_char_app c a b : remove_char c (a ++ b) = remove_char c a ++ remove_char c b.
Proof. apply filter_app. Qed.
Lemma remove_eq_repeat n : remove_char c_eq (repeat c_eq n) = [].
Proof. unfold remove_char. induction n; [reflexivity|exact IHn]. Qed.
Lemma remove_char_length c s : (List.length (remove_char c s) <= List.length s)%nat.
Proof. unfold remove_char. induction s as [|x s IH]; cbn [filter]; [cbn; lia|]. destruct (negb _); cbn [List.length]; lia. Qed.
Lemma remove_from_urlsafe s : List.length (remove_char c_eq (map from_urlsafe s)) = List.length (remove_char c_eq s).
Proof.
  unfold remove_char. induction s as [|x s IH]; [reflexivity|]. cbn [map filter].
  assert ((from_urlsafe x =? c_eq) = (x =? c_eq)) as ->.
  { unfold from_urlsafe. destruct (x =? c_dash) eqn:A; [apply N.eqb_eq in A; subst; reflexivity|].
    destruct (x =? c_us) eqn:B; [apply N.eqb_eq in B; subst; reflexivity|reflexivity]. }
  destruct (negb _); cbn [List.length]; now rewrite IH.
Qed.

Lemma seg_length s b : seg_decodes s b -> (List.length b <= List.length s)%nat.
Proof.
  intros [_ H]. unfold urlsafe_b64decode in H. destruct (utf8_decode _); [|discriminate]. cbn [bind] in H.
  destruct (re_match _ _); [|discriminate]. unfold a2b_base64 in H. apply a2b_length in H.
  rewrite remove_from_urlsafe in H. unfold restoreb64padding in H. pose proof (remove_char_length c_eq s).
  destruct (_ <? _)%nat; [|lia]. rewrite remove_char_app, remove_eq_repeat, app_nil_r in H. lia.
Qed.

Lemma register_shorter w s r : reads w s r -> (List.length (r_registerId r) < List.length s)%nat.
Proof.
  intros (f & sg & (h & p & hb & pb & gb & -> & _ & _ & Hp & Up & _) & Ir).
  assert (r_registerId r = f_register f) as ->.
  { destruct Ir as [<- _]. reflexivity. }
  apply seg_length in Hp. apply utf8_length in Up. rewrite !app_length. cbn [List.length].
  unfold payload_text in Up. cbn [join] in Up. rewrite !app_length in Up. lia.
Qed.

(** ** Walking back *)

Lemma chain_rule_init w n q (l : list item) z : chain_rule w n q (l ++ [z]) -> chain_rule w n q l.
Proof.
  destruct l as [|a l]; cbn [app chain_rule]; [constructor|]. intros [A B]. split; [exact A|].
  revert B. generalize (Some (i_jws a, i_rec a)) as p. induction l as [|b l IH]; intros p; cbn [app linked]; [constructor|].
  intros B. apply Forall_cons_iff in B as [B1 B2]. constructor; [exact B1|]. now apply IH.
Qed.
Lemma linked_app p l1 l2 : linked p (l1 ++ l2) = linked p l1 ++ linked (last_of p l1) l2.
Proof.
  revert p. induction l1 as [|a l1 IH]; intros p; [reflexivity|]. cbn [app linked]. rewrite IH. reflexivity.
Qed.

Lemma hashed_init l z s : hashed l s -> hashed (l ++ [z]) s.
Proof. intros (i & I & H). exists i. rewrite in_app_iff. auto. Qed.

Definition readable (w : world) (l : list item) : Prop := Forall (fun i => reads w (i_jws i) (i_rec i)) l.

Lemma one_vs_more w (x y i : item) (m : list item) :
  chain_rule w None None [x] -> chain_rule w None None (m ++ [y; i]) ->
  Forall consistent (linked None (m ++ [y; i])) ->
  reads w (i_jws x) (i_rec x) -> readable w (m ++ [y; i]) -> i_jws x = i_jws i ->
  chain_collision w (r_registerId (i_rec x)) (i_jws y).
Proof.
  intros C C' K R R' J.
  assert (i_rec x = i_rec i) as ER.
  { apply Forall_app in R' as [_ R']. apply Forall_cons_iff in R' as [_ R']. apply Forall_cons_iff in R' as [R' _].
    rewrite J in R. eapply reads_fun; eauto. }
  destruct C as [C _]. unfold chained in C. cbn [truthy fst snd] in C.
  assert (chain_value w (i_jws y) (r_previousChain (i_rec i))) as V by (eapply (chain_rule_split w None None _ m y i []); eauto).
  rewrite ER in *. split; [|eauto].
  assert (reads w (i_jws y) (i_rec y)) as Ry.
  { apply Forall_app in R' as [_ R']. now apply Forall_cons_iff in R' as [R' _]. }
  apply register_shorter in Ry. rewrite linked_app in K. apply Forall_app in K as [_ K]. cbn [linked] in K.
  apply Forall_cons_iff in K as [_ K]. apply Forall_cons_iff in K as [K _].
  destruct (K _ _ eq_refl) as (E & _). cbn [snd] in E. rewrite E. intros X. rewrite X in Ry. lia.
Qed.

Lemma chain_all_back w l : forall l',
  chain_rule w None None l -> chain_rule w None None l' ->
  Forall consistent (linked None l) -> Forall consistent (linked None l') ->
  readable w l -> readable w l' ->
  (exists m i m' i', l = m ++ [i] /\ l' = m' ++ [i'] /\ i_jws i = i_jws i') ->
  map i_jws l = map i_jws l'
  \/ exists s s', hashed l s /\ hashed l' s' /\ chain_collision w s s'.
Proof.
  induction l as [|x l IH] using rev_ind; intros l' C C' K K' R R' (m & i & m' & i' & E & -> & J).
  - destruct m; discriminate.
  - apply app_inj_tail in E as [<- <-].
    destruct l as [|y l0 _] using rev_ind; destruct m' as [|y' m0 _] using rev_ind.
    + left. cbn. now rewrite J.
    + right. rewrite <- app_assoc in *. cbn [app] in *.
      exists (r_registerId (i_rec x)), (i_jws y'). split; [exists x; cbn; tauto|].
      split; [exists y'; rewrite in_app_iff; cbn; tauto|].
      apply Forall_cons_iff in R as [R _]. eapply one_vs_more; eauto.
    + right. rewrite <- app_assoc in *. cbn [app] in *.
      exists (i_jws y), (r_registerId (i_rec i')). split; [exists y; rewrite in_app_iff; cbn; tauto|].
      split; [exists i'; cbn; tauto|].
      apply Forall_cons_iff in R' as [R' _]. symmetry in J.
      destruct (one_vs_more w i' y x l0 C' C K R' R J) as (N & v & V1 & V2). split; [congruence|eauto].
    + assert (chain_value w (i_jws y) (r_previousChain (i_rec x))) as V.
      { apply (chain_rule_split w None None _ l0 y x [] C). now rewrite <- app_assoc. }
      assert (chain_value w (i_jws y') (r_previousChain (i_rec i'))) as V'.
      { apply (chain_rule_split w None None _ m0 y' i' [] C'). now rewrite <- app_assoc. }
      unfold readable in *. apply Forall_app in R as [R Rx], R' as [R' Rx'].
      apply Forall_cons_iff in Rx as [Rx _], Rx' as [Rx' _].
      assert (i_rec x = i_rec i') as ER by (rewrite J in Rx; eapply reads_fun; eauto).
      rewrite <- ER in V'.
      destruct (list_eq_dec N.eq_dec (i_jws y) (i_jws y')) as [EY|NY].
      2:{ right. exists (i_jws y), (i_jws y'). split; [exists y; rewrite !in_app_iff; cbn; tauto|].
          split; [exists y'; rewrite !in_app_iff; cbn; tauto|]. split; eauto. }
      rewrite linked_app in K, K'. apply Forall_app in K as [K _], K' as [K' _].
      destruct (IH (m0 ++ [y'])) as [Hm|(s & s' & A & A' & X)]; try assumption.
      * now apply chain_rule_init in C.
      * now apply chain_rule_init in C'.
      * exists l0, y, m0, y'. auto.
      * left. rewrite map_app, Hm, (map_app _ (m0 ++ [y'])). cbn [map]. now rewrite J.
      * right. exists s, s'. eauto using hashed_init.
Qed.

Lemma virgin_valid w key before reg u p items :
  virgin before reg -> past_of w reg p -> valid_sequence w key (start_of_last before) reg u p items -> items <> [] ->
  chain_rule w None None items /\ Forall consistent (linked None items).
Proof.
  intros (A1 & A2 & A3) P V NE. rewrite (past_of_fun _ _ _ None P A1) in *.
  destruct V as (_ & _ & _ & _ & V). destruct (V NE) as (q & E & K & C & _). cbn in E.
  rewrite (cluster_past_fun _ _ _ None E A3) in *. split; [|exact K].
  apply absent_truthy in A2. destruct items as [|i r]; [congruence|]. cbn [chain_rule] in *. now rewrite A2 in C.
Qed.

Theorem tamper_complete w dep dep' ks ks' key key' c c' idx idx' c1 c1' before reg after before' reg' after' items items' :
  hash_ok w ->
  verifyDEP w dep ks key c idx = (c1, None) -> verifyDEP w dep' ks' key' c' idx' = (c1', None) ->
  selects c idx before reg after -> selects c' idx' before' reg' after' ->
  virgin before reg -> virgin before' reg' ->
  dep_items w ks dep items -> dep_items w ks' dep' items' ->
  option_map fst (last_of None items) = option_map fst (last_of None items') ->
  map i_jws items = map i_jws items'
  \/ exists s s', hashed items s /\ hashed items' s' /\ chain_collision w s s'.
Proof.
  intros HO H H' Sl Sl' Vg Vg' D D' E.
  apply verifyDEP_spec in H as (b & rg & a & r1 & p & l & S & Dl & P & V & R & ->); [|assumption].
  apply verifyDEP_spec in H' as (b' & rg' & a' & r1' & p' & l' & S' & Dl' & P' & V' & R' & ->); [|assumption].
  destruct (selects_fun _ _ _ _ _ _ _ _ Sl S) as (<- & <- & <-).
  destruct (selects_fun _ _ _ _ _ _ _ _ Sl' S') as (<- & <- & <-).
  assert (l = items) as -> by (eapply dep_items_fun; eauto; now apply dep_ok_items).
  assert (l' = items') as -> by (eapply dep_items_fun; eauto; now apply dep_ok_items).
  assert (NE : items <> []) by now destruct Dl as (? & _ & _ & _ & X).
  assert (NE' : items' <> []) by now destruct Dl' as (? & _ & _ & _ & X).
  destruct (virgin_valid _ _ _ _ _ _ _ Vg P V NE) as [C K].
  destruct (virgin_valid _ _ _ _ _ _ _ Vg' P' V' NE') as [C' K'].
  destruct Dl as (gs & _ & _ & F & _). destruct Dl' as (gs' & _ & _ & F' & _).
  apply chain_all_back; try assumption; [eapply text_items_read; eauto|eapply text_items_read; eauto|].
  destruct (exists_last NE) as (m & i & ->), (exists_last NE') as (m' & i' & ->).
  exists m, i, m', i'. rewrite !last_of_app in E. cbn in E. apply Some_inj in E. auto.
Qed.
