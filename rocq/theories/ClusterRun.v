(** Cash registers of a cluster: the receipts of one register form a valid sequence. *)
From Coq Require Import Lia ZifyClasses ZifyN ZifyNat ZifyBool.
From Verif Require Import PyBase World ListFacts Codec CodecFacts PyFloat PyTime Algo AlgoFacts Receipt SpecReceipt FieldFacts ReceiptFacts RoundTrip Json Pem KeyStore State
  DepBase DepParser Verify DepExport VerifyReceipt VerifyFacts SpecDep SpecCluster SpecDoc SpecKeys SpecMerge SpecExport SeqFacts StepFacts DepFacts AcceptFacts IncTheorems ExportFacts SplitFacts
  FloatFacts AmountFacts SpecAmount CashReg SpecCashReg CashRegText CashRegFacts CashRegSeq RunTest SpecRunTest.
Open Scope N_scope.
Open Scope py_scope.

Lemma run_ids w g l items g' : run w g l items g' -> ids items = map (fun qv => q_id (fst qv)) l.
Proof.
  intros R. pose proof (run_each _ _ _ _ _ R) as E. clear R.
  induction E as [|[q v] i l items (g0 & z & _ & _ & _ & I) E IH]; [reflexivity|]. unfold ids in *. cbn [map fst].
  rewrite IH, (is_id _ _ _ _ _ _ _ I). reflexivity.
Qed.

(** What the first receipt of a further register must agree with *)
Definition starts_after (g : cashreg) (q : option past) (l : list (request * verifier)) : Prop :=
  forall s p, q = Some (s, p) -> r_registerId p = cr_id g
    /\ forall a r, l = a :: r -> closed p /\ request_closed (fst a) /\ not_before (q_time (fst a)) (r_dateTime p).

Theorem run_valid_past w key g l items g' ps q u : register_ok g ->
  option_map fst q = cr_last g -> cluster_past w ps q -> cr_counter g = 0%Z -> key_given key g ->
  register_orderly w (cr_size g) l -> starts_after g q l ->
  fresh_ids w u (is_some q) (map (fun qv => q_id (fst qv)) l) -> run w g l items g' ->
  valid_sequence w key ps new_register u None items.
Proof.
  intros G L0 Cp C0 Ky (Q & St & Nb & Re & _) Sa Ids R. pose proof (run_each _ _ _ _ _ R) as E.
  pose proof (run_counter _ _ _ _ _ R) as (_ & _ & Co). unfold valid_sequence. split; [|split; [|split; [|split]]].
  - clear -E. induction E as [|[a v] i l items (g0 & z & _ & V & _ & I) E IH]; constructor; [|exact IH].
    cbn [fst snd] in *. rewrite V. exact (is_authentic _ _ _ _ _ _ _ I).
  - intros i r _ ->. inversion E as [|[a v] ? l' ? Fi E']; subst. split.
    + apply (fits_plain w g a v); [exact Fi|]. apply (St a (map fst l')). reflexivity.
    + intros s p Cs. destruct q as [[s' p']|].
      * assert (Some (s', p') = Some (s, p)) as Eq.
        { destruct Cs as (E1 & _ & R1), Cp as (E2 & _ & R2). rewrite E1 in E2. injection E2 as <-. f_equal. f_equal.
          exact (reads_fun w s p' p R2 R1). }
        destruct (Sa s p Eq) as (_ & Fa). destruct (Fa _ _ eq_refl) as (Cl & Ca & _). split; [|exact Cl]. cbn [fst] in Ca.
        destruct Fi as (g0 & z & _ & _ & _ & I). unfold closed. rewrite (is_zda _ _ _ _ _ _ _ I). exact Ca.
      * destruct Cs as (E1 & Ne & _), Cp as [E2|E2]; rewrite E1 in E2; congruence.
  - split; [discriminate|]. intros l1 i j l2 -> (s & o & Lo & Uo & Ui & Zi). rewrite last_of_some in Lo.
    destruct (rev l1) as [|k rl] eqn:Er; [discriminate|]. injection Lo as <- <-.
    assert (l1 = rev rl ++ [k]) as -> by (rewrite <- (rev_involutive l1), Er; reflexivity).
    rewrite <- app_assoc in E. cbn [app] in E.
    apply Forall2_split in E as (m1 & m2 & -> & E1 & E2). inversion E2 as [|[o' vo] ? m3 ? Fo E3]; subst.
    inversion E3 as [|[p vp] ? m4 ? Fp E4]; subst. inversion E4 as [|[a vq] ? m5 ? Fq E5]; subst.
    apply (fits_plain w g a vq); [exact Fq|].
    rewrite map_app in Re. cbn [map fst] in Re. destruct Fo as (go & zo & _ & _ & _ & Io), Fp as (gp & zp & _ & _ & _ & Ip). cbn [fst snd] in *.
    apply (Re _ _ _ _ _ eq_refl).
    + now apply (is_unsigned _ _ _ _ _ _ _ Io).
    + pose proof (is_unsigned _ _ _ _ _ _ _ Ip) as Up. unfold works in *. destruct (q_sys p) as [z n|z n priv]; [|eauto].
      exfalso. apply Ui, Up. intros (? & ? & ? & X). discriminate X.
    + intros [A B]. apply Zi. split; [now apply (is_zero_iff _ _ _ _ _ _ _ Ip)|now apply (issued_standard _ _ _ _ _ _ _ Ip)].
  - intros k Ek. rewrite (Ky k Ek). split.
    + intros i Ii Nt. split; [apply G|]. apply in_split in Ii as (l1 & l2 & ->).
      apply Forall2_split in E as (m1 & m2 & -> & E1 & E2). inversion E2 as [|[o' vo] ? m3 ? Fo E3]; subst.
      destruct Fo as (go & zo & _ & _ & _ & Io). eexists. exact (is_cents _ _ _ _ _ _ _ Io).
    + intros l1 i l2 El Sd. destruct (Co l1 i l2 El Sd) as (z & T & D). exists z. split; [exact T|].
      cbn [s_counter new_register]. rewrite C0 in D. exact D.
  - intros NE. exists q. split; [exact Cp|]. split; [|split].
    + apply consistent_linked. split.
      * intros i r Ei s p Eq. cbn [fst] in Eq. destruct (Sa s p Eq) as (Id & Fa). subst items.
        inversion E as [|[a v] ? l' ? (g0 & z & G0 & _ & _ & I) E']; subst. cbn [fst snd] in *. destruct (Fa _ _ eq_refl) as (Cl & Ca & Ta).
        cbn [fst] in Ca, Ta. split; [|split].
        -- rewrite (is_register _ _ _ _ _ _ _ I). congruence.
        -- unfold closed in *. rewrite (is_zda _ _ _ _ _ _ _ I). unfold request_closed in Ca. tauto.
        -- rewrite (is_time _ _ _ _ _ _ _ I). exact Ta.
      * intros l1 i j l2 El. rewrite El in E. apply two_neighbours in E as (m1 & [p vp] & [a vq] & m2 & -> & _ & Fp & Fq).
        destruct Fp as (gp & zp & Gp & _ & _ & Ip), Fq as (gq & zq & Gq & _ & _ & Iq). cbn [fst snd] in *.
        intros s r [= <- <-]. cbn [snd i_rec]. rewrite map_app in Nb. cbn [map fst] in Nb. destruct (Nb _ _ _ _ eq_refl) as [Cl Ti].
        split; [|split].
        -- rewrite (is_register _ _ _ _ _ _ _ Ip), (is_register _ _ _ _ _ _ _ Iq). congruence.
        -- unfold closed. rewrite (is_zda _ _ _ _ _ _ _ Ip), (is_zda _ _ _ _ _ _ _ Iq). exact Cl.
        -- rewrite (is_time _ _ _ _ _ _ _ Ip), (is_time _ _ _ _ _ _ _ Iq). exact Ti.
    + pose proof (run_chained _ _ _ _ _ q R L0) as Ch. unfold chain_rule. destruct items as [|i items]; [exact I|].
      cbn [linked] in Ch. inversion Ch as [|? ? C1 C2]; subst. split; [exact C1|exact C2].
    + rewrite (run_ids _ _ _ _ _ R). exact Ids.
Qed.

(** The rules hold for the first requests alone, too. *)
Lemma register_orderly_prefix w size l1 l2 : register_orderly w size (l1 ++ l2) -> register_orderly w size l1.
Proof.
  intros (Q & St & Nb & Re & Co). rewrite map_app in *. split; [now apply Forall_app in Q|]. split; [|split; [|split]].
  - intros q r E. apply (St q (r ++ map fst l2)). now rewrite E.
  - intros m1 p q m2 E. apply (Nb m1 p q (m2 ++ map fst l2)). rewrite E, <- app_assoc. reflexivity.
  - intros m1 o p q m2 E. apply (Re m1 o p q (m2 ++ map fst l2)). rewrite E, <- app_assoc. reflexivity.
  - intros m1 q m2 z E. apply (Co m1 q (m2 ++ map fst l2) z). rewrite E, <- app_assoc. reflexivity.
Qed.

(** One more receipt *)
Lemma run_ok w l : forall g items g', register_ok g -> run w g l items g' -> register_ok g' /\ cr_size g' = cr_size g.
Proof.
  induction l as [|[q v] l IH]; intros g [|i items] g' G R; try contradiction.
  - cbn in R. now subst.
  - destruct R as (V & z & T & I & R). destruct (IH _ _ _ (next_ok w g q v z _ _ G I) R) as [A B]. auto.
Qed.

Lemma run_snoc w l q v : forall g items g' i z, run w g l items g' -> i_ver i = v -> request_total q z ->
  issued w g' v q z (i_jws i) (i_rec i) -> run w g (l ++ [(q, v)]) (items ++ [i]) (next_reg g' q z (i_jws i)).
Proof.
  induction l as [|[q' v'] l IH]; intros g [|j items] g' i z R V T I; try contradiction.
  - cbn in R. subst g'. cbn [app run]. split; [exact V|]. exists z. auto.
  - destruct R as (V' & z' & T' & I' & R). cbn [app run]. split; [exact V'|]. exists z'. split; [exact T'|]. split; [exact I'|].
    exact (IH _ _ _ _ _ R V T I).
Qed.

Lemma run_issue w g l items g' q v : hash_ok w -> aes_ok w -> register_ok g -> cr_counter g = 0%Z -> run w g l items g' ->
  register_orderly w (cr_size g) (l ++ [(q, v)]) ->
  exists i g'', issue w g' (lit "R1") q = (g'', Ok (i_rec i)) /\ i_ver i = v /\ run w g (l ++ [(q, v)]) (items ++ [i]) g''.
Proof.
  intros Hh Ha G C0 R (Q & _ & _ & _ & Co). destruct (run_ok _ _ _ _ _ G R) as [G' Sz].
  apply Forall_app in Q as [_ Q]. apply Forall_inv in Q. cbn [fst snd] in Q. assert (exists z, request_total q z) as [z T] by apply Q.
  destruct (after_amount g' q z T) as (c & Ac & Ec). destruct (run_counter _ _ _ _ _ R) as (_ & (y & _ & Ty & Ey) & _).
  destruct (issue_ok w v g' q z Hh Ha G' Q T) as (jws & rec & E & I).
  { intros Sd. rewrite Ec, Ey, C0, Sz, Z.add_0_l. apply (Co (map fst l) q []); [now rewrite map_app|exact Sd|].
    destruct Ty as (cs & F & ->). exists (cs ++ [c]). split; [apply Forall2_app; [exact F|constructor; [exact Ac|constructor]]|].
    unfold total. rewrite fold_right_app. cbn [fold_right]. clear. induction cs as [|x cs IH]; cbn [fold_right]; lia. }
  exists (Item jws rec v). eexists. split; [exact E|]. split; [reflexivity|]. exact (run_snoc w l q v g items g' (Item jws rec v) z R eq_refl T I).
Qed.

(** Other receipt IDs *)
Lemma valid_used w key ps reg u u' p l : valid_sequence w key ps reg u p l ->
  (forall q, effective_past w ps p q -> fresh_ids w u' (is_some q) (ids l)) -> valid_sequence w key ps reg u' p l.
Proof.
  intros (A & B & C & D & E) F. unfold valid_sequence. split; [exact A|]. split; [exact B|]. split; [exact C|]. split; [exact D|].
  intros N. destruct (E N) as (q & Q & X & Y & _). exists q. split; [exact Q|]. split; [exact X|]. split; [exact Y|]. now apply F.
Qed.

Lemma fresh_app w l1 l2 : forall u c, fresh_ids w u c (l1 ++ l2) <->
  fresh_ids w u c l1 /\ fresh_ids w (fold_left used_add l1 u) (match l1 with [] => c | _ => true end) l2.
Proof.
  induction l1 as [|x l1 IH]; intros u c; cbn [app fresh_ids fold_left]; [tauto|]. rewrite IH. destruct l1; cbn [fold_left]; tauto.
Qed.
Lemma fresh_unchecked w u c l : fresh_ids w u true l -> fresh_ids w u c l.
Proof. destruct l as [|x l]; [auto|]. intros [A B]. split; auto. Qed.
Lemma ids_new_fresh w b l : ids_new w b l -> fresh_ids w (used_new b) false l.
Proof.
  intros Ids. destruct b; cbn [used_new ids_new] in *.
  - apply fresh_unique. destruct l; [exact I|]. split; [exact Ids|]. split; [auto|discriminate].
  - apply fresh_natural. split; [exact Ids|]. destruct l; exact I.
Qed.
