(** Receipt amounts: the code computes the sum of what is printed. *)
From Coq Require Import Lia Floats.SpecFloat.
From Verif Require Import PyBase World Regex Codec PyFloat PyTime Algo Receipt ListFacts RegexFacts
  CodecFacts CodecFacts2 SpecReceipt FieldFacts ReceiptFacts State KeyStore VerifyReceipt SpecDep DepFacts
  DepBase Json DepParser Verify SpecCluster DepTheorems SpecAmount FloatFacts.
Open Scope Z_scope.

Lemma digits_val_app w s t acc : digits_val w acc (s ++ t) = digits_val w (digits_val w acc s) t.
Proof. revert acc. induction s as [|c s IH]; intros acc; [reflexivity|]. cbn [app digits_val]. destruct (decimal w c); apply IH. Qed.

Lemma digits_val_value w s ds acc : Forall2 (fun c d => decimal w c = Some d) s ds ->
  Z.of_N (digits_val w acc s) = Z.of_N acc * 10 ^ Z.of_nat (List.length ds) + decimal_value ds.
Proof.
  intros F. revert acc. induction F as [|c d s ds H F IH]; intros acc; cbn [digits_val decimal_value List.length].
  - change (10 ^ Z.of_nat 0) with 1. lia.
  - rewrite H, IH. rewrite Nat2Z.inj_succ, Z.pow_succ_r by lia. nia.
Qed.

Lemma value_nonneg ds : 0 <= decimal_value ds.
Proof. induction ds as [|d ds IH]; cbn [decimal_value]; [lia|]. assert (0 <= 10 ^ Z.of_nat (List.length ds)) by (apply Z.pow_nonneg; lia). nia. Qed.

Lemma decimal_nl w : decimal w c_nl = None. Proof. reflexivity. Qed.
Lemma decimal_comma w : decimal w c_comma = None. Proof. reflexivity. Qed.
Lemma decimal_dash w : decimal w c_dash = None. Proof. reflexivity. Qed.

Lemma nl_val w nl acc : final_nl nl -> digits_val w acc nl = acc.
Proof. intros [->| ->]; cbn [digits_val]; [reflexivity|]. now rewrite decimal_nl. Qed.

Lemma amount_digits w sign euros x y nl ds :
  final_nl nl -> sign = [] \/ sign = [c_dash] ->
  Forall2 (fun c d => decimal w c = Some d) (euros ++ [x; y]) ds ->
  Z.of_N (digits_val w 0 (sign ++ euros ++ [c_comma; x; y] ++ nl)) = decimal_value ds.
Proof.
  intros Hn Hs F.
  assert (digits_val w 0 (sign ++ euros ++ [c_comma; x; y] ++ nl) = digits_val w 0 (euros ++ [x; y])) as ->.
  { rewrite (digits_val_app w sign). assert (digits_val w 0 sign = 0%N) as -> by (destruct Hs as [->| ->]; reflexivity).
    rewrite !(digits_val_app w euros), (digits_val_app w [c_comma; x; y]), nl_val by assumption.
    change [c_comma; x; y] with ([c_comma] ++ [x; y]). rewrite digits_val_app. reflexivity. }
  rewrite (digits_val_value w _ _ 0 F). cbn. lia.
Qed.

Lemma float_of_amount w s z : amount_cents w s z ->
  exists neg n, getReceiptFloat w s = Some (float_of_cents neg n) /\ z = signed neg n.
Proof.
  intros [A (sign & euros & x & y & nl & ds & -> & Hn & F & Hs)].
  unfold getReceiptFloat. assert (re_match (receiptFloatRegex w) (sign ++ euros ++ [c_comma; x; y] ++ nl) = true) as ->
    by now apply amount_spec.
  eexists _, _. split; [reflexivity|].
  assert (sign = [] \/ sign = [c_dash]) as Hs' by tauto.
  pose proof (amount_digits w sign euros x y nl ds Hn Hs' F) as V.
  unfold signed. rewrite V. destruct Hs as [[-> ->]|[-> ->]].
  - assert (match [] ++ euros ++ [c_comma; x; y] ++ nl with c :: _ => (c =? c_dash)%N | [] => false end = false) as ->; [|reflexivity].
    cbn [app]. destruct euros as [|c euros]; [reflexivity|]. cbn [app]. inversion F as [|? ? ? ? D _]; subst.
    destruct (N.eqb_spec c c_dash) as [->|]; [|reflexivity]. rewrite decimal_dash in D. discriminate.
  - reflexivity.
Qed.

Lemma amount_exists w s : amount_text w s -> exists z, amount_cents w s z.
Proof.
  intros A. pose proof A as (sign & euros & x & y & nl & -> & Hn & Hs & F & Hx & Hy & _).
  assert (exists ds, Forall2 (fun c d => decimal w c = Some d) (euros ++ [x; y]) ds) as [ds D].
  { assert (Forall (digit w) (euros ++ [x; y])) as G by (apply Forall_app; auto).
    clear - G. induction G as [|c l [d Hd] G [ds IH]]; [now exists []|]. exists (d :: ds). now constructor. }
  exists (match sign with [] => decimal_value ds | _ => - decimal_value ds end). split; [exact A|].
  exists sign, euros, x, y, nl, ds. split; [reflexivity|]. split; [exact Hn|]. split; [exact D|].
  destruct Hs as [->| ->]; auto.
Qed.

(** The number of cents is determined by the text. *)
Lemma amount_unique w s z z' : amount_cents w s z -> amount_cents w s z' -> z = z'.
Proof.
  intros [_ (sign & euros & x & y & nl & ds & -> & Hn & F & Hs)] [_ (sign' & euros' & x' & y' & nl' & ds' & E & Hn' & F' & Hs')].
  assert (sign = [] \/ sign = [c_dash]) as S1 by tauto. assert (sign' = [] \/ sign' = [c_dash]) as S2 by tauto.
  pose proof (amount_digits w sign euros x y nl ds Hn S1 F) as V.
  pose proof (amount_digits w sign' euros' x' y' nl' ds' Hn' S2 F') as V'. rewrite E, V' in V.
  destruct Hs as [[-> ->]|[-> ->]], Hs' as [[-> ->]|[-> ->]]; try lia; exfalso.
  - cbn [app] in E. destruct euros as [|c euros]; [discriminate|]. injection E as -> E.
    inversion F as [|? ? ? ? D _]; subst. rewrite decimal_dash in D. discriminate.
  - cbn [app] in E. destruct euros' as [|c euros']; [discriminate|]. injection E as <- E.
    inversion F' as [|? ? ? ? D _]; subst. rewrite decimal_dash in D. discriminate.
Qed.

Definition read_amounts (w : world) (f : fields) (r : receipt) : Prop := exists sg, is_receipt w f sg r.

Lemma printed_exists w f sg r : wf_fields w f -> is_receipt w f sg r -> exists zs, printed_amounts w r zs.
Proof.
  intros W (F & _). unfold printed_amounts. cbv zeta. rewrite F.
  destruct W as (_ & _ & _ & _ & _ & _ & A & B & C & D & E & _).
  apply amount_exists in A as [a A], B as [b B], C as [c C], D as [d D], E as [e E].
  exists [a; b; c; d; e]. repeat (apply Forall2_cons; [assumption|]). apply Forall2_nil.
Qed.

Lemma printed_five w r zs : printed_amounts w r zs -> exists a b c d e, zs = [a; b; c; d; e]
  /\ amount_cents w (f_a (r_fields r)) a /\ amount_cents w (f_b (r_fields r)) b /\ amount_cents w (f_c (r_fields r)) c
  /\ amount_cents w (f_d (r_fields r)) d /\ amount_cents w (f_e (r_fields r)) e.
Proof.
  unfold printed_amounts. cbv zeta. intros F.
  inversion F as [|? a ? ? HA F1]; subst. inversion F1 as [|? b ? ? HB F2]; subst. inversion F2 as [|? c ? ? HC F3]; subst.
  inversion F3 as [|? d ? ? HD F4]; subst. inversion F4 as [|? e ? ? HE F5]; subst. inversion F5; subst.
  exists a, b, c, d, e. tauto.
Qed.

Lemma printed_unique w r zs zs' : printed_amounts w r zs -> printed_amounts w r zs' -> zs = zs'.
Proof.
  intros (a & b & c & d & e & -> & A & B & C & D & E)%printed_five (a' & b' & c' & d' & e' & -> & A' & B' & C' & D' & E')%printed_five.
  repeat f_equal; eapply amount_unique; eassumption.
Qed.

Lemma moderate_signed neg n : moderate (signed neg n) -> (n <= max_cents)%N.
Proof. unfold moderate, signed, max_cents. change (10 ^ 14) with 100000000000000. destruct neg; lia. Qed.

Theorem cents_exact w f sg r zs : is_receipt w f sg r -> printed_amounts w r zs -> Forall moderate zs ->
  cents r = Ok (total zs).
Proof.
  intros (F & _ & _ & A & B & C & D & E) (a & b & c & d & e & -> & PA & PB & PC & PD & PE)%printed_five M.
  rewrite F in *.
  inversion M as [|? ? MA M1]; subst. inversion M1 as [|? ? MB M2]; subst. inversion M2 as [|? ? MC M3]; subst.
  inversion M3 as [|? ? MD M4]; subst. inversion M4 as [|? ? ME _]; subst.
  apply float_of_amount in PA as (sa & na & GA & ->), PB as (sb & nb & GB & ->), PC as (sc & nc & GC & ->),
    PD as (sd & nd & GD & ->), PE as (se & ne & GE & ->).
  rewrite GA in A. rewrite GB in B. rewrite GC in C. rewrite GD in D. rewrite GE in E.
  apply Some_inj in A, B, C, D, E. unfold cents. rewrite <- A, <- B, <- C, <- D, <- E.
  pose proof (fsum_exact sa sb sc sd se na nb nc nd ne) as X. unfold fsum in X.
  rewrite X by (eapply moderate_signed; eassumption). f_equal. unfold total. cbn [fold_right]. lia.
Qed.

Lemma amount_zero w s g z : getReceiptFloat w s = Some g -> amount_cents w s z -> feq0 g = true <-> z = 0.
Proof.
  intros G (neg & n & G' & ->)%float_of_amount. rewrite G' in G. apply Some_inj in G. subst. rewrite cents_zero.
  unfold signed. destruct neg; lia.
Qed.

Theorem null_exact w f sg r zs : is_receipt w f sg r -> printed_amounts w r zs -> isNull r = true <-> Forall (eq 0) zs.
Proof.
  intros (F & _ & _ & A & B & C & D & E) (a & b & c & d & e & -> & PA & PB & PC & PD & PE)%printed_five.
  rewrite F in *.
  pose proof (amount_zero _ _ _ _ A PA). pose proof (amount_zero _ _ _ _ B PB). pose proof (amount_zero _ _ _ _ C PC).
  pose proof (amount_zero _ _ _ _ D PD). pose proof (amount_zero _ _ _ _ E PE).
  unfold isNull. rewrite !Bool.andb_true_iff. split.
  - intros HH. repeat constructor; symmetry; tauto.
  - intros M. inversion M as [|? ? MA M1]; subst. inversion M1 as [|? ? MB M2]; subst. inversion M2 as [|? ? MC M3]; subst.
    inversion M3 as [|? ? MD M4]; subst. inversion M4 as [|? ? ME _]; subst. tauto.
Qed.

Lemma reads_printed w s r : reads w s r -> exists zs, printed_amounts w r zs.
Proof. intros (f & sg & (h & p & hb & pb & gb & _ & _ & _ & _ & _ & _ & (W & _)) & R). eapply printed_exists; eassumption. Qed.

Lemma reads_cents w s r zs : reads w s r -> printed_amounts w r zs -> Forall moderate zs -> cents r = Ok (total zs).
Proof. intros (f & sg & _ & R). now apply (cents_exact w f (Some (es256_header, sg))). Qed.

Lemma reads_zero w s r zs : reads w s r -> printed_amounts w r zs -> zero r <-> Forall (eq 0) zs.
Proof. intros (f & sg & _ & R) P. rewrite <- VerifyFacts.isNull_iff. eapply null_exact; eassumption. Qed.

Lemma turnover_printed w l z : Forall (fun i => reads w (i_jws i) (i_rec i)) l -> all_moderate w l ->
  turnover l z -> printed_turnover w l z.
Proof.
  intros R M (cs & F & E). exists cs. split; [|exact E]. clear E. revert R M.
  induction F as [|i c l cs H F IH]; intros R M; [constructor|].
  inversion R as [|? ? R1 R2]; subst. inversion M as [|? ? M1 M2]; subst. constructor; [|now apply IH].
  destruct H as [H|[T H]]; [now left|]. right. split; [exact T|].
  destruct (reads_printed w _ _ R1) as [zs P]. exists zs. split; [exact P|].
  rewrite (reads_cents w _ _ zs R1 P (M1 _ P)) in H. now apply Ok_inj in H.
Qed.

Lemma dep_items_read w ks dep items : dep_items w ks dep items -> Forall (fun i => reads w (i_jws i) (i_rec i)) items.
Proof.
  intros (gs & _ & F). induction F as [|b i bs l (E & R & _) F IH]; constructor; [|exact IH]. now rewrite E.
Qed.

Lemma all_moderate_app w a b : all_moderate w (a ++ b) <-> all_moderate w a /\ all_moderate w b.
Proof. apply Forall_app. Qed.

Theorem counter_printed w dep ks k c idx c' : hash_ok w ->
  verifyDEP w dep ks (Some k) c idx = (c', None) ->
  exists before reg after items reg',
    selects c idx before reg after /\ dep_items w ks dep items
    /\ c_regs c' = before ++ reg' :: after
    /\ (forall l1 i l2, items = l1 ++ i :: l2 -> all_moderate w (l1 ++ [i]) -> standard (i_rec i) ->
          exists z, printed_turnover w (l1 ++ [i]) z /\ decrypts w k (i_rec i) (s_counter reg + z))
    /\ (all_moderate w items -> exists z, printed_turnover w items z /\ s_counter reg' = s_counter reg + z).
Proof.
  intros HO H. destruct (counter w dep ks k c idx c' HO H) as (b & reg & a & items & reg' & S & D & R & C1 & z & T & C2).
  pose proof (dep_items_read _ _ _ _ D) as RD.
  exists b, reg, a, items, reg'. split; [exact S|]. split; [exact D|]. split; [exact R|]. split.
  - intros l1 i l2 E M St. destruct (C1 l1 i l2 E St) as (_ & z' & T' & De). exists z'. split; [|exact De].
    apply turnover_printed; [|exact M|exact T']. rewrite E in RD. change (i :: l2) with ([i] ++ l2) in RD.
    rewrite app_assoc in RD. now apply Forall_app in RD as [RD _].
  - intros M. exists z. split; [|exact C2]. now apply turnover_printed.
Qed.

Theorem start_printed w dep ks key c idx c' : hash_ok w ->
  verifyDEP w dep ks key c idx = (c', None) ->
  exists before reg after items i r,
    selects c idx before reg after /\ dep_items w ks dep items /\ items = i :: r
    /\ (past_of w reg None -> exists zs, printed_amounts w (i_rec i) zs /\ Forall (eq 0) zs).
Proof.
  intros HO H. destruct (start_receipt w dep ks key c idx c' HO H) as (b & reg & a & items & reg' & i & r & S & D & R & E & C).
  exists b, reg, a, items, i, r. split; [exact S|]. split; [exact D|]. split; [exact E|]. intros P.
  destruct (C P) as (_ & Z & _). pose proof (dep_items_read _ _ _ _ D) as RD. rewrite E in RD. inversion RD as [|? ? RI _]; subst.
  destruct (reads_printed _ _ _ RI) as [zs PZ]. exists zs. split; [exact PZ|]. eapply reads_zero; eassumption.
Qed.
