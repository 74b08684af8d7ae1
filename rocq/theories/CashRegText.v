(** The texts a cash register prints: amounts and time stamps. *)
From Coq Require Import Lia ZifyClasses ZifyN ZifyNat ZifyBool Reals Psatz.
From Flocq Require Import Core BinarySingleNaN.
From Coq Require Import Floats.SpecFloat.
From Verif Require Import PyBase World Codec PyFloat PyTime Algo Receipt SpecReceipt FieldFacts ReceiptFacts SpecKeys IntFacts
  SpecDep FloatFacts AmountFacts SpecAmount CashReg SpecCashReg.
Open Scope N_scope.
Local Ltac Zify.zify_post_hook ::= Z.div_mod_to_equations.

(** ** Decimal digits *)
Lemma decimal_digit w d : d < 10 -> decimal w (48 + d) = Some d.
Proof.
  intros L. unfold decimal, is_09. replace (48 + d <? 128) with true by lia.
  replace ((48 <=? 48 + d) && (48 + d <=? 57)) with true by lia. f_equal. lia.
Qed.

Lemma numeral_value w s n : numeral 10 s n ->
  exists ds, Forall2 (fun c d => decimal w c = Some d) s ds /\ decimal_value ds = Z.of_N n.
Proof.
  induction 1 as [c v H|s n c v H (ds & F & V) Hv].
  - exists [v]. split; [|cbn; lia]. constructor; [|constructor].
    replace c with (48 + v) by (unfold numeral_digit in H; lia). apply decimal_digit. unfold numeral_digit in H. lia.
  - exists (ds ++ [v]). split.
    + apply Forall2_app; [exact F|]. constructor; [|constructor].
      replace c with (48 + v) by (unfold numeral_digit in Hv; lia). apply decimal_digit. unfold numeral_digit in Hv. lia.
    + assert (forall l d, decimal_value (l ++ [d]) = (decimal_value l * 10 + Z.of_N d)%Z) as A.
      { intros l d. induction l as [|x l IH]; [cbn; lia|]. cbn [app decimal_value]. rewrite IH.
        rewrite app_length. cbn [length]. rewrite Nat.add_1_r, Nat2Z.inj_succ, Z.pow_succ_r by lia. lia. }
      rewrite A, V. lia.
Qed.

Lemma digits_small n : n < 10 -> digits 10 n = [48 + n].
Proof.
  intros L. unfold digits. cbn [digits_fuel]. replace (n / 10 =? 0) with true by lia.
  unfold hex_char. replace (n mod 10) with n by lia. replace (n <? 10) with true by lia. f_equal. lia.
Qed.

Lemma digits_fuel_big fuel fuel' n acc : n < 10 ^ N.of_nat fuel -> n < 10 ^ N.of_nat fuel' -> fuel <> O -> fuel' <> O ->
  digits_fuel fuel 10 n acc = digits_fuel fuel' 10 n acc.
Proof.
  revert fuel' n acc. induction fuel as [|fuel IH]; intros fuel' n acc L L' P P'; [congruence|].
  destruct fuel' as [|fuel']; [congruence|]. cbn [digits_fuel]. destruct (n / 10 =? 0) eqn:E; [reflexivity|].
  rewrite Nat2N.inj_succ, N.pow_succ_r' in L, L'.
  apply IH; [apply N.div_lt_upper_bound; lia|apply N.div_lt_upper_bound; lia| |]; intros ->; cbn in *; lia.
Qed.

Lemma digits_fuel_acc fuel n acc : digits_fuel fuel 10 n acc = digits_fuel fuel 10 n [] ++ acc.
Proof.
  revert n acc. induction fuel as [|fuel IH]; intros n acc; [reflexivity|]. cbn [digits_fuel].
  destruct (n / 10 =? 0); [reflexivity|]. rewrite IH, (IH _ [_]). now rewrite <- app_assoc.
Qed.

Lemma size_bound n : n < 10 ^ N.of_nat (S (N.to_nat (N.size n))).
Proof.
  rewrite Nat2N.inj_succ, N2Nat.id, N.pow_succ_r'. pose proof (N.size_gt n) as G.
  assert (2 ^ N.size n <= 10 ^ N.size n) as P by (apply N.pow_le_mono_l; lia). lia.
Qed.

Lemma digits_big n : 10 <= n -> digits 10 n = digits 10 (n / 10) ++ [48 + n mod 10].
Proof.
  intros L. unfold digits at 1. cbn [digits_fuel]. replace (n / 10 =? 0) with false by lia.
  rewrite digits_fuel_acc. unfold hex_char. replace (n mod 10 <? 10) with true by lia. rewrite (N.add_comm _ 48). f_equal.
  unfold digits. apply digits_fuel_big; [|apply size_bound| |discriminate].
  - rewrite N2Nat.id. pose proof (N.size_gt n) as G.
    assert (2 ^ N.size n <= 10 ^ N.size n) as P by (apply N.pow_le_mono_l; lia). lia.
  - intros E. pose proof (N.size_gt n) as G. replace (N.size n) with 0 in G by lia. cbn in G. lia.
Qed.

Lemma digits_first n : exists c r, digits 10 n = c :: r /\ (0 < n -> digit19 c) /\ (10 <= n -> r <> []).
Proof.
  induction n as [n IH] using (well_founded_induction N.lt_wf_0). destruct (N.lt_ge_cases n 10) as [L|L].
  - rewrite digits_small by exact L. exists (48 + n), []. split; [reflexivity|]. unfold digit19. lia.
  - rewrite digits_big by exact L. destruct (IH (n / 10)) as (c & r & -> & H & _); [lia|].
    exists c, (r ++ [48 + n mod 10]). split; [reflexivity|]. split; [intros _; apply H; lia|destruct r; discriminate].
Qed.

Lemma digits_lead n : (exists c, digits 10 n = [c]) \/ (exists c c' r, digits 10 n = c :: c' :: r /\ digit19 c).
Proof.
  destruct (N.lt_ge_cases n 10) as [L|L]; [left; rewrite digits_small by exact L; eauto|].
  destruct (digits_first n) as (c & r & -> & H & G). specialize (H ltac:(lia)). specialize (G L).
  destruct r as [|c' r]; [congruence|]. right. eauto.
Qed.

(** ** Amounts *)
Lemma Forall2_decimal w s ds : Forall2 (fun c d => decimal w c = Some d) s ds -> Forall (digit w) s.
Proof. induction 1 as [|c d s ds D F IH]; constructor; [now exists d|exact IH]. Qed.

Lemma value_app a b : decimal_value (a ++ b) = (decimal_value a * 10 ^ Z.of_nat (List.length b) + decimal_value b)%Z.
Proof.
  induction a as [|x a IH]; [reflexivity|]. cbn [app decimal_value]. rewrite IH, app_length, Nat2Z.inj_add, Z.pow_add_r by lia. lia.
Qed.

Lemma cents_text_amount w neg n : amount_cents w (cents_text neg n) (signed neg n).
Proof.
  destruct (numeral_value w _ _ (digits_numeral 10 (n / 100) ltac:(lia))) as (ds & F & V).
  assert (decimal w (48 + n / 10 mod 10) = Some (n / 10 mod 10)) as X by (apply decimal_digit; lia).
  assert (decimal w (48 + n mod 10) = Some (n mod 10)) as Y by (apply decimal_digit; lia).
  assert (cents_text neg n = (if neg then [c_dash] else []) ++ digits 10 (n / 100) ++ [c_comma; 48 + n / 10 mod 10; 48 + n mod 10] ++ []) as E.
  { reflexivity. }
  assert (decimal_value (ds ++ [n / 10 mod 10; n mod 10]) = Z.of_N n) as W.
  { rewrite value_app, V. cbn [length decimal_value Z.of_nat]. change (10 ^ Z.of_nat 2)%Z with 100%Z.
    change (10 ^ Z.of_nat 1)%Z with 10%Z. change (10 ^ 0)%Z with 1%Z. lia. }
  split.
  - exists (if neg then [c_dash] else []), (digits 10 (n / 100)), (48 + n / 10 mod 10), (48 + n mod 10), [].
    split; [exact E|]. split; [now left|]. split; [destruct neg; auto|]. split; [now apply Forall2_decimal in F|].
    split; [eexists; exact X|]. split; [eexists; exact Y|]. apply digits_lead.
  - exists (if neg then [c_dash] else []), (digits 10 (n / 100)), (48 + n / 10 mod 10), (48 + n mod 10), [], (ds ++ [n / 10 mod 10; n mod 10]).
    split; [exact E|]. split; [now left|]. split.
    + apply Forall2_app; [exact F|]. constructor; [exact X|]. constructor; [exact Y|]. constructor.
    + rewrite W. unfold signed. destruct neg; auto.
Qed.

Lemma cents_text_ascii neg n : Forall (fun c => c < 128) (cents_text neg n).
Proof.
  unfold cents_text. apply Forall_app. split; [destruct neg; repeat constructor|].
  apply Forall_app. split.
  - pose proof (numeral_digits _ _ _ (digits_numeral 10 (n / 100) ltac:(lia))) as D.
    eapply Forall_impl; [|exact D]. intros c [v H]. unfold numeral_digit in H. lia.
  - constructor; [reflexivity|]. constructor; [lia|]. constructor; [lia|]. constructor.
Qed.

Lemma fmt_cents neg n : n <= 100000000000000 -> fmt_sum (float_of_cents neg n) = cents_text neg n.
Proof.
  intros L. destruct (N.eq_dec n 0) as [->|NZ]; [reflexivity|].
  destruct (denotes_cents neg n L) as (b & B & Fin & R).
  assert (Rabs (rnd (IZR (signed neg n) / 100) - IZR (signed neg n) / 100) <= / 16384)%R as Er.
  { change (/ 16384)%R with (bpow radix2 (40 - 54)). apply rnd_error; [lia|]. change (bpow radix2 40) with (IZR 1099511627776).
    assert (IZR (Z.of_N n) <= 100000000000000)%R by (apply IZR_le; lia). assert (0 <= IZR (Z.of_N n))%R by (apply IZR_le; lia).
    unfold signed. destruct neg; [rewrite opp_IZR|]; apply Rabs_def1; lra. }
  rewrite <- R in Er. apply Rabs_le_inv in Er.
  assert (1 <= IZR (Z.of_N n))%R as Pos by (apply IZR_le; lia).
  rewrite <- B. clear R B L. destruct b as [s|s| |s m e Hb]; try discriminate; cbn [B2SF fmt_sum B2R] in *.
  { exfalso. unfold signed in Er. destruct neg; [rewrite opp_IZR in Er|]; lra. }
  assert (0 < F2R (Float radix2 (Z.pos m) e))%R as Pm by now apply F2R_gt_0.
  assert (s = neg /\ Rabs (F2R (Float radix2 (Z.pos m) e) - IZR (Z.of_N n) / 100) <= / 16384)%R as [-> Em].
  { unfold signed in Er. destruct s; cbn [cond_Zopp] in Er.
    - change (Z.neg m) with (- Z.pos m)%Z in Er. rewrite F2R_Zopp in Er. destruct neg; [|lra]. split; [reflexivity|].
      rewrite opp_IZR in Er. apply Rabs_le. lra.
    - destruct neg; [rewrite opp_IZR in Er; lra|]. split; [reflexivity|]. apply Rabs_le. lra. }
  f_equal. rewrite (round_half_even_int (100 * Z.pos m) e (Z.of_N n)); [lia|lia|].
  assert (F2R (Float radix2 (100 * Z.pos m) e) = 100 * F2R (Float radix2 (Z.pos m) e))%R as ->.
  { unfold F2R. cbn [Fnum Fexp]. rewrite mult_IZR. ring. }
  apply Rabs_le_inv in Em. apply Rabs_def1; lra.
Qed.

(** ** Time stamps *)
Lemma digits_year y : 1000 <= y <= 9999 -> digits 10 y = [48 + y / 1000; 48 + y / 100 mod 10; 48 + y / 10 mod 10; 48 + y mod 10].
Proof.
  intros L. rewrite digits_big by lia. rewrite (digits_big (y / 10)) by lia. rewrite (digits_big (y / 10 / 10)) by lia.
  rewrite digits_small by lia. cbn [app].
  replace (y / 10 / 10 / 10) with (y / 1000) by lia. replace (y / 10 / 10) with (y / 100) by lia. reflexivity.
Qed.

Lemma strftime_text w d : valid_dt d -> 1000 <= dt_year d -> time_text w (strftime d) d.
Proof.
  intros V Y. pose proof V as (Y' & D1 & (dm & DM & D2) & H & M & Se).
  assert (1 <= dt_month d <= 12) as Mo. { unfold days_in_month in DM. cbn in DM. lia. }
  assert (dt_day d <= 31) as Da. { unfold days_in_month in DM. lia. }
  unfold time_text, strftime. exists (digits 10 (dt_year d)), (two_digits (dt_month d)), (two_digits (dt_day d)),
    (two_digits (dt_hour d)), (two_digits (dt_min d)), (two_digits (dt_sec d)), 84.
  split; [reflexivity|]. split; [now left|]. split.
  { rewrite digits_year by lia. unfold year_text. do 4 eexists.
    exists (dt_year d / 1000), (dt_year d / 100 mod 10), (dt_year d / 10 mod 10), (dt_year d mod 10).
    split; [reflexivity|]. repeat (split; [apply decimal_digit; lia|]). lia. }
  split. { right. split; [reflexivity|exact Mo]. }
  split.
  { unfold day_text, two_digits. destruct (N.lt_ge_cases (dt_day d) 10) as [A|A].
    - right. left. split; [|lia]. f_equal; [lia|]. f_equal. lia.
    - destruct (N.lt_ge_cases (dt_day d) 30) as [A'|A'].
      + right. right. right. left. eexists. split; [reflexivity|]. split; [apply decimal_digit; lia|lia].
      + right. right. right. right. split; [|lia]. f_equal. lia. }
  split.
  { unfold hour_text, two_digits. destruct (N.lt_ge_cases (dt_hour d) 20) as [A|A].
    - right. left. eexists. split; [reflexivity|]. split; [apply decimal_digit; lia|lia].
    - right. right. split; [|lia]. f_equal. lia. }
  split. { right. eexists. split; [reflexivity|]. split; [apply decimal_digit; lia|lia]. }
  split. { right. eexists. split; [reflexivity|]. split; [apply decimal_digit; lia|lia]. }
  exact V.
Qed.

Lemma strftime_ascii d : valid_dt d -> Forall (fun c => c < 128) (strftime d).
Proof.
  intros (Y' & D1 & (dm & DM & D2) & H & M & Se).
  assert (1 <= dt_month d <= 12) as Mo. { unfold days_in_month in DM. cbn in DM. lia. }
  assert (dt_day d <= 31) as Da. { unfold days_in_month in DM. lia. }
  unfold strftime. apply Forall_app. split.
  - pose proof (numeral_digits _ _ _ (digits_numeral 10 (dt_year d) ltac:(lia))) as D.
    eapply Forall_impl; [|exact D]. intros c [v X]. unfold numeral_digit in X. lia.
  - unfold two_digits. cbn [app]. repeat (constructor; [unfold c_dash, c_colon; lia|]). constructor.
Qed.
