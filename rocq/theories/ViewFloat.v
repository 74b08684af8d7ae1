(** Amounts as displayed: rounding errors with Flocq. *)
From Coq Require Import ZArith Reals Lra Lia Floats.SpecFloat.
From Flocq Require Import Core BinarySingleNaN.
From Verif Require Import PyBase World Regex Codec PyFloat FloatFacts SpecKeys SpecAmount SpecJsonText View SpecView.
Open Scope R_scope.

Local Existing Instance prec_gt_0_53.
Local Existing Instance prec_lt_emax_64.

Lemma ratio_rounds neg p q :
  let z := float_of_ratio neg p q in let x := IZR (signed neg (Npos p)) / IZR (Zpos q) in
  valid_binary fprec femax z = true /\
  if Rlt_bool (Rabs (rnd x)) (bpow radix2 femax) then
    SF2R radix2 z = rnd x /\ is_finite_SF z = true
  else z = S754_infinity neg.
Proof.
  pose proof (Bdiv_correct_aux fprec femax prec_gt_0_53 prec_lt_emax_64 mode_NE neg p 0 false q 0) as H.
  cbv zeta in H. cbv zeta. unfold float_of_ratio.
  destruct (SFdiv_core_binary fprec femax (Z.pos p) 0 (Z.pos q) 0) as [[m e] l].
  rewrite binary_round_aux_equiv. rewrite Bool.xorb_false_r in H. cbn [round_mode] in H.
  assert (F2R (Float radix2 (cond_Zopp neg (Z.pos p)) 0) / F2R (Float radix2 (cond_Zopp false (Z.pos q)) 0)
          = IZR (signed neg (Npos p)) / IZR (Z.pos q)) as E.
  { unfold F2R. cbn [Fnum Fexp cond_Zopp bpow]. rewrite !Rmult_1_r. unfold signed. destruct neg; reflexivity. }
  rewrite E in H. destruct H as [V H]. split; [exact V|].
  destruct (Rlt_bool _ _); [tauto|exact H].
Qed.

Lemma fdiv_B x y : fdiv (B2SF x) (B2SF y) = B2SF (Bdiv (prec_gt_0_ := prec_gt_0_53) (prec_lt_emax_ := prec_lt_emax_64) mode_NE x y).
Proof.
  unfold fdiv. destruct x as [sx|sx| |sx mx ex Bx], y as [sy|sy| |sy my ey By]; try reflexivity.
  cbn [B2SF SFdiv Bdiv]. rewrite B2SF_SF2B. destruct (SFdiv_core_binary _ _ _ _ _ _) as [[m e] l]. apply binary_round_aux_equiv.
Qed.

Lemma denotes_SF x r : denotes x r -> SF2R radix2 x = r /\ is_finite_SF x = true /\ valid_binary fprec femax x = true.
Proof.
  intros (b & <- & F & <-). split; [apply SF2R_B2SF|]. split; [now rewrite is_finite_SF_B2SF|apply valid_binary_B2SF].
Qed.

Lemma denotes_div x y a b e : (-1021 <= e <= 1000)%Z -> denotes x a -> denotes y b -> b <> 0 -> Rabs (a / b) < bpow radix2 e ->
  denotes (fdiv x y) (rnd (a / b)).
Proof.
  intros He (bx & <- & Fx & <-) (by_ & <- & Fy & <-) NZ H. rewrite fdiv_B.
  pose proof (Bdiv_correct fprec femax prec_gt_0_53 prec_lt_emax_64 mode_NE bx by_ NZ) as C.
  cbn [round_mode] in C. rewrite (no_overflow _ e He H) in C. destruct C as (C & F & _).
  eexists. split; [reflexivity|]. rewrite F. split; [exact Fx|exact C].
Qed.

Lemma denotes_int z e : (0 <= e <= 1000)%Z -> Rabs (IZR z) < bpow radix2 e -> exists x, float_of_int z = Ok x /\ denotes x (rnd (IZR z)).
Proof.
  intros He H. unfold float_of_int. rewrite binary_normalize_equiv.
  pose proof (binary_normalize_correct fprec femax prec_gt_0_53 prec_lt_emax_64 mode_NE z 0 false) as C. cbv zeta in C.
  cbn [round_mode] in C. assert (F2R (Float radix2 z 0) = IZR z) as E by (unfold F2R; cbn [Fnum Fexp bpow]; ring).
  rewrite E in C. rewrite (no_overflow _ e) in C; [|lia|exact H]. destruct C as (C & F & _).
  set (b := binary_normalize _ _ _ _ _ _ _ _) in *. clearbody b. exists (B2SF b). split.
  - destruct b; try reflexivity; discriminate F.
  - exists b. auto.
Qed.

Lemma int_exact z : (Z.abs z <= 10 ^ 14)%Z -> exists x, float_of_int z = Ok x /\ denotes x (IZR z).
Proof.
  intros L. assert (Rabs (IZR z) < bpow radix2 47) as H.
  { change (bpow radix2 47) with (IZR 140737488355328). rewrite <- abs_IZR. apply IZR_lt. lia. }
  destruct (denotes_int z 47 ltac:(lia) H) as (x & X & D). exists x. split; [exact X|].
  rewrite round_generic in D; [exact D|apply valid_rnd_N|].
  replace (IZR z) with (F2R (Float radix2 z 0)) by (unfold F2R; cbn [Fnum Fexp bpow]; ring).
  apply generic_format_F2R. intros NZ. cbn [Fnum Fexp] in *. unfold cexp, SpecFloat.fexp, SpecFloat.emin, fprec, femax.
  assert (mag radix2 (F2R (Float radix2 z 0)) <= 47)%Z; [|lia].
  apply mag_le_bpow; [now apply F2R_neq_0|]. unfold F2R. cbn [Fnum Fexp bpow]. now rewrite Rmult_1_r.
Qed.

(** A text printed for a number that is the nearest to an amount of cents *)
Theorem printed_cents y s z : (Z.abs z <= 10 ^ 14)%Z -> denotes y (rnd (IZR z / 100)) -> float_number y s -> shown_cents s z.
Proof.
  intros L D (neg & ds & fs & ft & e & et & m & Id & Nd & Fr & Ex & _ & -> & Nm & Dec).
  destruct (denotes_SF _ _ D) as (Dy & Fy & _). set (k := (e - Z.of_nat (Datatypes.length fs))%Z) in *.
  set (num := ((if neg then - Z.of_N m else Z.of_N m) * 10 ^ Z.max k 0)%Z).
  set (den := (10 ^ Z.max (- k) 0)%Z). assert (0 < den)%Z as Hd by (apply Z.pow_pos_nonneg; lia).
  exists num, den. split. { exists neg, ds, fs, ft, e, et, m. cbv zeta. fold k. now repeat split. }
  assert (rnd (IZR num / IZR den) = rnd (IZR z / 100)) as E.
  { rewrite <- Dy. destruct Dec as [[-> ->]|(p & q & -> & P & Q)].
    - cbn [SF2R]. assert (num = 0%Z) as -> by (unfold num; destruct neg; reflexivity).
      unfold Rdiv. rewrite Rmult_0_l. apply round_0. apply valid_rnd_N.
    - destruct (ratio_rounds neg p q) as [_ H]. cbv zeta in H.
      assert (IZR (signed neg (N.pos p)) / IZR (Z.pos q) = IZR num / IZR den) as Eq.
      { f_equal; [|now rewrite Q]. f_equal. unfold signed, num. change (Z.of_N (N.pos p)) with (Z.pos p).
        rewrite P. destruct neg; lia. }
      rewrite Eq in H. destruct (Rlt_bool _ _); [now symmetry|]. rewrite H in Fy. discriminate Fy. }
  assert (Rabs (IZR z / 100) < bpow radix2 40) as Bz.
  { change (bpow radix2 40) with (IZR 1099511627776). unfold Rdiv. rewrite Rabs_mult, <- abs_IZR, (Rabs_pos_eq (/ 100)) by lra.
    assert (IZR (Z.abs z) <= 100000000000000) by (apply IZR_le; lia). lra. }
  assert (Rabs (IZR num / IZR den) < bpow radix2 41) as Bn.
  { apply Rnot_le_lt. intros G.
    assert (bpow radix2 41 <= Rabs (rnd (IZR num / IZR den))) as G'.
    { apply abs_round_ge_generic; [apply fexp_correct; reflexivity|apply valid_rnd_N| |exact G].
      apply generic_format_bpow. unfold SpecFloat.fexp, SpecFloat.emin, fprec, femax. lia. }
    rewrite E in G'. pose proof (rnd_small _ 40 ltac:(lia) Bz) as S.
    pose proof (bpow_lt radix2 40 41 ltac:(lia)). lra. }
  pose proof (rnd_error _ 40 ltac:(lia) Bz) as E1. pose proof (rnd_error _ 41 ltac:(lia) Bn) as E2. rewrite E in E2.
  change (bpow radix2 (40 - 54)) with (/ 16384) in E1. change (bpow radix2 (41 - 54)) with (/ 8192) in E2.
  apply Rabs_le_inv in E1, E2. set (t := rnd (IZR z / 100)) in *. clearbody t.
  assert (0 < IZR den) as Hd' by now apply IZR_lt.
  apply lt_IZR. rewrite mult_IZR, abs_IZR, minus_IZR, !mult_IZR.
  replace (100 * IZR num - IZR z * IZR den) with (100 * IZR den * (IZR num / IZR den - IZR z / 100)) by (field; lra).
  assert (Rabs (IZR num / IZR den - IZR z / 100) < / 200) as K by (apply Rabs_def1; lra).
  rewrite Rabs_mult, (Rabs_pos_eq (100 * IZR den)) by nra. set (u := Rabs _) in *. clearbody u.
  assert (0 <= u \/ u < 0) by lra. nra.
Qed.

(** A counter, converted and divided *)
Theorem divided_cents z : (Z.abs z <= 10 ^ 14)%Z -> exists x, float_of_int z = Ok x /\ denotes (fdiv x f100) (rnd (IZR z / 100)).
Proof.
  intros L. destruct (int_exact z L) as (x & X & D). exists x. split; [exact X|].
  apply (denotes_div _ _ _ _ 40 ltac:(lia) D denotes_100); [lra|].
  change (bpow radix2 40) with (IZR 1099511627776). unfold Rdiv. rewrite Rabs_mult, <- abs_IZR, (Rabs_pos_eq (/ 100)) by lra.
  assert (IZR (Z.abs z) <= 100000000000000) by (apply IZR_le; lia). lra.
Qed.

Lemma denotes_finite x r : denotes x r -> finite_float x /\ valid_binary fprec femax x = true.
Proof.
  intros D. apply denotes_SF in D as (_ & F & V). split; [|exact V]. split; [|intros b]; intros ->; discriminate F.
Qed.

(** Counters of up to 128 octets do not overflow. *)
Lemma int_finite z : (Z.abs z <= 2 ^ 1023)%Z -> exists x, float_of_int z = Ok x.
Proof.
  intros L. unfold float_of_int. rewrite binary_normalize_equiv.
  pose proof (binary_normalize_correct fprec femax prec_gt_0_53 prec_lt_emax_64 mode_NE z 0 false) as C. cbv zeta in C.
  cbn [round_mode] in C. assert (F2R (Float radix2 z 0) = IZR z) as E by (unfold F2R; cbn [Fnum Fexp bpow]; ring).
  rewrite E in C. assert (Rlt_bool (Rabs (rnd (IZR z))) (bpow radix2 femax) = true) as B.
  { apply Rlt_bool_true. apply Rle_lt_trans with (bpow radix2 1023); [|apply bpow_lt; unfold femax; lia].
    apply abs_round_le_generic; [apply fexp_correct; reflexivity|apply valid_rnd_N| |].
    - apply generic_format_bpow. unfold SpecFloat.fexp, SpecFloat.emin, fprec, femax. lia.
    - rewrite <- abs_IZR, <- IZR_Zpower by lia. apply IZR_le. exact L. }
  rewrite B in C. destruct C as (_ & F & _).
  set (b := binary_normalize _ _ _ _ _ _ _ _) in *. clearbody b. exists (B2SF b). destruct b; try reflexivity; discriminate F.
Qed.
