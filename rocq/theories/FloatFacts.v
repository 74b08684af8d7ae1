(** Sums of amounts in binary64 arithmetic: rounding error analysis with Flocq. *)
From Coq Require Import ZArith Reals Lra Lia Floats.SpecFloat.
From Flocq Require Import Core BinarySingleNaN.
From Verif Require Import PyBase World Regex Codec PyFloat.
Open Scope R_scope.

Local Instance prec_gt_0_53 : Prec_gt_0 fprec.
Proof. reflexivity. Qed.
Local Instance prec_lt_emax_64 : Prec_lt_emax fprec femax.
Proof. reflexivity. Qed.

Notation b64 := (binary_float fprec femax).
Notation fexp64 := (SpecFloat.fexp fprec femax).
Notation rnd := (round radix2 fexp64 ZnearestE).

(** ** The operations of SpecFloat are those of Flocq. *)

Lemma round_nearest_even_equiv s m l :
  round_nearest_even m l = choice_mode mode_NE s m l.
Proof.
  unfold round_nearest_even. destruct l as [|c]; [reflexivity|]. destruct c; [|reflexivity..].
  cbn. unfold Round.cond_incr. now destruct (Z.even m).
Qed.

Lemma binary_round_aux_equiv sx mx ex lx :
  SpecFloat.binary_round_aux fprec femax sx mx ex lx = binary_round_aux fprec femax mode_NE sx mx ex lx.
Proof.
  unfold SpecFloat.binary_round_aux, binary_round_aux. destruct (shr_fexp _ _ _ _ _) as [mrs' e'].
  now rewrite (round_nearest_even_equiv sx).
Qed.

Lemma binary_round_equiv s m e :
  SpecFloat.binary_round fprec femax s m e = binary_round fprec femax mode_NE s m e.
Proof.
  unfold SpecFloat.binary_round, binary_round, shl_align_fexp. destruct (shl_align _ _ _) as [mz ez].
  apply binary_round_aux_equiv.
Qed.

Lemma binary_normalize_equiv m e szero :
  SpecFloat.binary_normalize fprec femax m e szero =
  B2SF (binary_normalize fprec femax prec_gt_0_53 prec_lt_emax_64 mode_NE m e szero).
Proof.
  destruct m as [|p|p]; [reflexivity| |]; cbn [SpecFloat.binary_normalize binary_normalize];
    rewrite B2SF_SF2B; apply binary_round_equiv.
Qed.

Lemma fadd_B x y : fadd (B2SF x) (B2SF y) = B2SF (Bplus (prec_gt_0_ := prec_gt_0_53) (prec_lt_emax_ := prec_lt_emax_64) mode_NE x y).
Proof.
  unfold fadd. destruct x as [sx|sx| |sx mx ex Bx], y as [sy|sy| |sy my ey By];
    try (cbn; destruct (Bool.eqb _ _); reflexivity); try reflexivity.
  apply binary_normalize_equiv.
Qed.

Lemma fmul_B x y : fmul (B2SF x) (B2SF y) = B2SF (Bmult (prec_gt_0_ := prec_gt_0_53) (prec_lt_emax_ := prec_lt_emax_64) mode_NE x y).
Proof.
  unfold fmul. destruct x as [sx|sx| |sx mx ex Bx], y as [sy|sy| |sy my ey By]; try reflexivity.
  cbn [B2SF SFmul Bmult]. rewrite B2SF_SF2B. apply binary_round_aux_equiv.
Qed.

(** ** Real values *)

Definition denotes (x : float) (r : R) : Prop :=
  exists b : b64, B2SF b = x /\ is_finite b = true /\ B2R b = r.

Lemma rnd_small x e : (-1021 <= e <= 1000)%Z -> Rabs x < bpow radix2 e -> Rabs (rnd x) <= bpow radix2 e.
Proof.
  intros He Hx. apply abs_round_le_generic; [apply fexp_correct; reflexivity|apply valid_rnd_N| |lra].
  apply generic_format_bpow. unfold SpecFloat.fexp, SpecFloat.emin, fprec, femax. lia.
Qed.

Lemma no_overflow x e : (-1021 <= e <= 1000)%Z -> Rabs x < bpow radix2 e ->
  Rlt_bool (Rabs (rnd x)) (bpow radix2 femax) = true.
Proof.
  intros He Hx. apply Rlt_bool_true. eapply Rle_lt_trans; [now apply (rnd_small x e)|].
  apply bpow_lt. unfold femax. lia.
Qed.

Lemma denotes_add x y a b e : (-1021 <= e <= 1000)%Z -> denotes x a -> denotes y b -> Rabs (a + b) < bpow radix2 e ->
  denotes (fadd x y) (rnd (a + b)).
Proof.
  intros He (bx & <- & Fx & <-) (by_ & <- & Fy & <-) H. rewrite fadd_B.
  pose proof (Bplus_correct fprec femax prec_gt_0_53 prec_lt_emax_64 mode_NE bx by_ Fx Fy) as C.
  cbn [round_mode] in C. rewrite (no_overflow _ e He H) in C. destruct C as (C & F & _).
  eexists. split; [reflexivity|]. split; [exact F|exact C].
Qed.

Lemma denotes_mul x y a b e : (-1021 <= e <= 1000)%Z -> denotes x a -> denotes y b -> Rabs (a * b) < bpow radix2 e ->
  denotes (fmul x y) (rnd (a * b)).
Proof.
  intros He (bx & <- & Fx & <-) (by_ & <- & Fy & <-) H. rewrite fmul_B.
  pose proof (Bmult_correct fprec femax prec_gt_0_53 prec_lt_emax_64 mode_NE bx by_) as C.
  cbn [round_mode] in C. rewrite (no_overflow _ e He H) in C. destruct C as (C & F & _).
  eexists. split; [reflexivity|]. rewrite F, Fx, Fy. split; [reflexivity|exact C].
Qed.

Definition signed (neg : bool) (n : N) : Z := if neg then (- Z.of_N n)%Z else Z.of_N n.

Lemma ratio_correct neg p :
  let z := float_of_ratio neg p 100 in
  valid_binary fprec femax z = true /\
  if Rlt_bool (Rabs (rnd (IZR (signed neg (Npos p)) / 100))) (bpow radix2 femax) then
    SF2R radix2 z = rnd (IZR (signed neg (Npos p)) / 100) /\ is_finite_SF z = true
  else z = S754_infinity neg.
Proof.
  pose proof (Bdiv_correct_aux fprec femax prec_gt_0_53 prec_lt_emax_64 mode_NE neg p 0 false 100 0) as H.
  cbv zeta in H. cbv zeta. unfold float_of_ratio.
  destruct (SFdiv_core_binary fprec femax (Z.pos p) 0 100 0) as [[m e] l].
  rewrite binary_round_aux_equiv. rewrite Bool.xorb_false_r in H. cbn [round_mode] in H.
  assert (F2R (Float radix2 (cond_Zopp neg (Z.pos p)) 0) / F2R (Float radix2 (cond_Zopp false 100) 0)
          = IZR (signed neg (Npos p)) / 100) as E.
  { unfold F2R. cbn [Fnum Fexp cond_Zopp bpow]. rewrite !Rmult_1_r. unfold signed. destruct neg; reflexivity. }
  rewrite E in H. destruct H as [V H]. split; [exact V|].
  destruct (Rlt_bool _ _); [tauto|exact H].
Qed.

Lemma denotes_cents neg n : (n <= 100000000000000)%N ->
  denotes (float_of_cents neg n) (rnd (IZR (signed neg n) / 100)).
Proof.
  intros L. destruct n as [|p].
  - exists (B754_zero neg). split; [reflexivity|]. split; [reflexivity|]. cbn [B2R].
    assert (IZR (signed neg 0) / 100 = 0) as -> by (destruct neg; cbn; lra). symmetry. apply round_0. apply valid_rnd_N.
  - cbn [float_of_cents]. destruct (ratio_correct neg p) as [V H].
    rewrite (no_overflow _ 40) in H; [|lia|].
    + destruct H as [H F]. exists (SF2B _ V). split; [apply B2SF_SF2B|].
      rewrite is_finite_SF2B, B2R_SF2B. auto.
    + change (bpow radix2 40) with (IZR 1099511627776).
      assert (IZR (Z.pos p) <= 100000000000000) by (apply IZR_le; lia).
      assert (0 <= IZR (Z.pos p)) by (apply IZR_le; lia).
      unfold signed. cbn [Z.of_N]. destruct neg; [rewrite opp_IZR|]; apply Rabs_def1; lra.
Qed.

(** Rounding error *)
Lemma rnd_error x e : (-960 <= e)%Z -> Rabs x < bpow radix2 e -> Rabs (rnd x - x) <= bpow radix2 (e - 54).
Proof.
  intros He Hx. destruct (Req_dec x 0) as [->|NZ].
  - rewrite round_0 by apply valid_rnd_N. rewrite Rminus_0_r, Rabs_R0. apply bpow_ge_0.
  - eapply Rle_trans; [apply error_le_half_ulp; apply fexp_correct; reflexivity|].
    rewrite ulp_neq_0 by assumption.
    replace (e - 54)%Z with (-1 + (e - 53))%Z by lia. rewrite bpow_plus.
    change (bpow radix2 (-1)) with (/ 2). apply Rmult_le_compat_l; [lra|]. apply bpow_le.
    unfold cexp. pose proof (mag_le_bpow radix2 x e NZ Hx). unfold SpecFloat.fexp, SpecFloat.emin, fprec, femax. lia.
Qed.

(** ** Rounding to integers *)

Lemma round_half_even_int m e z : (0 <= m)%Z ->
  Rabs (F2R (Float radix2 m e) - IZR z) < / 2 -> round_half_even m e = z.
Proof.
  intros Hm H. unfold F2R in H. cbn [Fnum Fexp] in H. unfold round_half_even. destruct (0 <=? e)%Z eqn:E.
  - apply Z.leb_le in E. rewrite <- IZR_Zpower in H by exact E. rewrite <- mult_IZR, <- minus_IZR, <- abs_IZR in H.
    assert (IZR (Z.abs (m * radix2 ^ e - z)) < 1) as H' by lra. apply lt_IZR in H'. change (Z.pow radix2 e) with (2 ^ e)%Z in H'. lia.
  - apply Z.leb_gt in E. set (d := (2 ^ (- e))%Z).
    assert (0 < d)%Z as Hd by (apply Z.pow_pos_nonneg; lia).
    assert (bpow radix2 e = / IZR d) as B.
    { replace e with (- (- e))%Z at 1 by lia. rewrite bpow_opp. rewrite <- IZR_Zpower by lia. reflexivity. }
    rewrite B in H. assert (0 < IZR d) as Hd' by now apply IZR_lt.
    assert (2 * Z.abs (m - z * d) < d)%Z as K.
    { apply lt_IZR. rewrite mult_IZR, abs_IZR, minus_IZR, mult_IZR.
      replace (IZR m - IZR z * IZR d) with ((IZR m * / IZR d - IZR z) * IZR d) by (field; lra).
      rewrite Rabs_mult, (Rabs_pos_eq (IZR d)) by lra. set (t := Rabs _) in *. nra. }
    clear H B. clearbody d. pose proof (Z.div_mod m d ltac:(lia)) as DM. pose proof (Z.mod_pos_bound m d Hd) as MB.
    set (q := (m / d)%Z) in *. set (r := (m mod d)%Z) in *. clearbody q r.
    assert (q = z /\ 2 * r < d \/ q = z - 1 /\ 2 * r > d)%Z as C.
    { assert (q < z + 1)%Z by nia. assert (z - 2 < q)%Z by nia.
      assert (q = z \/ q = z - 1)%Z as [->| ->] by lia; [left|right]; split; try lia; nia. }
    destruct C as [[-> C]|[-> C]].
    + assert ((2 * r ?= d)%Z = Lt) as -> by now apply Z.compare_lt_iff. reflexivity.
    + assert ((2 * r ?= d)%Z = Gt) as -> by (apply Z.compare_gt_iff; lia). lia.
Qed.

Lemma py_round_int x r z : denotes x r -> Rabs (r - IZR z) < / 2 -> py_round x = Ok z.
Proof.
  intros (b & <- & F & <-) H. destruct b as [s|s| |s m e B]; try discriminate; cbn [B2SF py_round B2R] in *.
  - rewrite Rminus_0_l, Rabs_Ropp, <- abs_IZR in H. assert (IZR (Z.abs z) < 1) as H' by lra. apply lt_IZR in H'. f_equal. lia.
  - f_equal. destruct s; cbn [cond_Zopp] in H.
    + rewrite (round_half_even_int (Z.pos m) e (- z)); [lia|lia|].
      rewrite opp_IZR. rewrite <- Rabs_Ropp. change (Z.neg m) with (- Z.pos m)%Z in H. rewrite F2R_Zopp in H.
      match goal with |- Rabs ?u < _ => match type of H with Rabs ?v < _ => replace u with v by ring end end. exact H.
    + apply round_half_even_int; [lia|exact H].
Qed.

(** ** Five amounts *)

Definition fsum (a b c d e : float) : float := fmul (fadd (fadd (fadd (fadd a b) c) d) e) f100.

Lemma denotes_100 : denotes f100 100.
Proof.
  exists (@B754_finite fprec femax false 7036874417766400 (-46) eq_refl). split; [reflexivity|]. split; [reflexivity|].
  cbn [B2R cond_Zopp]. unfold F2R. cbn [Fnum Fexp]. change (bpow radix2 (-46)) with (/ IZR 70368744177664). lra.
Qed.

Definition max_cents : N := 100000000000000.

Theorem fsum_exact sa sb sc sd se na nb nc nd ne :
  (na <= max_cents)%N -> (nb <= max_cents)%N -> (nc <= max_cents)%N -> (nd <= max_cents)%N -> (ne <= max_cents)%N ->
  py_round (fsum (float_of_cents sa na) (float_of_cents sb nb) (float_of_cents sc nc) (float_of_cents sd nd) (float_of_cents se ne))
  = Ok (signed sa na + signed sb nb + signed sc nc + signed sd nd + signed se ne)%Z.
Proof.
  unfold max_cents. intros La Lb Lc Ld Le.
  assert (forall s n, (n <= 100000000000000)%N -> Rabs (IZR (signed s n)) <= 100000000000000) as Bd.
  { intros s n L. rewrite <- abs_IZR. apply IZR_le. unfold signed. destruct s; lia. }
  pose proof (denotes_cents sa _ La) as Da. pose proof (denotes_cents sb _ Lb) as Db. pose proof (denotes_cents sc _ Lc) as Dc.
  pose proof (denotes_cents sd _ Ld) as Dd. pose proof (denotes_cents se _ Le) as De.
  apply (Bd sa) in La. apply (Bd sb) in Lb. apply (Bd sc) in Lc. apply (Bd sd) in Ld. apply (Bd se) in Le. clear Bd.
  rewrite !plus_IZR || idtac.
  set (za := signed sa na) in *. set (zb := signed sb nb) in *. set (zc := signed sc nc) in *.
  set (zd := signed sd nd) in *. set (ze := signed se ne) in *. clearbody za zb zc zd ze.
  assert (forall z, Rabs (IZR z) <= 100000000000000 -> Rabs (rnd (IZR z / 100) - IZR z / 100) <= / 16384) as E0.
  { intros z L. change (/ 16384) with (bpow radix2 (40 - 54)). apply rnd_error; [lia|].
    change (bpow radix2 40) with (IZR 1099511627776). apply Rabs_le_inv in L. apply Rabs_def1; lra. }
  pose proof (E0 _ La) as Ea. pose proof (E0 _ Lb) as Eb. pose proof (E0 _ Lc) as Ec. pose proof (E0 _ Ld) as Ed.
  pose proof (E0 _ Le) as Ee. clear E0.
  set (xa := rnd (IZR za / 100)) in *. set (xb := rnd (IZR zb / 100)) in *. set (xc := rnd (IZR zc / 100)) in *.
  set (xd := rnd (IZR zd / 100)) in *. set (xe := rnd (IZR ze / 100)) in *. clearbody xa xb xc xd xe.
  apply Rabs_le_inv in La. apply Rabs_le_inv in Lb. apply Rabs_le_inv in Lc. apply Rabs_le_inv in Ld. apply Rabs_le_inv in Le.
  apply Rabs_le_inv in Ea. apply Rabs_le_inv in Eb. apply Rabs_le_inv in Ec. apply Rabs_le_inv in Ed. apply Rabs_le_inv in Ee.
  (* a + b *)
  assert (Rabs (xa + xb) < bpow radix2 41) as B1.
  { change (bpow radix2 41) with (IZR 2199023255552). apply Rabs_def1; lra. }
  pose proof (denotes_add _ _ _ _ 41 ltac:(lia) Da Db B1) as D1. pose proof (rnd_error _ 41 ltac:(lia) B1) as R1.
  change (bpow radix2 (41 - 54)) with (/ 8192) in R1. apply Rabs_le_inv in R1.
  set (s1 := rnd (xa + xb)) in *. clearbody s1.
  (* + c *)
  assert (Rabs (s1 + xc) < bpow radix2 42) as B2.
  { change (bpow radix2 42) with (IZR 4398046511104). apply Rabs_def1; lra. }
  pose proof (denotes_add _ _ _ _ 42 ltac:(lia) D1 Dc B2) as D2. pose proof (rnd_error _ 42 ltac:(lia) B2) as R2.
  change (bpow radix2 (42 - 54)) with (/ 4096) in R2. apply Rabs_le_inv in R2.
  set (s2 := rnd (s1 + xc)) in *. clearbody s2.
  (* + d *)
  assert (Rabs (s2 + xd) < bpow radix2 42) as B3.
  { change (bpow radix2 42) with (IZR 4398046511104). apply Rabs_def1; lra. }
  pose proof (denotes_add _ _ _ _ 42 ltac:(lia) D2 Dd B3) as D3. pose proof (rnd_error _ 42 ltac:(lia) B3) as R3.
  change (bpow radix2 (42 - 54)) with (/ 4096) in R3. apply Rabs_le_inv in R3.
  set (s3 := rnd (s2 + xd)) in *. clearbody s3.
  (* + e *)
  assert (Rabs (s3 + xe) < bpow radix2 43) as B4.
  { change (bpow radix2 43) with (IZR 8796093022208). apply Rabs_def1; lra. }
  pose proof (denotes_add _ _ _ _ 43 ltac:(lia) D3 De B4) as D4. pose proof (rnd_error _ 43 ltac:(lia) B4) as R4.
  change (bpow radix2 (43 - 54)) with (/ 2048) in R4. apply Rabs_le_inv in R4.
  set (s4 := rnd (s3 + xe)) in *. clearbody s4.
  (* * 100 *)
  assert (Rabs (s4 * 100) < bpow radix2 49) as B5.
  { change (bpow radix2 49) with (IZR 562949953421312). apply Rabs_def1; lra. }
  pose proof (denotes_mul _ _ _ _ 49 ltac:(lia) D4 denotes_100 B5) as D5. pose proof (rnd_error _ 49 ltac:(lia) B5) as R5.
  change (bpow radix2 (49 - 54)) with (/ 32) in R5. apply Rabs_le_inv in R5.
  set (s5 := rnd (s4 * 100)) in *. clearbody s5.
  unfold fsum. eapply py_round_int; [exact D5|]. rewrite !plus_IZR. apply Rabs_def1; lra.
Qed.

(** ** Zero *)

Lemma cents_zero neg n : feq0 (float_of_cents neg n) = true <-> n = 0%N.
Proof.
  split; [|intros ->; reflexivity]. destruct n as [|p]; [reflexivity|]. cbn [float_of_cents].
  destruct (ratio_correct neg p) as [V H]. cbv zeta in H. destruct (Rlt_bool _ _).
  - destruct H as [H _]. destruct (float_of_ratio neg p 100) as [s|s| |s m e] eqn:E; try discriminate. cbn [SF2R] in H.
    exfalso. assert (bpow radix2 (-7) <= Rabs (rnd (IZR (signed neg (N.pos p)) / 100))) as L.
    { apply abs_round_ge_generic; [apply fexp_correct; reflexivity|apply valid_rnd_N| |].
      - apply generic_format_bpow. unfold SpecFloat.fexp, SpecFloat.emin, fprec, femax. lia.
      - change (bpow radix2 (-7)) with (/ 128).
        assert (1 <= IZR (Z.pos p)) by (apply IZR_le; lia). unfold Rdiv. rewrite Rabs_mult, <- abs_IZR.
        assert (Z.abs (signed neg (N.pos p)) = Z.pos p) as -> by (unfold signed; destruct neg; cbn; lia).
        rewrite Rabs_pos_eq by lra. lra. }
    rewrite <- H in L. rewrite Rabs_R0 in L. change (bpow radix2 (-7)) with (/ 128) in L. lra.
  - rewrite H. discriminate.
Qed.
