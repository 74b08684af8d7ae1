(** A way to print numbers: their exact decimal notation. *)
From Coq Require Import ZArith Reals Lra Lia Floats.SpecFloat.
From Flocq Require Import Core BinarySingleNaN.
From Verif Require Import PyBase World Regex Codec PyFloat FloatFacts SpecKeys IntFacts SpecAmount SpecJsonText JsonWriteFacts View SpecView ViewFloat.

Definition exact_repr (x : float) : str :=
  match x with
  | S754_zero s => sign s ++ lit "0.0"
  | S754_finite s m e =>
      if (0 <=? e)%Z then sign s ++ digits 10 (Npos m * 2 ^ Z.to_N e) ++ lit ".0"
      else sign s ++ digits 10 (Npos m * 5 ^ Z.to_N (- e)) ++ lit "e-" ++ digits 10 (Z.to_N (- e))
  | S754_infinity _ => lit "inf"
  | S754_nan => lit "nan"
  end.

Lemma exact_ratio s m e p q : valid_binary fprec femax (S754_finite s m e) = true ->
  (IZR (Zpos p) / IZR (Zpos q) = IZR (Zpos m) * bpow radix2 e)%R -> float_of_ratio s p q = S754_finite s m e.
Proof.
  intros V E. set (x := SF2B (S754_finite s m e) V : b64). destruct (ratio_rounds s p q) as [V' H]. cbv zeta in H.
  assert (IZR (signed s (N.pos p)) / IZR (Z.pos q) = B2R x)%R as Ex.
  { unfold x. rewrite B2R_SF2B. cbn [SF2R]. unfold F2R. cbn [Fnum Fexp]. unfold signed. change (Z.of_N (N.pos p)) with (Z.pos p).
    destruct s; cbn [cond_Zopp]; [|exact E]. rewrite opp_IZR. change (Z.neg m) with (- Z.pos m)%Z. rewrite opp_IZR.
    rewrite Ropp_mult_distr_l_reverse, <- E. unfold Rdiv. ring. }
  rewrite Ex in H. rewrite round_generic in H; [|apply valid_rnd_N|apply generic_format_B2R].
  rewrite Rlt_bool_true in H by apply abs_B2R_lt_emax. destruct H as [H F].
  assert (SF2B _ V' = x) as Y.
  { apply B2R_inj.
    - rewrite is_finite_strict_SF2B. destruct (float_of_ratio s p q) as [s'|s'| |s' m' e'] eqn:Q; try discriminate F; [|reflexivity].
      exfalso. cbn [SF2R] in H. unfold x in H. rewrite B2R_SF2B in H. cbn [SF2R] in H. symmetry in H. apply eq_0_F2R in H. destruct s; discriminate H.
    - unfold x. now rewrite is_finite_strict_SF2B.
    - rewrite B2R_SF2B. exact H. }
  apply (f_equal B2SF) in Y. unfold x in Y. now rewrite !B2SF_SF2B in Y.
Qed.

Theorem exact_prints : prints exact_repr.
Proof.
  intros x [Fn Fi] V. destruct x as [s|s| |s m e]; [|now elim (Fi s)|now elim Fn|].
  - exists s, [48%N], [48%N], (lit ".0"), 0%Z, [], 0%N.
    assert (numeral 10 [48%N] 0) as Z0 by (constructor; split; [left; lia|lia]).
    split; [now left|]. split; [now exists 0%N|]. split; [right; split; [now exists 0%N|reflexivity]|].
    split; [now left|]. split; [left; discriminate|]. split; [reflexivity|]. split; [|left; now split].
    change (numeral 10 ([48%N] ++ [48%N]) (0 * 10 + 0)). apply numeral_more; [exact Z0|split; [left; lia|lia]].
  - cbn [exact_repr]. destruct (0 <=? e)%Z eqn:E.
    + apply Z.leb_le in E. set (n := (N.pos m * 2 ^ Z.to_N e)%N).
      pose proof (digits_numeral 10 n ltac:(lia)) as Dn. assert (numeral 10 [48%N] 0) as Z0 by (constructor; split; [left; lia|lia]).
      exists s, (digits 10 n), [48%N], (lit ".0"), 0%Z, [], (n * 10 + 0)%N.
      split; [apply digits_integer|]. split; [now exists n|]. split; [right; split; [now exists 0%N|reflexivity]|].
      split; [now left|]. split; [left; discriminate|]. split; [reflexivity|].
      split; [apply numeral_more; [exact Dn|split; [left; lia|lia]]|]. right.
      assert (0 < n)%N as Hn by (unfold n; apply N.mul_pos_pos; [lia|]; apply N.neq_0_lt_0, N.pow_nonzero; lia).
      destruct n as [|p] eqn:En; [lia|]. exists (p * 10)%positive, 10%positive. split.
      * symmetry. apply exact_ratio; [exact V|]. rewrite Pos2Z.inj_mul, mult_IZR.
        replace (IZR (Z.pos p) * 10 / 10)%R with (IZR (Z.pos p)) by field.
        change (Z.pos p) with (Z.of_N (N.pos p)). rewrite <- En. unfold n. rewrite N2Z.inj_mul, N2Z.inj_pow, Z2N.id by lia.
        rewrite mult_IZR. f_equal. now rewrite <- IZR_Zpower.
      * cbn [Datatypes.length]. change (0 - Z.of_nat 1)%Z with (-1)%Z. split; [|reflexivity]. change (10 ^ Z.max (-1) 0)%Z with 1%Z. lia.
    + apply Z.leb_gt in E. set (n := (N.pos m * 5 ^ Z.to_N (- e))%N).
      pose proof (digits_numeral 10 n ltac:(lia)) as Dn.
      exists s, (digits 10 n), [], [], e, (lit "e-" ++ digits 10 (Z.to_N (- e))), n.
      split; [apply digits_integer|]. split; [now exists n|]. split; [now left|].
      split. { right. exists 101%N, [45%N], (digits 10 (Z.to_N (- e))), (Z.to_N (- e)). split; [now left|]. split; [reflexivity|].
        split; [apply digits_numeral; lia|]. right. right. split; [reflexivity|]. lia. }
      split; [right; discriminate|]. split; [reflexivity|]. rewrite app_nil_r. split; [exact Dn|]. right.
      assert (0 < n)%N as Hn by (unfold n; apply N.mul_pos_pos; [lia|]; apply N.neq_0_lt_0, N.pow_nonzero; lia).
      cbn [Datatypes.length]. rewrite Z.sub_0_r. rewrite Z.max_r, (Z.max_l (- e)) by lia.
      assert (0 < 10 ^ (- e))%Z as Hd by (apply Z.pow_pos_nonneg; lia).
      destruct n as [|p] eqn:En; [lia|]. destruct (10 ^ (- e))%Z as [|q|q] eqn:Eq; try lia. exists p, q. split.
      * symmetry. apply exact_ratio; [exact V|]. rewrite <- Eq. change (Z.pos p) with (Z.of_N (N.pos p)). rewrite <- En. unfold n.
        rewrite N2Z.inj_mul, N2Z.inj_pow, Z2N.id by lia. change (Z.of_N 5) with 5%Z. change 10%Z with (5 * 2)%Z.
        rewrite Z.pow_mul_l, !mult_IZR. assert (bpow radix2 e = / IZR (radix2 ^ (- e)))%R as -> by (rewrite IZR_Zpower by lia; rewrite <- bpow_opp; f_equal; lia).
        change (Z.pow radix2 (- e)) with (2 ^ (- e))%Z. change (Z.of_N (N.pos m)) with (Z.pos m).
        assert (IZR (5 ^ (- e)) <> 0)%R by (apply not_0_IZR; apply Z.pow_nonzero; lia).
        assert (IZR (2 ^ (- e)) <> 0)%R by (apply not_0_IZR; apply Z.pow_nonzero; lia). field. now split.
      * change (10 ^ 0)%Z with 1%Z. split; [cbn [Z.of_N]; lia|reflexivity].
Qed.
