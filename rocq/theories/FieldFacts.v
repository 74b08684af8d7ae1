(** The checks of single fields agree with the grammar of SpecReceipt.v. *)
From Coq Require Import Lia ZifyClasses ZifyN ZifyNat ZifyBool.
From Verif Require Import PyBase World Regex Codec PyFloat PyTime Algo Receipt ListFacts RegexFacts
  CodecFacts CodecFacts2 SpecReceipt.
Open Scope N_scope.
Ltac Zify.zify_post_hook ::= Z.div_mod_to_equations.

Lemma is_decimal_digit w c : is_decimal w c = true <-> digit w c.
Proof.
  unfold is_decimal, digit. destruct (decimal w c) as [d|].
  - split; [intros _; now exists d|reflexivity].
  - split; [discriminate|intros [d H]; discriminate].
Qed.

Lemma forallb_digit w s : forallb (is_decimal w) s = true <-> Forall (digit w) s.
Proof.
  rewrite forallb_forall, Forall_forall. split; intros H x Hx; now apply is_decimal_digit, H.
Qed.

Lemma lang_Rd w s : lang (Rd w) s <-> exists c, s = [c] /\ digit w c.
Proof.
  unfold Rd. rewrite lang_Cls. split; intros (c & -> & H); exists c; split; try reflexivity;
    now apply is_decimal_digit.
Qed.

Lemma lang_Rds w s : lang (RStar (Rd w)) s <-> Forall (digit w) s.
Proof. unfold Rd. rewrite lang_StarCls. apply forallb_digit. Qed.

Lemma lang_R19 s : lang R19 s <-> exists c, s = [c] /\ digit19 c.
Proof.
  unfold R19, digit19. rewrite lang_Cls.
  split; intros (c & -> & H); exists c; split; try reflexivity; lia.
Qed.

Lemma lang_RAZ s : lang RAZ s <-> exists c, s = [c] /\ letter c.
Proof.
  unfold RAZ, letter, is_AZ. rewrite lang_Cls.
  split; intros (c & -> & H); exists c; split; try reflexivity; lia.
Qed.

Lemma zda_spec w s : nonempty s && re_match (zdaRegex w) s = true <-> zda_text w s.
Proof.
  rewrite andb_true_iff, re_match_spec. unfold zdaRegex, zda_text. split.
  - intros (_ & t & nl & -> & H & Hn). exists t, nl. split; [reflexivity|]. split; [exact Hn|].
    apply lang_Alt in H as [H|H].
    + right. apply lang_Seq in H as (sa & r & -> & Ha & H). apply lang_RAZ in Ha as (a & -> & Ha).
      apply lang_Seq in H as (sb & r' & -> & Hb & H). apply lang_RAZ in Hb as (b & -> & Hb).
      apply lang_Seq in H as (sc & ds & -> & Hc & H). apply lang_R19 in Hc as (c & -> & Hc).
      apply lang_Rds in H. exists a, b, c, ds. auto.
    + left. now apply lang_Str in H.
  - intros (t & nl & -> & Hn & H). split.
    { destruct H as [->|(a & b & c & ds & -> & _)]; reflexivity. }
    exists t, nl. split; [reflexivity|]. split; [|exact Hn].
    apply lang_Alt. destruct H as [->|(a & b & c & ds & -> & Ha & Hb & Hc & Hd)].
    + right. now apply lang_Str.
    + left. apply lang_Seq. exists [a], (b :: c :: ds). split; [reflexivity|].
      split; [apply lang_RAZ; eauto|].
      apply lang_Seq. exists [b], (c :: ds). split; [reflexivity|]. split; [apply lang_RAZ; eauto|].
      apply lang_Seq. exists [c], ds. split; [reflexivity|]. split; [apply lang_R19; eauto|].
      now apply lang_Rds.
Qed.

Lemma amount_spec w s : re_match (receiptFloatRegex w) s = true <-> amount_text w s.
Proof.
  rewrite re_match_spec. unfold receiptFloatRegex, amount_text. split.
  - intros (t & nl & -> & H & Hn). apply lang_Seq in H as (sign & r & -> & Hs & H).
    apply lang_Seq in H as (euros & r' & -> & He & H).
    apply lang_Seq in H as (sc & r'' & -> & Hc & H). apply lang_Chr in Hc as ->.
    apply lang_Seq in H as (sx & sy & -> & Hx & Hy).
    apply lang_Rd in Hx as (x & -> & Hx). apply lang_Rd in Hy as (y & -> & Hy).
    exists sign, euros, x, y, nl. split; [now rewrite <- !app_assoc|]. split; [exact Hn|].
    split. { apply lang_Opt in Hs as [->|Hs]; [now left|]. apply lang_Chr in Hs. now right. }
    assert (Forall (digit w) euros /\ ((exists c, euros = [c]) \/ (exists c c' r, euros = c :: c' :: r /\ digit19 c))) as [F G].
    { apply lang_Alt in He as [He|He].
      - apply lang_Seq in He as (a & b & -> & Ha & Hb). apply lang_R19 in Ha as (c & -> & Hc).
        unfold RPlus in Hb. apply lang_Seq in Hb as (b1 & b2 & -> & Hb1 & Hb2).
        apply lang_Rd in Hb1 as (c' & -> & Hc'). apply lang_Rds in Hb2.
        split.
        + constructor; [|constructor; assumption]. unfold digit19 in Hc. exists (c - 48).
          unfold decimal, is_09. replace (c <? 128) with true by lia.
          now replace ((48 <=? c) && (c <=? 57)) with true by lia.
        + right. exists c, c', b2. auto.
      - apply lang_Rd in He as (c & -> & Hc). split; [now constructor|]. left. now exists c. }
    auto.
  - intros (sign & euros & x & y & nl & -> & Hn & Hs & F & Hx & Hy & He).
    exists (sign ++ euros ++ [c_comma; x; y]), nl. split; [now rewrite <- !app_assoc|].
    split; [|exact Hn].
    apply lang_Seq. exists sign, (euros ++ [c_comma; x; y]). split; [reflexivity|].
    split. { apply lang_Opt. destruct Hs as [->| ->]; [now left|right; now apply lang_Chr]. }
    apply lang_Seq. exists euros, [c_comma; x; y]. split; [reflexivity|]. split.
    + apply lang_Alt. destruct He as [(c & ->)|(c & c' & r & -> & Hc)].
      * right. inversion F; subst. apply lang_Rd. eauto.
      * left. inversion F as [|? ? _ F']; subst. inversion F' as [|? ? Hc' F'']; subst.
        apply lang_Seq. exists [c], (c' :: r). split; [reflexivity|]. split; [apply lang_R19; eauto|].
        apply lang_Seq. exists [c'], r. split; [reflexivity|]. split; [apply lang_Rd; eauto|].
        now apply lang_Rds.
    + apply lang_Seq. exists [c_comma], [x; y]. split; [reflexivity|]. split; [now apply lang_Chr|].
      apply lang_Seq. exists [x], [y]. split; [reflexivity|]. split; apply lang_Rd; eauto.
Qed.

Lemma getSum_spec w s id f :
  getSum w s id = Ok f <-> amount_text w s /\ getReceiptFloat w s = Some f.
Proof.
  unfold getSum. destruct s as [|c r].
  - split; [discriminate|]. intros [_ H]. discriminate.
  - destruct (getReceiptFloat w (c :: r)) as [g|] eqn:G.
    + split.
      * intros H. apply Ok_inj in H. subst. split; [|reflexivity]. unfold getReceiptFloat in G.
        destruct (re_match (receiptFloatRegex w) (c :: r)) eqn:R; [|discriminate]. now apply amount_spec.
      * intros [_ H]. congruence.
    + split; [discriminate|]. intros [_ H]. discriminate.
Qed.

Lemma amount_float w s : amount_text w s -> exists f, getReceiptFloat w s = Some f.
Proof. intros H. apply amount_spec in H. unfold getReceiptFloat. rewrite H. eauto. Qed.

Lemma getSum_err w s id e : getSum w s id = Err e -> e = MalformedReceipt id.
Proof. unfold getSum. destruct s; [congruence|]. destruct (getReceiptFloat w _); congruence. Qed.

(** ** Time stamps *)

Lemma decimal_ascii w c : c < 128 -> decimal w c = if is_09 c then Some (c - 48) else None.
Proof. intros H. unfold decimal. now replace (c <? 128) with true by lia. Qed.

(** Characters that may follow a field. *)
Definition sep (c : N) : Prop := c = c_dash \/ c = 84 \/ c = 116 \/ c = c_colon.

Lemma sep_not_decimal w c : sep c -> decimal w c = None.
Proof. intros H. rewrite decimal_ascii by (destruct H as [->|[->|[->| ->]]]; reflexivity).
  destruct H as [->|[->|[->| ->]]]; reflexivity. Qed.

Definition follows (r : str) : Prop := r = [] \/ exists c r', r = c :: r' /\ sep c.

Ltac cases_if :=
  match goal with
  | H : context [if ?b then _ else _] |- _ => destruct b eqn:?
  end.

(** A field reader [p] reads [t] with value [v] off the front of a text exactly
    if [t] is a text of the field. *)
Definition reads (p : str -> option (N * str)) (T : str -> N -> Prop) : Prop :=
  (forall s v r, p s = Some (v, r) -> exists t, s = t ++ r /\ T t v) /\
  (forall t v r, T t v -> follows r -> p (t ++ r) = Some (v, r)).

Lemma month_reads w : reads (p_month w) month_text.
Proof.
  split.
  - intros s v r H. unfold p_month, two, in_range in H.
    assert (forall a r0, (if (49 <=? a) && (a <=? 57) then Some (a - 48) else None) = Some v -> s = a :: r0 ->
      r0 = r -> exists t, s = t ++ r /\ month_text t v) as ONE.
    { intros a r0 E -> ->. destruct ((49 <=? a) && (a <=? 57)) eqn:C; [|discriminate].
      apply Some_inj in E. exists [a]. split; [reflexivity|]. left. split; [f_equal; lia|lia]. }
    destruct s as [|a [|b s]]; [discriminate| |].
    + destruct ((49 <=? a) && (a <=? 57)) eqn:C; [|discriminate]. injection H as Hv Hr.
      apply (ONE a []); [now rewrite C, Hv|reflexivity|assumption].
    + destruct ((a =? 49) && ((48 <=? b) && (b <=? 50))) eqn:C1.
      { injection H as Hv Hr. exists [a; b]. split; [simpl; now subst|]. right.
        assert (v / 10 = 1 /\ v mod 10 = b - 48) as [E1 E2] by lia. rewrite E1, E2.
        split; [f_equal; [lia|f_equal; lia]|lia]. }
      destruct ((a =? 48) && ((49 <=? b) && (b <=? 57))) eqn:C2.
      { injection H as Hv Hr. exists [a; b]. split; [simpl; now subst|]. right.
        assert (v / 10 = 0 /\ v mod 10 = b - 48) as [E1 E2] by lia. rewrite E1, E2.
        split; [f_equal; [lia|f_equal; lia]|lia]. }
      destruct ((49 <=? a) && (a <=? 57)) eqn:C; [|discriminate]. injection H as Hv Hr.
      apply (ONE a (b :: s)); [now rewrite C, Hv|reflexivity|assumption].
  - intros t v r H F. unfold p_month, two, in_range. destruct H as [(-> & B)|(-> & B)].
    + assert ((49 <=? 48 + v) && (48 + v <=? 57) = true) as E by lia.
      assert (48 + v - 48 = v) as Ev by lia.
      destruct r as [|c r'].
      { cbn [app]. rewrite E. now rewrite Ev. }
      assert (sep c) as S. { destruct F as [F|(c' & r'' & F & S)]; [discriminate|]. now injection F as -> _. }
      cbn [app].
      replace ((48 + v =? 49) && ((48 <=? c) && (c <=? 50))) with false
        by (destruct S as [->|[->|[->| ->]]]; unfold c_dash, c_colon; lia).
      replace ((48 + v =? 48) && ((49 <=? c) && (c <=? 57))) with false by lia.
      rewrite E. now rewrite Ev.
    + cbn [app]. assert (v / 10 = 0 /\ v mod 10 = v \/ v / 10 = 1 /\ v mod 10 = v - 10) as [[E1 E2]|[E1 E2]] by lia;
      rewrite E1, E2.
      * assert (1 <= v <= 9) as B' by lia. clear B E1 E2.
        replace ((48 + 0 =? 49) && ((48 <=? 48 + v) && (48 + v <=? 50))) with false by lia.
        replace ((48 + 0 =? 48) && ((49 <=? 48 + v) && (48 + v <=? 57))) with true by lia.
        f_equal. f_equal. lia.
      * assert (10 <= v <= 12) as B' by lia. clear B E1 E2.
        replace ((48 + 1 =? 49) && ((48 <=? 48 + (v - 10)) && (48 + (v - 10) <=? 50))) with true by lia.
        f_equal. f_equal. lia.
Qed.

Lemma two_inv w f g s v r :
  two w f g s = Some (v, r) ->
  (exists a b, s = a :: b :: r /\ f a b = Some v) \/ (exists a, s = a :: r /\ g a = Some v).
Proof.
  unfold two. destruct s as [|a [|b s]]; [discriminate| |].
  - destruct (g a) as [x|] eqn:G; [|discriminate]. intros H. injection H as -> <-. right. eauto.
  - destruct (f a b) as [x|] eqn:F.
    + intros H. injection H as -> <-. left. eauto 6.
    + destruct (g a) as [x|] eqn:G; [|discriminate]. intros H. injection H as -> <-. right. eauto.
Qed.

Lemma two_two w f g a b v r : f a b = Some v -> two w f g (a :: b :: r) = Some (v, r).
Proof. intros H. unfold two. now rewrite H. Qed.

Lemma two_one w f g a v r :
  g a = Some v -> (forall c, sep c -> f a c = None) -> follows r ->
  two w f g (a :: r) = Some (v, r).
Proof.
  intros H N F. unfold two. destruct r as [|c r].
  - now rewrite H.
  - rewrite N, H; [reflexivity|]. destruct F as [F|(c' & r'' & F & S)]; [discriminate|]. now injection F as -> _.
Qed.

Lemma two_reads w f g (T : str -> N -> Prop) :
  (forall a b v, f a b = Some v -> T [a; b] v) ->
  (forall a v, g a = Some v -> T [a] v) ->
  (forall t v, T t v -> (exists a b, t = [a; b] /\ f a b = Some v) \/ (exists a, t = [a] /\ g a = Some v)) ->
  (forall a c v, sep c -> g a = Some v -> f a c = None) ->
  reads (two w f g) T.
Proof.
  intros Hf Hg Ht Hs. split.
  - intros s v r H. apply two_inv in H as [(a & b & -> & H)|(a & -> & H)].
    + exists [a; b]. split; [reflexivity|auto].
    + exists [a]. split; [reflexivity|auto].
  - intros t v r H F. apply Ht in H as [(a & b & -> & H)|(a & -> & H)].
    + now apply two_two.
    + apply two_one; [assumption| |assumption]. intros c S. eauto.
Qed.

Lemma decimal_range w c d : decimal w c = Some d -> d <= 9.
Proof.
  unfold decimal, is_09. destruct (c <? 128).
  - destruct ((48 <=? c) && (c <=? 57)) eqn:E; [|discriminate]. intros H. apply Some_inj in H. lia.
  - destruct (u_decimal w c) as [x|]; [|discriminate]. destruct (x <? 10) eqn:E; [|discriminate].
    intros H. apply Some_inj in H. lia.
Qed.

Lemma decimal_digit_char w v : v <= 9 -> decimal w (48 + v) = Some v.
Proof.
  intros H. rewrite decimal_ascii by lia. unfold is_09.
  replace ((48 <=? 48 + v) && (48 + v <=? 57)) with true by lia. f_equal. lia.
Qed.

Ltac inv_if H :=
  match type of H with
  | (if ?b then _ else _) = Some _ => let C := fresh "C" in destruct b eqn:C
  | (match ?o with Some _ => _ | None => _ end) = Some _ =>
      let D := fresh "D" in destruct o eqn:D; [|discriminate H]
  | None = Some _ => discriminate H
  | Some _ = Some _ => apply Some_inj in H
  end.

Lemma day_reads w : reads (p_day w) (day_text w).
Proof.
  apply two_reads.
  - intros a b v H. unfold in_range in H. unfold day_text. repeat inv_if H.
    + right; right; right; right. assert (v mod 10 = b - 48) as E by lia. rewrite E.
      split; [f_equal; [lia|f_equal; lia]|lia].
    + right; right; right; left. exists b. apply decimal_range in D as R.
      assert (v / 10 = a - 48 /\ v mod 10 = n) as [E1 E2] by (clear D C; lia). rewrite E1, E2.
      split; [f_equal; lia|]. split; [assumption|clear D C; lia].
    + assert (a = 48 \/ a = 32) as [-> | ->] by lia.
      * right; left. split; [f_equal; f_equal; lia|lia].
      * right; right; left. split; [f_equal; f_equal; lia|lia].
  - intros a v H. unfold in_range in H. repeat inv_if H. left. split; [f_equal; lia|lia].
  - intros t v H. unfold in_range.
    destruct H as [(-> & B)|[(-> & B)|[(-> & B)|[(c & -> & D & B)|(-> & B)]]]].
    + right. exists (48 + v). split; [reflexivity|].
      replace ((49 <=? 48 + v) && (48 + v <=? 57)) with true by lia. f_equal. lia.
    + left. exists 48, (48 + v). split; [reflexivity|].
      replace ((49 <=? 48 + v) && (48 + v <=? 57)) with true by lia.
      change (48 =? 51) with false. change ((49 <=? 48) && (48 <=? 50)) with false.
      change ((48 =? 48) || (48 =? 32)) with true. cbn [andb]. f_equal. lia.
    + left. exists 32, (48 + v). split; [reflexivity|].
      replace ((49 <=? 48 + v) && (48 + v <=? 57)) with true by lia.
      change (32 =? 51) with false. change ((49 <=? 32) && (32 <=? 50)) with false.
      change ((32 =? 48) || (32 =? 32)) with true. cbn [andb]. f_equal. lia.
    + left. exists (48 + v / 10), c. split; [reflexivity|].
      assert (1 <= v / 10 <= 2) as E by lia.
      replace ((48 + v / 10 =? 51) && ((48 <=? c) && (c <=? 49))) with false by (clear D; lia).
      replace ((49 <=? 48 + v / 10) && (48 + v / 10 <=? 50)) with true by (clear D; lia).
      rewrite D. f_equal. clear D. lia.
    + left. exists 51, (48 + v mod 10). split; [reflexivity|].
      assert (v mod 10 = v - 30) as E by lia. rewrite E.
      replace ((51 =? 51) && ((48 <=? 48 + (v - 30)) && (48 + (v - 30) <=? 49))) with true by lia.
      f_equal. lia.
  - intros a c v S G. unfold in_range in *. rewrite (sep_not_decimal w c S).
    replace ((a =? 51) && ((48 <=? c) && (c <=? 49))) with false
      by (destruct S as [->|[->|[->| ->]]]; unfold c_dash, c_colon; lia).
    destruct ((49 <=? a) && (a <=? 50)); [reflexivity|].
    replace ((49 <=? c) && (c <=? 57)) with false
      by (destruct S as [->|[->|[->| ->]]]; unfold c_dash, c_colon; lia).
    now rewrite andb_false_r.
Qed.

Lemma hour_reads w : reads (p_hour w) (hour_text w).
Proof.
  apply two_reads.
  - intros a b v H. unfold in_range in H. unfold hour_text. repeat inv_if H.
    + right; right. assert (v mod 10 = b - 48) as E by lia. rewrite E.
      split; [f_equal; [lia|f_equal; lia]|lia].
    + right; left. exists b. apply decimal_range in D as R.
      assert (v / 10 = a - 48 /\ v mod 10 = n) as [E1 E2] by (clear D C; lia). rewrite E1, E2.
      split; [f_equal; lia|]. split; [assumption|clear D C; lia].
  - intros a v H. left. eauto.
  - intros t v H. unfold in_range. destruct H as [(c & -> & D)|[(c & -> & D & B)|(-> & B)]].
    + right. eauto.
    + left. exists (48 + v / 10), c. split; [reflexivity|].
      replace ((48 + v / 10 =? 50) && ((48 <=? c) && (c <=? 51))) with false by (clear D; lia).
      replace ((48 <=? 48 + v / 10) && (48 + v / 10 <=? 49)) with true by (clear D; lia).
      rewrite D. f_equal. clear D. lia.
    + left. exists 50, (48 + v mod 10). split; [reflexivity|].
      assert (v mod 10 = v - 20) as E by lia. rewrite E.
      replace ((50 =? 50) && ((48 <=? 48 + (v - 20)) && (48 + (v - 20) <=? 51))) with true by lia.
      f_equal. lia.
  - intros a c v S G. unfold in_range. rewrite (sep_not_decimal w c S).
    replace ((48 <=? c) && (c <=? 51)) with false
      by (destruct S as [->|[->|[->| ->]]]; unfold c_dash, c_colon; lia).
    rewrite andb_false_r. now destruct ((48 <=? a) && (a <=? 49)).
Qed.

Lemma min_reads w : reads (p_min w) (minute_text w).
Proof.
  apply two_reads.
  - intros a b v H. unfold in_range in H. unfold minute_text. repeat inv_if H.
    right. exists b. apply decimal_range in D as R.
    assert (v / 10 = a - 48 /\ v mod 10 = n) as [E1 E2] by (clear D; lia). rewrite E1, E2.
    split; [f_equal; lia|]. split; [assumption|clear D; lia].
  - intros a v H. left. eauto.
  - intros t v H. unfold in_range. destruct H as [(c & -> & D)|(c & -> & D & B)].
    + right. eauto.
    + left. exists (48 + v / 10), c. split; [reflexivity|].
      replace ((48 <=? 48 + v / 10) && (48 + v / 10 <=? 53)) with true by (clear D; lia).
      rewrite D. f_equal. clear D. lia.
  - intros a c v S G. unfold in_range. rewrite (sep_not_decimal w c S).
    now destruct ((48 <=? a) && (a <=? 53)).
Qed.

Definition second_text (w : world) (s : str) (v : N) : Prop :=
  minute_text w s v \/ (s = [54; 48 + v mod 10] /\ 60 <= v <= 61).

Lemma sec_reads w : reads (p_sec w) (second_text w).
Proof.
  apply two_reads.
  - intros a b v H. unfold in_range in H. unfold second_text, minute_text. repeat inv_if H.
    + right. assert (v mod 10 = b - 48) as E by lia. rewrite E.
      split; [f_equal; [lia|f_equal; lia]|lia].
    + left; right. exists b. apply decimal_range in D as R.
      assert (v / 10 = a - 48 /\ v mod 10 = n) as [E1 E2] by (clear D C; lia). rewrite E1, E2.
      split; [f_equal; lia|]. split; [assumption|clear D C; lia].
  - intros a v H. left; left. eauto.
  - intros t v H. unfold in_range. destruct H as [[(c & -> & D)|(c & -> & D & B)]|(-> & B)].
    + right. eauto.
    + left. exists (48 + v / 10), c. split; [reflexivity|].
      replace ((48 + v / 10 =? 54) && ((48 <=? c) && (c <=? 49))) with false by (clear D; lia).
      replace ((48 <=? 48 + v / 10) && (48 + v / 10 <=? 53)) with true by (clear D; lia).
      rewrite D. f_equal. clear D. lia.
    + left. exists 54, (48 + v mod 10). split; [reflexivity|].
      assert (v mod 10 = v - 60) as E by lia. rewrite E.
      replace ((54 =? 54) && ((48 <=? 48 + (v - 60)) && (48 + (v - 60) <=? 49))) with true by lia.
      f_equal. lia.
  - intros a c v S G. unfold in_range. rewrite (sep_not_decimal w c S).
    replace ((48 <=? c) && (c <=? 49)) with false
      by (destruct S as [->|[->|[->| ->]]]; unfold c_dash, c_colon; lia).
    rewrite andb_false_r. now destruct ((48 <=? a) && (a <=? 53)).
Qed.

Lemma year_reads w : reads (p_year w) (year_text w).
Proof.
  split.
  - intros s v r H. unfold p_year in H. destruct s as [|a [|b [|c [|d s]]]]; try discriminate.
    destruct (decimal w a) as [x|] eqn:A; [|discriminate].
    destruct (decimal w b) as [y|] eqn:B; [|discriminate].
    destruct (decimal w c) as [z|] eqn:C; [|discriminate].
    destruct (decimal w d) as [u|] eqn:D; [|discriminate].
    apply Some_inj in H. inversion H; subst. exists [a; b; c; d]. split; [reflexivity|].
    exists a, b, c, d, x, y, z, u. auto 10.
  - intros t v r (a & b & c & d & x & y & z & u & -> & A & B & C & D & ->) _.
    cbn [app p_year]. now rewrite A, B, C, D.
Qed.

Lemma leap_spec y : leap y = true <-> leap_year y.
Proof. unfold leap, leap_year. lia. Qed.

Lemma month_days_spec y m : 1 <= m <= 12 -> days_in_month y m (month_days y m).
Proof.
  intros H. unfold days_in_month, month_days.
  assert (In m [1; 2; 3; 4; 5; 6; 7; 8; 9; 10; 11; 12]) as Hm.
  { assert (m = 1 \/ m = 2 \/ m = 3 \/ m = 4 \/ m = 5 \/ m = 6 \/ m = 7 \/ m = 8 \/ m = 9 \/ m = 10 \/ m = 11 \/ m = 12)
      as E by lia. cbn. intuition. }
  destruct (leap y) eqn:L.
  - apply leap_spec in L. cbn [In] in Hm. repeat destruct Hm as [<-|Hm]; [..|destruct Hm]; cbn [In]; cbn; intuition.
  - assert (~ leap_year y) as NL by (rewrite <- leap_spec; congruence).
    cbn [In] in Hm. repeat destruct Hm as [<-|Hm]; [..|destruct Hm]; cbn [In]; cbn; intuition.
Qed.

Lemma days_in_month_fun y m n n' : days_in_month y m n -> days_in_month y m n' -> n = n'.
Proof.
  unfold days_in_month. cbn [In]. intros H H'.
  destruct H as [[H E]|[[H E]|[(H & L & E)|(H & L & E)]]];
  destruct H' as [[H' E']|[[H' E']|[(H' & L' & E')|(H' & L' & E')]]]; try congruence;
  try contradiction; exfalso; intuition; congruence.
Qed.

Lemma month_text_range s v : month_text s v -> 1 <= v <= 12.
Proof. intros [(_ & H)|(_ & H)]; lia. Qed.

Lemma p_lit_spec f s r : p_lit f s = Some r <-> exists c, s = c :: r /\ f c = true.
Proof.
  destruct s as [|c s]; cbn.
  - split; [discriminate|]. intros (c & H & _). discriminate.
  - destruct (f c) eqn:F.
    + split; [intros H; apply Some_inj in H; subst; eauto|]. intros (c' & H & _). now injection H as <- <-.
    + split; [discriminate|]. intros (c' & H & H'). injection H as <- <-. congruence.
Qed.

Theorem strptime_spec w s d : strptime w s = Some d <-> time_text w s d.
Proof.
  unfold strptime. split.
  - intros H.
    destruct (p_year w s) as [[y s1]|] eqn:Ey; [|discriminate].
    destruct (p_lit (N.eqb c_dash) s1) as [s2|] eqn:L1; [|discriminate].
    destruct (p_month w s2) as [[mo s3]|] eqn:Em; [|discriminate].
    destruct (p_lit (N.eqb c_dash) s3) as [s4|] eqn:L2; [|discriminate].
    destruct (p_day w s4) as [[dd s5]|] eqn:Ed; [|discriminate].
    destruct (p_lit (fun c => (c =? 84) || (c =? 116)) s5) as [s6|] eqn:L3; [|discriminate].
    destruct (p_hour w s6) as [[h s7]|] eqn:Eh; [|discriminate].
    destruct (p_lit (N.eqb c_colon) s7) as [s8|] eqn:L4; [|discriminate].
    destruct (p_min w s8) as [[mi s9]|] eqn:Ei; [|discriminate].
    destruct (p_lit (N.eqb c_colon) s9) as [s10|] eqn:L5; [|discriminate].
    destruct (p_sec w s10) as [[sec s11]|] eqn:Es; [|discriminate].
    destruct s11; [|discriminate].
    destruct ((1 <=? y) && (dd <=? month_days y mo) && (sec <=? 59)) eqn:V; [|discriminate].
    apply Some_inj in H. subst d.
    apply (year_reads w) in Ey as (ty & -> & Ty). apply (month_reads w) in Em as (tm & -> & Tm).
    apply (day_reads w) in Ed as (td & -> & Td). apply (hour_reads w) in Eh as (th & -> & Th).
    apply (min_reads w) in Ei as (ti & -> & Ti). apply (sec_reads w) in Es as (ts & -> & Ts).
    apply p_lit_spec in L1 as (c1 & -> & H1). apply p_lit_spec in L2 as (c2 & -> & H2).
    apply p_lit_spec in L3 as (c3 & -> & H3). apply p_lit_spec in L4 as (c4 & -> & H4).
    apply p_lit_spec in L5 as (c5 & -> & H5).
    apply N.eqb_eq in H1, H2, H4, H5. subst.
    apply andb_true_iff in V as [V V3]. apply andb_true_iff in V as [V1 V2].
    pose proof (month_text_range _ _ Tm) as Rm.
    exists ty, tm, td, th, ti, ts, c3. cbn [dt_year dt_month dt_day dt_hour dt_min dt_sec].
    split; [now rewrite app_nil_r|]. split; [lia|].
    do 5 (split; [assumption|]). split.
    { destruct Ts as [Ts|(_ & Ts)]; [assumption|lia]. }
    unfold valid_dt. cbn [dt_year dt_month dt_day dt_hour dt_min dt_sec]. repeat apply conj.
    + lia.
    + destruct Ty as (a & b & c & e & x & y' & z & u & _ & A & B & C & D & ->).
      apply decimal_range in A, B, C, D. lia.
    + destruct Td as [(_ & B)|[(_ & B)|[(_ & B)|[(c & _ & D & B)|(_ & B)]]]]; try clear D; lia.
    + exists (month_days y mo). split; [now apply month_days_spec|lia].
    + destruct Th as [(c & _ & D)|[(c & _ & D & B)|(_ & B)]]; [apply decimal_range in D|clear D|]; lia.
    + destruct Ti as [(c & _ & D)|(c & _ & D & B)]; [apply decimal_range in D|clear D]; lia.
    + lia.
  - intros (ty & tm & td & th & ti & ts & t & -> & Ht & Ty & Tm & Td & Th & Ti & Ts & V).
    destruct d as [y mo dd h mi sec]. cbn [dt_year dt_month dt_day dt_hour dt_min dt_sec] in *.
    unfold valid_dt in V. cbn [dt_year dt_month dt_day dt_hour dt_min dt_sec] in V.
    destruct V as (Vy & Vd & (n & Vn & Vdn) & Vh & Vi & Vs).
    assert (forall c r, sep c -> follows (c :: r)) as F by (intros c r S; right; eauto).
    assert (sep c_dash) as S1 by now left. assert (sep c_colon) as S2 by (right; right; now right).
    assert (sep t) as S3 by (unfold sep; intuition).
    rewrite (proj2 (year_reads w) _ _ _ Ty) by auto. cbn [p_lit]. rewrite N.eqb_refl.
    rewrite (proj2 (month_reads w) _ _ _ Tm) by auto. cbn [p_lit]. rewrite N.eqb_refl.
    rewrite (proj2 (day_reads w) _ _ _ Td) by auto. cbn [p_lit].
    replace ((t =? 84) || (t =? 116)) with true by lia.
    rewrite (proj2 (hour_reads w) _ _ _ Th) by auto. cbn [p_lit]. rewrite N.eqb_refl.
    rewrite (proj2 (min_reads w) _ _ _ Ti) by auto. cbn [p_lit]. rewrite N.eqb_refl.
    rewrite <- (app_nil_r ts).
    rewrite (proj2 (sec_reads w) _ _ _ (or_introl Ts)) by now left.
    pose proof (days_in_month_fun _ _ _ _ (month_days_spec y mo (month_text_range _ _ Tm)) Vn) as ->.
    now replace ((1 <=? y) && (dd <=? n) && (sec <=? 59)) with true by lia.
Qed.

Lemma getTimestamp_spec w s id d : getTimestamp w s id = Ok d <-> time_text w s d.
Proof.
  rewrite <- strptime_spec. unfold getTimestamp. destruct s as [|c s].
  - split; discriminate.
  - destruct (strptime w (c :: s)); split; intros H; congruence.
Qed.

Lemma getTimestamp_err w s id e : getTimestamp w s id = Err e -> e = MalformedReceipt id.
Proof. unfold getTimestamp. destruct s; [congruence|]. destruct (strptime w _); congruence. Qed.

(** ** Certificate serials and key IDs *)

Lemma py_int_letter w base c r :
  c < 127 -> ascii_space c = false -> c <> 43 -> c <> 45 -> c <> 48 -> c <> c_us ->
  digit_val base c = None -> py_int w base (c :: r) = None.
Proof.
  intros Hc Hs H1 H2 H3 H4 Hd. unfold py_int.
  assert (exists r', int_transform w (c :: r) = c :: r') as [r' ->].
  { unfold int_transform. destruct (is_ascii (c :: r)); [eauto|]. cbn [map].
    replace (c <? 127) with true by lia. eauto. }
  cbn [lstrip]. rewrite Hs.
  assert (int_sign (c :: r') = (false, c :: r')) as ->.
  { unfold int_sign, c_plus, c_dash. replace (c =? 43) with false by lia.
    now replace (c =? 45) with false by lia. }
  assert (int_prefix base (c :: r') = c :: r') as ->.
  { unfold int_prefix. destruct (base =? 16); [|reflexivity].
    destruct r'; [reflexivity|]. now replace (c =? 48) with false by lia. }
  cbn [int_digits]. rewrite Hd. now replace (c =? c_us) with false by lia.
Qed.

Lemma digit_val_letters base c : In c [83; 85; 71] -> digit_val base c = None.
Proof. cbn [In]. intros [<-|[<-|[<-|[]]]]; reflexivity. Qed.

Lemma py_int_key_id w base c r : In c [83; 85; 71] -> py_int w base (c :: r) = None.
Proof.
  intros H. pose proof (digit_val_letters base c H) as D. cbn [In] in H.
  apply py_int_letter; try assumption; destruct H as [<-|[<-|[<-|[]]]]; unfold c_us; try lia; reflexivity.
Qed.

Lemma number_not_key w s : number_text w s -> ~ key_body w s.
Proof.
  intros H K. assert (exists c r, s = c :: r /\ In c [83; 85; 71]) as (c & r & -> & Hc).
  { destruct K as [(b & -> & _)|[(b & -> & _)|(b & -> & _)]].
    - exists 83, (58 :: b). split; [reflexivity|cbn; auto].
    - exists 85, (58 :: b). split; [reflexivity|cbn; auto].
    - exists 71, (58 :: b). split; [reflexivity|cbn; auto]. }
  destruct H as [[z H]|[z H]]; now rewrite py_int_key_id in H.
Qed.

Lemma number_nonempty w s : number_text w s -> s <> [].
Proof. intros [[z H]|[z H]] ->; discriminate. Qed.

Lemma firstn2_eq (s : str) a b : firstn 2 s = [a; b] -> s = [a; b] ++ skipn 2 s.
Proof. intros H. rewrite <- (firstn_skipn 2 s) at 1. now rewrite H. Qed.

Lemma tax_spec w s :
  (List.length s =? 11)%nat && str_eqb (firstn 2 s) (lit "S:") && isdigit w (skipn 2 s) = true <-> tax_text w s.
Proof.
  rewrite !andb_true_iff, str_eqb_eq, Nat.eqb_eq. unfold tax_text. split.
  - intros ((L & F) & D). exists (skipn 2 s). split; [now apply firstn2_eq|]. split; [rewrite skipn_length; lia|assumption].
  - intros (b & -> & L & D). split; [split|]; [|reflexivity|assumption]. rewrite app_length, L. reflexivity.
Qed.

Lemma gln_spec w s :
  (List.length s =? 15)%nat && str_eqb (firstn 2 s) (lit "G:") && isdigit w (skipn 2 s) = true <-> gln_text w s.
Proof.
  rewrite !andb_true_iff, str_eqb_eq, Nat.eqb_eq. unfold gln_text. split.
  - intros ((L & F) & D). exists (skipn 2 s). split; [now apply firstn2_eq|]. split; [rewrite skipn_length; lia|assumption].
  - intros (b & -> & L & D). split; [split|]; [|reflexivity|assumption]. rewrite app_length, L. reflexivity.
Qed.

Lemma uid_spec w s :
  (3 <=? List.length s)%nat && (List.length s <=? 16)%nat && str_eqb (firstn 2 s) (lit "U:")
    && isalnum w (skipn 2 s) && str_eqb (skipn 2 s) (upper w (skipn 2 s)) = true <-> uid_text w s.
Proof.
  rewrite !andb_true_iff, !str_eqb_eq, !Nat.leb_le. unfold uid_text. split.
  - intros ((((L1 & L2) & F) & D) & U). exists (skipn 2 s). split; [now apply firstn2_eq|].
    split; [rewrite skipn_length; lia|]. split; [assumption|now symmetry].
  - intros (b & -> & L & D & U). rewrite app_length. change (skipn 2 (lit "U:" ++ b)) with b.
    change (List.length (lit "U:")) with 2%nat. repeat split; [lia|lia|assumption|now symmetry].
Qed.

Lemma serialTypeOfBody_spec w s :
  (serialTypeOfBody w s = T_TAX <-> tax_text w s) /\
  (serialTypeOfBody w s = T_UID <-> uid_text w s) /\
  (serialTypeOfBody w s = T_GLN <-> gln_text w s) /\
  (serialTypeOfBody w s = T_SERIAL <-> number_text w s).
Proof.
  unfold serialTypeOfBody.
  pose proof (tax_spec w s) as T. pose proof (uid_spec w s) as U. pose proof (gln_spec w s) as G.
  pose proof (number_not_key w s) as NK. unfold key_body in NK.
  assert (tax_text w s -> ~ uid_text w s /\ ~ gln_text w s) as X1.
  { intros (b & -> & _). split; intros (b' & E & _); discriminate. }
  assert (uid_text w s -> ~ gln_text w s) as X2.
  { intros (b & -> & _). intros (b' & E & _); discriminate. }
  cbv zeta.
  destruct ((List.length s =? 11)%nat && str_eqb (firstn 2 s) (lit "S:") && isdigit w (skipn 2 s)).
  { assert (tax_text w s) by tauto. repeat split; intros H'; try reflexivity; try discriminate; tauto. }
  destruct ((3 <=? List.length s)%nat && (List.length s <=? 16)%nat && str_eqb (firstn 2 s) (lit "U:")
    && isalnum w (skipn 2 s) && str_eqb (skipn 2 s) (upper w (skipn 2 s))).
  { assert (uid_text w s) by tauto. repeat split; intros H'; try reflexivity; try discriminate; tauto. }
  destruct ((List.length s =? 15)%nat && str_eqb (firstn 2 s) (lit "G:") && isdigit w (skipn 2 s)).
  { assert (gln_text w s) by tauto. repeat split; intros H'; try reflexivity; try discriminate; tauto. }
  assert (~ tax_text w s) by (intros X; apply T in X; discriminate).
  assert (~ uid_text w s) by (intros X; apply U in X; discriminate).
  assert (~ gln_text w s) by (intros X; apply G in X; discriminate).
  unfold number_text. destruct (py_int w 16 s) as [z|] eqn:E16.
  { repeat split; intros H'; try discriminate; try tauto. left. eauto. }
  destruct (py_int w 10 s) as [z|] eqn:E10.
  { repeat split; intros H'; try discriminate; try tauto. right. eauto. }
  repeat split; intros H'; try discriminate; try tauto.
  destruct H' as [[z H']|[z H']]; discriminate.
Qed.

Lemma serialTypeOfBody_key w s :
  key_body w s <-> In (serialTypeOfBody w s) [T_TAX; T_UID; T_GLN].
Proof.
  destruct (serialTypeOfBody_spec w s) as (T & U & G & _). unfold key_body. cbn [In].
  destruct (serialTypeOfBody w s); intuition congruence.
Qed.

Lemma isalnum_no_dash w x : isalnum w x = true -> ~ In c_dash x.
Proof.
  unfold isalnum. intros H Hin. apply andb_true_iff in H as [_ H]. rewrite forallb_forall in H.
  apply H in Hin. discriminate.
Qed.

Lemma type_with_dash w (T : list serial_type) (P : str -> Prop) s :
  ~ In T_INVALID T -> (forall b, P b <-> In (serialTypeOfBody w b) T) -> ~ P [] ->
  In (getCertSerialType w s) T <-> with_dash w P s.
Proof.
  intros NI HP NE. unfold getCertSerialType, with_dash.
  destruct s as [|c r].
  { split; [intros H; contradiction|]. intros (b & Hb & _ & [H|[H|(x & H & _)]]).
    - subst. contradiction.
    - discriminate.
    - destruct b; discriminate. }
  cbv zeta.
  destruct ((c =? c_dash) && negb (has_char c_dash r)) eqn:C.
  - apply andb_true_iff in C as [C1 C2]. apply N.eqb_eq in C1. subst c.
    apply negb_true_iff, has_char_false in C2. rewrite split_char_nosep by assumption.
    split.
    + intros H. exists r. apply HP in H. auto.
    + intros (b & Hb & Nb & [H|[H|(x & H & _)]]).
      * exfalso. apply Nb. subst b. now left.
      * injection H as ->. now apply HP.
      * destruct b as [|y b]; [contradiction|]. injection H as Hy H. exfalso. apply Nb. left. now symmetry.
  - split.
    + pose proof (split_char_no_sep c_dash (c :: r)) as NS.
      pose proof (join_split c_dash (c :: r)) as J.
      destruct (split_char c_dash (c :: r)) as [|a [|b [|]]]; try (intros H; contradiction).
      * cbn [join] in J. intros H. exists a. inversion NS; subst. apply HP in H. auto.
      * destruct (isalnum w b) eqn:A; [|intros H; contradiction].
        intros H. exists a. inversion NS; subst. apply HP in H. split; [assumption|]. split; [assumption|].
        right; right. exists b. split; [|assumption]. symmetry. exact J.
    + intros (b & Hb & Nb & [H|[H|(x & H & A)]]).
      * rewrite H. rewrite split_char_nosep by assumption. now apply HP.
      * injection H as -> ->. rewrite N.eqb_refl in C. cbn in C. apply negb_false_iff, has_char_true in C. contradiction.
      * rewrite H. rewrite split_char_app by assumption.
        rewrite split_char_nosep by (now apply isalnum_no_dash in A). rewrite A. now apply HP.
Qed.

Theorem key_id_spec w s : In (getCertSerialType w s) [T_TAX; T_UID; T_GLN] <-> key_id_text w s.
Proof.
  apply type_with_dash.
  - cbn. intuition discriminate.
  - intros b. apply serialTypeOfBody_key.
  - intros [(b & H & _)|[(b & H & _)|(b & H & _)]]; discriminate.
Qed.

Theorem cert_serial_spec w s : getCertSerialType w s = T_SERIAL <-> cert_serial_text w s.
Proof.
  unfold cert_serial_text. rewrite <- (type_with_dash w [T_SERIAL]).
  - cbn. intuition.
  - cbn. intuition discriminate.
  - intros b. destruct (serialTypeOfBody_spec w b) as (_ & _ & _ & H). rewrite <- H. cbn. intuition.
  - intros H. now apply number_nonempty in H.
Qed.
