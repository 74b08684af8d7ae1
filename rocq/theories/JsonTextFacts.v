(** Reading JSON texts: the scanner reads what the grammar says. *)
From Coq Require Import Floats.SpecFloat Lia ZifyClasses ZifyN ZifyNat ZifyBool.
From Verif Require Import PyBase World Codec PyFloat Json SpecKeys ListFacts IntFacts JsonText SpecJsonText.
Open Scope N_scope.

(** ** Digits *)

Lemma is_09_iff c : is_09 c = true <-> 48 <= c <= 57.
Proof. unfold is_09. lia. Qed.

Lemma dec_snoc s c : dec (s ++ [c]) = dec s * 10 + (c - 48).
Proof. unfold dec. now rewrite fold_left_app. Qed.

Lemma numeral_dec s n : numeral 10 s n <-> s <> [] /\ Forall (fun c => is_09 c = true) s /\ n = dec s.
Proof.
  split.
  - induction 1 as [c v D|s n c v H (E & F & ->) D]; unfold numeral_digit in D.
    + split; [discriminate|]. split; [constructor; [apply is_09_iff; lia|constructor]|]. cbn. lia.
    + split; [now destruct s|]. rewrite dec_snoc. split; [|f_equal; lia].
      apply Forall_app. split; [assumption|]. constructor; [apply is_09_iff; lia|constructor].
  - intros (E & F & ->). induction s as [|c s IH] using rev_ind; [contradiction|].
    apply Forall_app in F. destruct F as [F1 F2]. apply Forall_inv, is_09_iff in F2.
    assert (D : numeral_digit 10 c (c - 48)) by (unfold numeral_digit; lia).
    destruct s as [|d s]; [cbn; apply numeral_one; exact D|].
    rewrite dec_snoc. apply numeral_more; [apply IH; [discriminate|assumption]|exact D].
Qed.

Definition no_digit (r : str) : Prop := match r with c :: _ => is_09 c = false | [] => True end.

Lemma take_digits_app ds r : Forall (fun c => is_09 c = true) ds -> no_digit r -> take_digits (ds ++ r) = (ds, r).
Proof.
  intros F R. induction F as [|c ds E F IH].
  - destruct r as [|c r]; [reflexivity|]. cbn in *. now rewrite R.
  - cbn [take_digits app]. now rewrite E, IH.
Qed.

Lemma take_digits_sound s d r : take_digits s = (d, r) -> s = d ++ r /\ Forall (fun c => is_09 c = true) d.
Proof.
  revert d r. induction s as [|c s IH]; intros d r; cbn [take_digits].
  - intros H. injection H as <- <-. split; [reflexivity|constructor].
  - destruct (is_09 c) eqn:E.
    + destruct (take_digits s) as [d' r'] eqn:T. intros H. injection H as <- <-.
      destruct (IH _ _ eq_refl) as [-> F]. split; [reflexivity|]. now constructor.
    + intros H. injection H as <- <-. split; [reflexivity|constructor].
Qed.

(** ** Hexadecimal escapes *)

Lemma hex_digit_spec c v : hex_digit c = Some v <-> numeral_digit 16 c v.
Proof.
  rewrite <- digit_val_spec by lia. unfold digit_val. destruct (hex_digit c) as [d|] eqn:E; [|split; discriminate].
  assert (d < 16) by (unfold hex_digit, is_09 in E; repeat match type of E with context [if ?b then _ else _] => destruct b eqn:?; [apply Some_inj in E; lia|] end; discriminate).
  destruct (d <? 16) eqn:L; [reflexivity|lia].
Qed.

Lemma hex_text_iff h u : hex_text h u <-> exists a b c d, h = [a; b; c; d] /\ hex4 a b c d = Some u.
Proof.
  unfold hex_text, hex4. split.
  - intros [L H]. destruct h as [|a [|b [|c [|d [|]]]]]; try discriminate L. exists a, b, c, d. split; [reflexivity|].
    inversion H as [|s3 n3 d' v3 H3 D3 E3]; subst.
    change [a; b; c; d] with ([a; b; c] ++ [d]) in E3. apply app_inj_tail in E3. destruct E3 as [-> ->].
    inversion H3 as [|s2 n2 c' v2 H2 D2 E2]; subst.
    change [a; b; c] with ([a; b] ++ [c]) in E2. apply app_inj_tail in E2. destruct E2 as [-> ->].
    inversion H2 as [|s1 n1 b' v1 H1 D1 E1]; subst.
    change [a; b] with ([a] ++ [b]) in E1. apply app_inj_tail in E1. destruct E1 as [-> ->].
    inversion H1 as [a' v0 D0 E0|s0 n0 a' v0 H0 D0 E0]; subst.
    + apply hex_digit_spec in D0, D1, D2, D3. rewrite D0, D1, D2, D3. f_equal. lia.
    + apply numeral_nonempty in H0. destruct s0 as [|? [|]]; [contradiction| |]; discriminate E0.
  - intros (a & b & c & d & -> & H). split; [reflexivity|].
    destruct (hex_digit a) as [x|] eqn:A; [|discriminate]. destruct (hex_digit b) as [y|] eqn:B; [|discriminate].
    destruct (hex_digit c) as [z|] eqn:C; [|discriminate]. destruct (hex_digit d) as [v|] eqn:D; [|discriminate].
    apply Some_inj in H. subst u. apply hex_digit_spec in A, B, C, D.
    replace (x * 4096 + y * 256 + z * 16 + v) with (((x * 16 + y) * 16 + z) * 16 + v) by lia.
    apply (numeral_more 16 [a; b; c] _ d v); [|exact D]. apply (numeral_more 16 [a; b] _ c z); [|exact C].
    apply (numeral_more 16 [a] _ b y); [|exact B]. now apply numeral_one.
Qed.

Lemma high_iff u : high u = true <-> is_high u.
Proof. unfold high, is_high. lia. Qed.
Lemma low_iff u : low u = true <-> is_low u.
Proof. unfold low, is_low. lia. Qed.

Lemma simple_iff e c : simple_escape e = Some c <-> In (e, c) escapes.
Proof.
  unfold simple_escape, escapes. split.
  - repeat match goal with |- context [if ?b then _ else _] => destruct b eqn:? end; intros H; try discriminate;
      apply Some_inj in H; subst; match goal with H : (e =? _) = true |- _ => apply N.eqb_eq in H; subst e end;
      cbn [In]; auto 12.
  - cbn [In]. intros H. repeat (destruct H as [H|H]; [injection H as <- <-; reflexivity|]). contradiction.
Qed.

(** ** Strings *)

Lemma scan_code a b c d u r : hex4 a b c d = Some u ->
  (is_high u -> forall b1 b2 b3 b4 r', r = 92 :: 117 :: b1 :: b2 :: b3 :: b4 :: r' ->
     exists v, hex4 b1 b2 b3 b4 = Some v /\ low v = false) ->
  scan_string (92 :: 117 :: a :: b :: c :: d :: r) = cons_fst u (scan_string r).
Proof.
  intros H N. cbn [scan_string]. cbn [N.eqb Pos.eqb]. rewrite H. destruct (high u) eqn:E; [|reflexivity].
  apply high_iff in E. specialize (N E).
  destruct r as [|b0 [|x [|b1 [|b2 [|b3 [|b4 r]]]]]]; try reflexivity.
  destruct ((b0 =? 92) && (x =? 117)) eqn:Q; [|reflexivity].
  apply andb_prop in Q. destruct Q as [Q1 Q2]. apply N.eqb_eq in Q1, Q2. subst.
  destruct (N _ _ _ _ _ eq_refl) as (v & -> & ->). reflexivity.
Qed.

Lemma scan_pair a b c d u e f g h v r : hex4 a b c d = Some u -> is_high u -> hex4 e f g h = Some v -> is_low v ->
  scan_string (92 :: 117 :: a :: b :: c :: d :: 92 :: 117 :: e :: f :: g :: h :: r) = cons_fst (pair_code u v) (scan_string r).
Proof.
  intros H U G V. apply high_iff in U. apply low_iff in V. cbn [scan_string]. cbn [N.eqb Pos.eqb andb].
  now rewrite H, U, G, V.
Qed.

Lemma chars_u s t : chars s (92 :: 117 :: t) -> exists h u r, t = h ++ r /\ hex_text h u.
Proof.
  intros H. inversion H as [|c s' t' L Q1 Q2 C|e c s' t' I C|h u s' t' X NS C|h u g v s' t' X U G V C]; subst.
  - contradiction.
  - exfalso. cbn [In escapes] in I. repeat (destruct I as [I|I]; [discriminate I|]). contradiction.
  - exists h, u, t'. now split.
  - exists h, u, (lit "\u" ++ g ++ t'). now split.
Qed.

Lemma scan_string_complete s b : chars s b -> forall r, scan_string (b ++ 34 :: r) = Some (s, r).
Proof.
  induction 1 as [|c s t L Q1 Q2 C IH|e c s t I C IH|h u s t X NS C IH|h u g v s t X U G V C IH]; intros r.
  - reflexivity.
  - cbn [app scan_string]. destruct (c =? 34) eqn:E1; [lia|]. destruct (c =? 92) eqn:E2; [lia|].
    destruct (c <? 32) eqn:E3; [lia|]. now rewrite IH.
  - apply simple_iff in I. cbn [app scan_string]. cbn [N.eqb Pos.eqb].
    destruct (e =? 117) eqn:E; [apply N.eqb_eq in E; subst; discriminate I|]. now rewrite I, IH.
  - apply hex_text_iff in X. destruct X as (x1 & x2 & x3 & x4 & -> & X).
    change ((lit "\u" ++ [x1; x2; x3; x4] ++ t) ++ 34 :: r) with (92 :: 117 :: x1 :: x2 :: x3 :: x4 :: (t ++ 34 :: r)).
    rewrite (scan_code _ _ _ _ _ _ X), IH; [reflexivity|].
    intros U b1 b2 b3 b4 r' E.
    assert (T : exists t', t = 92 :: 117 :: t').
    { destruct t as [|y1 [|y2 t]]; cbn [app] in E; [discriminate E| |].
      - injection E as -> E _. discriminate E.
      - injection E as -> -> _. now exists t. }
    destruct T as [t' ->]. destruct (chars_u _ _ C) as (h & v & r2 & -> & X').
    pose proof X' as X2. apply hex_text_iff in X2. destruct X2 as (y1 & y2 & y3 & y4 & -> & X2).
    cbn [app] in E. injection E as <- <- <- <- _. exists v. split; [exact X2|].
    destruct (low v) eqn:V; [|reflexivity]. exfalso. apply NS. split; [exact U|].
    exists [y1; y2; y3; y4], v, r2. split; [reflexivity|]. split; [exact X'|]. now apply low_iff.
  - apply hex_text_iff in X. destruct X as (x1 & x2 & x3 & x4 & -> & X).
    apply hex_text_iff in G. destruct G as (y1 & y2 & y3 & y4 & -> & G).
    change ((lit "\u" ++ [x1; x2; x3; x4] ++ lit "\u" ++ [y1; y2; y3; y4] ++ t) ++ 34 :: r)
      with (92 :: 117 :: x1 :: x2 :: x3 :: x4 :: 92 :: 117 :: y1 :: y2 :: y3 :: y4 :: (t ++ 34 :: r)).
    rewrite (scan_pair _ _ _ _ _ _ _ _ _ _ _ X U G V), IH. reflexivity.
Qed.

Lemma cons_fst_Some c x s r : cons_fst c x = Some (s, r) -> exists s', s = c :: s' /\ x = Some (s', r).
Proof. destruct x as [[s' r']|]; [|discriminate]. cbn. intros H. injection H as <- <-. now exists s'. Qed.

Lemma scan_string_sound t : forall s r, scan_string t = Some (s, r) -> exists b, t = b ++ 34 :: r /\ chars s b.
Proof.
  remember (List.length t) as n eqn:En. assert (Hn : (List.length t <= n)%nat) by lia. clear En. revert t Hn.
  induction n as [|n IH]; intros t L s r H; (destruct t as [|c t]; [discriminate|]); [cbn in L; lia|].
  cbn [scan_string] in H. destruct (c =? 34) eqn:E1.
  { apply N.eqb_eq in E1. injection H as <- <-. subst. exists []. split; [reflexivity|constructor]. }
  destruct (c =? 92) eqn:E2.
  - apply N.eqb_eq in E2. subst c. destruct t as [|e t1]; [discriminate|].
    destruct (e =? 117) eqn:E3.
    + apply N.eqb_eq in E3. subst e. destruct t1 as [|x1 [|x2 [|x3 [|x4 t2]]]]; try discriminate.
      destruct (hex4 x1 x2 x3 x4) as [u|] eqn:X; [|discriminate].
      assert (XT : hex_text [x1; x2; x3; x4] u) by (apply hex_text_iff; now exists x1, x2, x3, x4).
      assert (single : ~ (is_high u /\ exists h v r', t2 = lit "\u" ++ h ++ r' /\ hex_text h v /\ is_low v) ->
        cons_fst u (scan_string t2) = Some (s, r) ->
        exists b, 92 :: 117 :: x1 :: x2 :: x3 :: x4 :: t2 = b ++ 34 :: r /\ chars s b).
      { intros NS Hs. apply cons_fst_Some in Hs. destruct Hs as (s' & -> & Hs).
        apply IH in Hs; [|cbn in L; lia]. destruct Hs as (b & -> & C).
        exists (lit "\u" ++ [x1; x2; x3; x4] ++ b). split; [reflexivity|]. apply chars_code; [exact XT| |exact C].
        intros [U (h & v & r' & -> & Y & V)]. apply NS. split; [exact U|]. exists h, v, (r' ++ 34 :: r).
        split; [now rewrite <- !app_assoc|]. now split. }
      destruct (high u) eqn:U.
      * destruct t2 as [|b0 [|x [|b1 [|b2 [|b3 [|b4 t3]]]]]]; try (apply single; [|exact H];
          intros [_ (h & v & r' & E & Y & V)]; apply hex_text_iff in Y; destruct Y as (? & ? & ? & ? & -> & _); discriminate E).
        destruct ((b0 =? 92) && (x =? 117)) eqn:Q.
        -- apply andb_prop in Q. destruct Q as [Q1 Q2]. apply N.eqb_eq in Q1, Q2. subst.
           destruct (hex4 b1 b2 b3 b4) as [v|] eqn:Y; [|discriminate]. destruct (low v) eqn:V.
           ++ apply cons_fst_Some in H. destruct H as (s' & -> & H). apply IH in H; [|cbn in L; lia].
              destruct H as (b & -> & C). exists (lit "\u" ++ [x1; x2; x3; x4] ++ lit "\u" ++ [b1; b2; b3; b4] ++ b).
              split; [reflexivity|]. apply high_iff in U. apply low_iff in V.
              apply (chars_pair [x1; x2; x3; x4] u [b1; b2; b3; b4] v s' b); try assumption.
              apply hex_text_iff. now exists b1, b2, b3, b4.
           ++ apply single; [|exact H]. intros [_ (h & v' & r' & E & Y' & V')]. apply hex_text_iff in Y'.
              destruct Y' as (y1 & y2 & y3 & y4 & -> & Y'). injection E as <- <- <- <- _. rewrite Y in Y'.
              apply Some_inj in Y'. subst. apply low_iff in V'. congruence.
        -- apply single; [|exact H]. intros [_ (h & v' & r' & E & Y' & V')]. injection E as -> -> _. discriminate Q.
      * apply single; [|exact H]. intros [U' _]. apply high_iff in U'. congruence.
    + destruct (simple_escape e) as [x|] eqn:X; [|discriminate]. apply simple_iff in X.
      apply cons_fst_Some in H. destruct H as (s' & -> & H). apply IH in H; [|cbn in L; lia].
      destruct H as (b & -> & C). exists (92 :: e :: b). split; [reflexivity|]. now apply chars_escape.
  - destruct (c <? 32) eqn:E3; [discriminate|]. apply cons_fst_Some in H. destruct H as (s' & -> & H).
    apply IH in H; [|cbn in L; lia]. destruct H as (b & -> & C). exists (c :: b). split; [reflexivity|].
    apply chars_plain; [lia|lia|lia|exact C].
Qed.

(** ** Blanks *)

Lemma is_ws_iff c : is_ws c = true <-> (c = 32 \/ c = 9 \/ c = 10 \/ c = 13).
Proof. unfold is_ws. lia. Qed.

Definition solid (s : str) : Prop := match s with c :: _ => is_ws c = false | [] => True end.

Lemma skip_ws_app a s : blank a -> solid s -> skip_ws (a ++ s) = s.
Proof.
  intros B S. induction B as [|c a E B IH].
  - destruct s as [|c s]; [reflexivity|]. cbn in *. now rewrite S.
  - cbn [app skip_ws]. apply is_ws_iff in E. now rewrite E.
Qed.

Lemma skip_ws_sound s : exists a, s = a ++ skip_ws s /\ blank a.
Proof.
  induction s as [|c s (a & E & B)].
  - exists []. split; [reflexivity|constructor].
  - cbn [skip_ws]. destruct (is_ws c) eqn:W.
    + exists (c :: a). split; [cbn [app]; now f_equal|]. constructor; [now apply is_ws_iff|exact B].
    + exists []. split; [reflexivity|constructor].
Qed.

(** ** Numbers *)

(** What follows a number *)
Definition follow (r : str) : Prop :=
  match r with c :: _ => is_09 c = false /\ c <> 46 /\ c <> 101 /\ c <> 69 | [] => True end.

Lemma follow_no_digit r : follow r -> no_digit r.
Proof. destruct r; cbn; tauto. Qed.

Lemma scan_int_complete neg ds n r : integer_digits ds -> numeral 10 ds n -> no_digit r ->
  scan_int (sign neg ++ ds ++ r) = Some (neg, ds, r).
Proof.
  intros I H R. apply numeral_dec in H. destruct H as (E & F & _).
  assert (G : forall s, s = ds ++ r -> match s with
    | c :: r0 => if c =? 48 then Some (neg, [c], r0) else if is_09 c then let (d, r') := take_digits s in Some (neg, d, r') else None
    | [] => None end = Some (neg, ds, r)).
  { intros s ->. destruct I as [->|(c & d & -> & C)]; [reflexivity|]. cbn [app].
    destruct (c =? 48) eqn:Ec; [lia|]. rewrite (Forall_inv F).
    change (c :: d ++ r) with ((c :: d) ++ r). now rewrite take_digits_app. }
  unfold scan_int. destruct neg; cbn [sign app].
  - cbn [N.eqb Pos.eqb]. now apply G.
  - destruct ds as [|c d]; [contradiction|]. cbn [app]. apply Forall_inv, is_09_iff in F.
    destruct (c =? 45) eqn:Ec; [lia|]. exact (G (c :: d ++ r) eq_refl).
Qed.

Lemma scan_frac_complete fs ft r : fraction fs ft -> ft <> [] -> no_digit r -> scan_frac (ft ++ r) = Some (fs, r).
Proof.
  intros [[_ ->]|[[n H] ->]] N R; [contradiction|]. apply numeral_dec in H. destruct H as (E & F & _).
  destruct fs as [|c fs]; [contradiction|]. cbn [app scan_frac]. cbn [N.eqb Pos.eqb andb]. rewrite (Forall_inv F).
  change (c :: fs ++ r) with ((c :: fs) ++ r). now rewrite take_digits_app.
Qed.

Lemma scan_frac_none r : follow r -> scan_frac r = None.
Proof.
  destruct r as [|c [|d r]]; try reflexivity. cbn [follow scan_frac]. intros (_ & H & _).
  destruct (c =? 46) eqn:E; [lia|reflexivity].
Qed.

Lemma scan_exp_none r : (match r with c :: _ => c <> 101 /\ c <> 69 | [] => True end) -> scan_exp r = None.
Proof.
  destruct r as [|c r]; [reflexivity|]. cbn [scan_exp]. intros (H & H').
  destruct (c =? 101) eqn:E; [lia|]. destruct (c =? 69) eqn:E'; [lia|reflexivity].
Qed.

Lemma exp_frac_none e et r : exponent e et -> et <> [] -> scan_frac (et ++ r) = None.
Proof.
  intros [[_ ->]|(c & p & ds & n & C & -> & _)] N; [contradiction|]. cbn [app].
  destruct C as [->| ->]; destruct ((p ++ ds) ++ r); reflexivity.
Qed.

Lemma scan_exp_complete x et r : exponent x et -> et <> [] -> no_digit r -> scan_exp (et ++ r) = Some (x, r).
Proof.
  intros [[_ ->]|(c & p & ds & n & C & -> & H & P)] N R; [contradiction|].
  apply numeral_dec in H. destruct H as (E & F & ->).
  cbn [app scan_exp]. replace ((c =? 101) || (c =? 69)) with true by lia. rewrite <- app_assoc.
  assert (T : take_digits (ds ++ r) = (ds, r)) by now apply take_digits_app.
  destruct P as [(-> & ->)|[(-> & ->)|(-> & ->)]]; cbn [app].
  - destruct ds as [|d ds]; [contradiction|]. cbn [app] in *. apply Forall_inv, is_09_iff in F.
    destruct (d =? 45) eqn:E1; [lia|]. destruct (d =? 43) eqn:E2; [lia|]. now rewrite T.
  - cbn [N.eqb Pos.eqb]. rewrite T. destruct ds; [contradiction|reflexivity].
  - cbn [N.eqb Pos.eqb]. rewrite T. destruct ds; [contradiction|reflexivity].
Qed.

Lemma decimal_iff neg m e x : decimal neg m e x <-> x = float_of_decimal neg m e.
Proof.
  unfold decimal, float_of_decimal. split.
  - intros [[-> ->]|(num & den & -> & A & B)]; [reflexivity|].
    destruct m as [|p]; [lia|]. change (Z.of_N (N.pos p)) with (Zpos p) in A. destruct e as [|q|q].
    + cbn in A, B. f_equal; lia.
    + replace (Z.max (Z.pos q) 0) with (Z.pos q) in A by lia. replace (Z.max (- Z.pos q) 0)%Z with 0%Z in B by lia.
      rewrite Z.pow_0_r in B. rewrite <- (Pos2Z.inj_pow 10 q), <- Pos2Z.inj_mul in A. f_equal; lia.
    + replace (Z.max (Z.neg q) 0) with 0%Z in A by lia. replace (Z.max (- Z.neg q) 0)%Z with (Z.pos q) in B by lia.
      rewrite Z.pow_0_r in A. rewrite <- (Pos2Z.inj_pow 10 q) in B. f_equal; lia.
  - intros ->. destruct m as [|p]; [left; split; reflexivity|right].
    destruct e as [|q|q].
    + exists p, 1%positive. repeat split. cbn. lia.
    + exists (p * 10 ^ q)%positive, 1%positive. split; [reflexivity|].
      replace (Z.max (Z.pos q) 0) with (Z.pos q) by lia. replace (Z.max (- Z.pos q) 0)%Z with 0%Z by lia.
      rewrite Z.pow_0_r, <- (Pos2Z.inj_pow 10 q). split; [|reflexivity]. change (Z.of_N (N.pos p)) with (Zpos p). lia.
    + exists p, (10 ^ q)%positive. split; [reflexivity|].
      replace (Z.max (Z.neg q) 0) with 0%Z by lia. replace (Z.max (- Z.neg q) 0)%Z with (Z.pos q) by lia.
      rewrite Z.pow_0_r, <- (Pos2Z.inj_pow 10 q). split; [|reflexivity]. change (Z.of_N (N.pos p)) with (Zpos p). lia.
Qed.

Lemma scan_number_int neg ds n r : integer_digits ds -> numeral 10 ds n -> follow r ->
  scan_number ((sign neg ++ ds) ++ r) = Some (JInt (if neg then - Z.of_N n else Z.of_N n)%Z, r).
Proof.
  intros I H R. unfold scan_number. rewrite <- app_assoc.
  rewrite (scan_int_complete neg ds n r I H (follow_no_digit _ R)), (scan_frac_none _ R), scan_exp_none.
  - apply numeral_dec in H. destruct H as (_ & _ & ->). reflexivity.
  - destruct r; cbn in *; tauto.
Qed.

Lemma scan_number_float x t r : float_number x t -> follow r -> scan_number (t ++ r) = Some (JFloat x, r).
Proof.
  intros (neg & ds & fs & ft & e & et & m & I & (n & H) & FT & ET & NE & -> & M & D) R.
  apply decimal_iff in D. subst x. apply numeral_dec in M. destruct M as (_ & _ & ->).
  assert (Re : forall u, et ++ r = u -> et <> [] -> no_digit u).
  { intros u <- Q. destruct ET as [[_ ->]|(c & p & ds' & n' & C & -> & _)]; [contradiction|]. cbn. destruct C as [->| ->]; reflexivity. }
  assert (Rx : no_digit (et ++ r)).
  { destruct et as [|c et]; [now apply follow_no_digit|]. now apply Re. }
  unfold scan_number. rewrite <- !app_assoc.
  assert (E : scan_int (sign neg ++ ds ++ ft ++ et ++ r) = Some (neg, ds, ft ++ et ++ r)).
  { apply (scan_int_complete neg ds n); try assumption. destruct FT as [[_ ->]|[_ ->]]; [exact Rx|reflexivity]. }
  rewrite E. destruct (list_eq_dec N.eq_dec ft []) as [Ef|Ef].
  - subst ft. cbn [app]. assert (Ee : et <> []) by (destruct NE as [NE|NE]; [contradiction|exact NE]).
    rewrite (exp_frac_none e et r ET Ee), (scan_exp_complete e et r ET Ee (follow_no_digit _ R)).
    destruct FT as [[-> _]|[_ FT]]; [|discriminate FT]. rewrite app_nil_r. cbn [List.length]. do 3 f_equal. f_equal. lia.
  - rewrite (scan_frac_complete fs ft (et ++ r) FT Ef Rx).
    destruct (list_eq_dec N.eq_dec et []) as [Ee|Ee].
    + subst et. cbn [app]. rewrite scan_exp_none by (destruct r; cbn in *; tauto).
      destruct ET as [[-> _]|(c & p & ds' & n' & C & ET & _)]; [|discriminate ET]. do 3 f_equal.
    + now rewrite (scan_exp_complete e et r ET Ee (follow_no_digit _ R)).
Qed.

Lemma scan_int_sound s neg ds r : scan_int s = Some (neg, ds, r) ->
  s = sign neg ++ ds ++ r /\ integer_digits ds /\ ds <> [] /\ Forall (fun c => is_09 c = true) ds.
Proof.
  assert (G : forall b s1, (match s1 with
    | c :: r0 => if c =? 48 then Some (b, [c], r0) else if is_09 c then let (d, r') := take_digits s1 in Some (b, d, r') else None
    | [] => None end = Some (neg, ds, r)) -> b = neg /\ s1 = ds ++ r /\ integer_digits ds /\ ds <> [] /\ Forall (fun c => is_09 c = true) ds).
  { intros b [|c s1] H; [discriminate|]. destruct (c =? 48) eqn:E.
    - apply N.eqb_eq in E. injection H as <- <- <-. subst. split; [reflexivity|]. split; [reflexivity|].
      split; [now left|]. split; [discriminate|]. constructor; [reflexivity|constructor].
    - destruct (is_09 c) eqn:D; [|discriminate]. destruct (take_digits (c :: s1)) as [d r'] eqn:T. injection H as <- <- <-.
      pose proof T as T'. apply take_digits_sound in T'. destruct T' as [E1 F]. cbn [take_digits] in T. rewrite D in T.
      destruct (take_digits s1) as [d1 r1]. injection T as <- <-. split; [reflexivity|]. split; [exact E1|].
      split; [right; exists c, d1; split; [reflexivity|lia]|]. split; [discriminate|exact F]. }
  unfold scan_int. destruct s as [|c s].
  - intros H. discriminate.
  - destruct (c =? 45) eqn:E; intros H; [apply (G true s) in H|apply (G false (c :: s)) in H]; destruct H as (<- & E1 & H).
    + apply N.eqb_eq in E. subst. split; [reflexivity|exact H].
    + split; [exact E1|exact H].
Qed.

Lemma scan_frac_sound s fs r : scan_frac s = Some (fs, r) -> s = (46 :: fs) ++ r /\ fraction fs (46 :: fs).
Proof.
  destruct s as [|p [|c s]]; try discriminate. cbn [scan_frac]. destruct ((p =? 46) && is_09 c) eqn:E; [|discriminate].
  intros H. apply Some_inj in H. apply andb_prop in E. destruct E as [E1 E2]. apply N.eqb_eq in E1. subst p.
  pose proof H as T. apply take_digits_sound in H. destruct H as [E F]. split; [cbn [app]; now rewrite E|].
  right. split; [|reflexivity]. exists (dec fs). apply numeral_dec. split; [|now split].
  cbn [take_digits] in T. rewrite E2 in T. destruct (take_digits s) as [a b]. injection T as <- <-. discriminate.
Qed.

Lemma scan_exp_sound s x r : scan_exp s = Some (x, r) -> exists t, s = t ++ r /\ t <> [] /\ exponent x t.
Proof.
  destruct s as [|c s]; [discriminate|]. cbn [scan_exp]. destruct ((c =? 101) || (c =? 69)) eqn:C; [|discriminate].
  assert (Hc : c = 101 \/ c = 69) by lia. clear C.
  assert (G : forall (b : bool) s1, match take_digits s1 with
      | ([], _) => None
      | (d, r') => Some ((if b then - Z.of_N (dec d) else Z.of_N (dec d))%Z, r') end = Some (x, r) ->
      exists ds, s1 = ds ++ r /\ numeral 10 ds (dec ds) /\ x = (if b then - Z.of_N (dec ds) else Z.of_N (dec ds))%Z).
  { intros b s1 H. destruct (take_digits s1) as [d r'] eqn:T. apply take_digits_sound in T. destruct T as [-> F].
    destruct d as [|y d]; [discriminate|]. injection H as <- <-. exists (y :: d). split; [reflexivity|].
    split; [|reflexivity]. apply numeral_dec. split; [discriminate|now split]. }
  destruct s as [|y s].
  - intros H. discriminate.
  - destruct (y =? 45) eqn:E1; [|destruct (y =? 43) eqn:E2]; intros H;
      [apply (G true s) in H|apply (G false s) in H|apply (G false (y :: s)) in H]; destruct H as (ds & E & ND & ->).
    + apply N.eqb_eq in E1. subst. exists (c :: [45] ++ ds). split; [reflexivity|]. split; [discriminate|].
      right. exists c, [45], ds, (dec ds). repeat (split; [assumption || reflexivity|]). right. right. now split.
    + apply N.eqb_eq in E2. subst. exists (c :: [43] ++ ds). split; [reflexivity|]. split; [discriminate|].
      right. exists c, [43], ds, (dec ds). repeat (split; [assumption || reflexivity|]). right. left. now split.
    + exists (c :: [] ++ ds). rewrite E. split; [reflexivity|]. split; [discriminate|].
      right. exists c, [], ds, (dec ds). repeat (split; [assumption || reflexivity|]). left. now split.
Qed.

Lemma scan_number_sound s v r : scan_number s = Some (v, r) -> exists t, s = t ++ r /\ text v t.
Proof.
  unfold scan_number. destruct (scan_int s) as [[[neg ds] r0]|] eqn:I; [|discriminate].
  apply scan_int_sound in I. destruct I as (-> & I & NE & F).
  assert (ND : numeral 10 ds (dec ds)) by (apply numeral_dec; now repeat split).
  destruct (scan_frac r0) as [[fs r1]|] eqn:FR.
  - apply scan_frac_sound in FR. destruct FR as [-> FR].
    assert (NF : numeral 10 (ds ++ fs) (dec (ds ++ fs))).
    { apply numeral_dec. split; [now destruct ds|]. split; [|reflexivity]. apply Forall_app. split; [exact F|].
      destruct FR as [[_ E]|[[n H] _]]; [discriminate E|]. apply numeral_dec in H. tauto. }
    destruct (scan_exp r1) as [[x r2]|] eqn:X.
    + apply scan_exp_sound in X. destruct X as (et & -> & Ne & X). intros H. injection H as <- <-.
      exists (sign neg ++ ds ++ (46 :: fs) ++ et). split; [now rewrite <- !app_assoc|]. apply text_float.
      exists neg, ds, fs, (46 :: fs), x, et, (dec (ds ++ fs)). split; [exact I|]. split; [now exists (dec ds)|].
      split; [exact FR|]. split; [exact X|]. split; [now left|]. split; [reflexivity|]. split; [exact NF|]. now apply decimal_iff.
    + intros H. injection H as <- <-.
      exists (sign neg ++ ds ++ (46 :: fs) ++ []). rewrite app_nil_r. split; [now rewrite <- !app_assoc|]. apply text_float.
      exists neg, ds, fs, (46 :: fs), 0%Z, [], (dec (ds ++ fs)). split; [exact I|]. split; [now exists (dec ds)|].
      split; [exact FR|]. split; [now left|]. split; [left; discriminate|]. split; [now rewrite app_nil_r|]. split; [exact NF|].
      apply decimal_iff. reflexivity.
  - destruct (scan_exp r0) as [[x r2]|] eqn:X.
    + apply scan_exp_sound in X. destruct X as (et & -> & Ne & X). intros H. injection H as <- <-.
      exists (sign neg ++ ds ++ [] ++ et). split; [now rewrite <- !app_assoc|]. apply text_float.
      exists neg, ds, [], [], x, et, (dec ds). split; [exact I|]. split; [now exists (dec ds)|].
      split; [now left|]. split; [exact X|]. split; [now right|]. split; [reflexivity|]. rewrite app_nil_r. split; [exact ND|].
      apply decimal_iff. cbn [List.length]. f_equal. lia.
    + intros H. injection H as <- <-. exists (sign neg ++ ds). split; [now rewrite <- app_assoc|]. now apply text_int.
Qed.

(** ** Literals *)

Lemma after_iff p s r : after p s = Some r <-> s = p ++ r.
Proof.
  revert s. induction p as [|c p IH]; intros s; cbn [after app].
  - split; [intros H; now apply Some_inj in H|now intros ->].
  - destruct s as [|d s]; [split; discriminate|]. destruct (c =? d) eqn:E.
    + apply N.eqb_eq in E. subst. rewrite IH. split; [now intros ->|intros H; now injection H].
    + split; [discriminate|]. intros H. injection H as -> _. rewrite N.eqb_refl in E. discriminate.
Qed.

Lemma scan_literal_sound l s v r : scan_literal l s = Some (v, r) ->
  (exists t, In (t, v) l /\ s = t ++ r) \/ scan_number s = Some (v, r).
Proof.
  induction l as [|[t v'] l IH]; cbn [scan_literal]; [now right|].
  destruct (after t s) as [r'|] eqn:A.
  - apply after_iff in A. intros H. injection H as <- <-. left. exists t. split; [now left|exact A].
  - intros H. apply IH in H. destruct H as [(t' & I & E)|H]; [left; exists t'; split; [now right|exact E]|now right].
Qed.

Lemma literal_text t v : In (t, v) literals -> text v t.
Proof.
  unfold literals. cbn [In]. intros H.
  repeat (destruct H as [H|H]; [injection H as <- <-; constructor|]). contradiction.
Qed.

Lemma scan_literal_number neg c r : is_09 c = true ->
  scan_literal literals (sign neg ++ c :: r) = scan_number (sign neg ++ c :: r).
Proof.
  intros H. apply is_09_iff in H. unfold literals.
  assert (G : forall p s, after p s = None -> forall l v, scan_literal ((p, v) :: l) s = scan_literal l s).
  { intros p s E l v. cbn [scan_literal]. now rewrite E. }
  assert (K : forall p, (match p with x :: y :: _ => x <> 45 /\ (x < 48 \/ 57 < x) | _ => False end) -> after p (sign neg ++ c :: r) = None).
  { intros [|x [|y p]] K; try contradiction. destruct neg; cbn [sign app after].
    - destruct (x =? 45) eqn:E; [lia|reflexivity].
    - destruct (x =? c) eqn:E; [lia|reflexivity]. }
  rewrite !G; [reflexivity| |apply K; cbn; lia..].
  destruct neg; cbn [sign app].
  - change (lit "-Infinity") with (45 :: 73 :: lit "nfinity"). cbn [after]. rewrite N.eqb_refl.
    destruct (73 =? c) eqn:E; [lia|reflexivity].
  - change (lit "-Infinity") with (45 :: 73 :: lit "nfinity"). cbn [after].
    destruct (45 =? c) eqn:E; [lia|reflexivity].
Qed.

(** ** Values *)

Scheme text_ind2 := Induction for text Sort Prop
  with items_ind2 := Induction for items Sort Prop
  with members_ind2 := Induction for members Sort Prop
  with member_ind2 := Induction for member_text Sort Prop.
Combined Scheme text_mutual from text_ind2, items_ind2, members_ind2, member_ind2.

Lemma quoted_start k q : quoted k q -> exists q', q = 34 :: q' /\ forall r, scan_string (q' ++ r) = Some (k, r).
Proof.
  intros (b & -> & C). exists (b ++ [34]). split; [reflexivity|]. intros r. rewrite <- app_assoc. cbn [app].
  now apply scan_string_complete.
Qed.

Lemma number_start (neg : bool) ds n : numeral 10 ds n -> exists c d, ds = c :: d /\ is_09 c = true.
Proof. intros H. apply numeral_dec in H. destruct H as (E & F & _). destruct ds as [|c d]; [contradiction|]. exists c, d. split; [reflexivity|exact (Forall_inv F)]. Qed.

(** First characters *)
Definition starts_value (c : N) : Prop := is_ws c = false /\ c <> 93 /\ c <> 125 /\ c <> 44.
Lemma sign_starts neg c r : is_09 c = true -> exists x y, sign neg ++ c :: r = x :: y /\ starts_value x /\ x <> 34 /\ x <> 123 /\ x <> 91.
Proof.
  intros H. apply is_09_iff in H. destruct neg; cbn [sign app].
  - exists 45, (c :: r). split; [reflexivity|]. unfold starts_value, is_ws. lia.
  - exists c, r. split; [reflexivity|]. unfold starts_value, is_ws. lia.
Qed.

Lemma text_starts v t : text v t -> exists c r, t = c :: r /\ starts_value c.
Proof.
  intros H. inversion H as [| | | | | |neg ds n I ND|x t' FN|s t' Q|b B|l t' I|b B|l t' I]; subst;
    try (eexists _, _; split; [reflexivity|]; unfold starts_value; repeat split; discriminate).
  - destruct (number_start neg _ _ ND) as (c & d & -> & C). destruct (sign_starts neg c d C) as (x & y & E & S & _). now exists x, y.
  - destruct FN as (neg & ds & fs & ft & e & et & m & _ & (n & ND) & _ & _ & _ & -> & _).
    destruct (number_start neg _ _ ND) as (c & d & -> & C). destruct (sign_starts neg c (d ++ ft ++ et) C) as (x0 & y & E & S & _).
    exists x0, y. now split.
  - destruct Q as (b & -> & _). exists 34, (b ++ [34]). split; [reflexivity|]. unfold starts_value. repeat split; discriminate.
Qed.

Lemma text_solid v t r : text v t -> solid (t ++ r).
Proof. intros H. apply text_starts in H. destruct H as (c & t' & -> & (S & _)). exact S. Qed.

Lemma blank_app a b : blank a -> blank b -> blank (a ++ b).
Proof. intros A B. apply Forall_app. now split. Qed.

Lemma blank_follow b c r : blank b -> is_09 c = false -> c <> 46 -> c <> 101 -> c <> 69 -> follow (b ++ c :: r).
Proof.
  intros B C1 C2 C3 C4. destruct B as [|x b E B]; cbn; [now repeat split|]. unfold is_09. lia.
Qed.
Lemma blank_follow_nil b : blank b -> follow b.
Proof. intros B. destruct B as [|x b E B]; cbn; [exact I|]. unfold is_09. lia. Qed.

Lemma scan_value_number f neg c r : is_09 c = true -> scan_value (S f) (sign neg ++ c :: r) = scan_number (sign neg ++ c :: r).
Proof.
  intros H. rewrite <- (scan_literal_number neg c r H). destruct (sign_starts neg c r H) as (x & y & -> & _ & E1 & E2 & E3).
  cbn [scan_value]. destruct (x =? 34) eqn:Q1; [lia|]. destruct (x =? 123) eqn:Q2; [lia|]. destruct (x =? 91) eqn:Q3; [lia|reflexivity].
Qed.

Theorem scan_complete :
  (forall v t, text v t -> forall f r, follow r -> (2 * List.length t <= f)%nat -> scan_value f (t ++ r) = Some (v, r))
  /\ (forall l t, items l t -> forall f r, (2 * List.length t + 1 <= f)%nat ->
        scan_items f (skip_ws (t ++ 93 :: r)) = Some (l, r) /\ exists c r', skip_ws (t ++ 93 :: r) = c :: r' /\ c <> 93)
  /\ (forall l t, members l t -> forall f r, (2 * List.length t + 1 <= f)%nat ->
        scan_members f (skip_ws (t ++ 125 :: r)) = Some (l, r) /\ exists r', skip_ws (t ++ 125 :: r) = 34 :: r')
  /\ (forall k v m, member_text k v m -> forall r, exists r', skip_ws (m ++ r) = 34 :: r' /\
        exists r0 r1 t d, scan_string r' = Some (k, r0) /\ skip_ws r0 = 58 :: r1 /\ skip_ws r1 = t ++ d ++ r /\ text v t /\ blank d
          /\ (List.length t + 1 <= List.length m)%nat
          /\ forall f r2, follow r2 -> (2 * List.length t <= f)%nat -> scan_value f (t ++ r2) = Some (v, r2)).
Proof.
  apply text_mutual.
  - intros f r R L. destruct f as [|f]; [cbn in L; lia|]. reflexivity.
  - intros f r R L. destruct f as [|f]; [cbn in L; lia|]. reflexivity.
  - intros f r R L. destruct f as [|f]; [cbn in L; lia|]. reflexivity.
  - intros f r R L. destruct f as [|f]; [cbn in L; lia|]. reflexivity.
  - intros f r R L. destruct f as [|f]; [cbn in L; lia|]. reflexivity.
  - intros f r R L. destruct f as [|f]; [cbn in L; lia|]. reflexivity.
  - intros neg ds n I ND f r R L. pose proof ND as ND'. destruct (number_start neg _ _ ND') as (c & d & E & C).
    destruct f as [|f]; [subst; rewrite app_length in L; cbn in L; lia|].
    rewrite <- (scan_number_int neg ds n r I ND R), E, <- app_assoc. now apply scan_value_number.
  - intros x t FN f r R L. rewrite <- (scan_number_float x t r FN R).
    destruct FN as (neg & ds & fs & ft & e & et & m & _ & (n & ND) & _ & _ & _ & -> & _).
    destruct (number_start neg _ _ ND) as (c & d & -> & C).
    destruct f as [|f]; [rewrite !app_length in L; cbn in L; lia|].
    rewrite <- app_assoc. cbn [app]. now apply scan_value_number.
  - intros s t Q f r R L. apply quoted_start in Q. destruct Q as (q & -> & Q). destruct f as [|f]; [cbn in L; lia|].
    cbn [app scan_value]. cbn [N.eqb Pos.eqb]. now rewrite Q.
  - intros b B f r R L. destruct f as [|f]; [cbn in L; lia|]. rewrite <- !app_assoc. cbn [app scan_value]. cbn [N.eqb Pos.eqb].
    now rewrite skip_ws_app.
  - intros l t I IH f r R L. destruct f as [|f]; [cbn in L; lia|]. rewrite <- !app_assoc. cbn [app scan_value]. cbn [N.eqb Pos.eqb].
    cbn [app List.length] in L. rewrite app_length in L. cbn [List.length] in L.
    destruct (IH f r ltac:(lia)) as (E & c & r' & E' & C). rewrite E' in *. destruct (c =? 93) eqn:Q; [lia|]. now rewrite E.
  - intros b B f r R L. destruct f as [|f]; [cbn in L; lia|]. rewrite <- !app_assoc. cbn [app scan_value]. cbn [N.eqb Pos.eqb].
    now rewrite skip_ws_app.
  - intros l t I IH f r R L. destruct f as [|f]; [cbn in L; lia|]. rewrite <- !app_assoc. cbn [app scan_value]. cbn [N.eqb Pos.eqb].
    cbn [app List.length] in L. rewrite app_length in L. cbn [List.length] in L.
    destruct (IH f r ltac:(lia)) as (E & r' & E'). rewrite E' in *. cbn [N.eqb Pos.eqb]. now rewrite E.
  - intros v a t b A T IH B f r L. rewrite !app_length in L. destruct f as [|f]; [lia|]. rewrite <- !app_assoc.
    rewrite skip_ws_app by (assumption || now apply (text_solid v)). split.
    + cbn [scan_items]. rewrite IH; [|apply blank_follow; (assumption || reflexivity || discriminate)|lia].
      rewrite skip_ws_app by (assumption || reflexivity). reflexivity.
    + destruct (text_starts _ _ T) as (c & t' & -> & S). exists c, (t' ++ b ++ 93 :: r). split; [reflexivity|apply S].
  - intros v a t b l t2 A T IH B I IHl f r L. rewrite !app_length in L. cbn [List.length] in L. destruct f as [|f]; [lia|].
    rewrite <- !app_assoc. rewrite skip_ws_app by (assumption || now apply (text_solid v)). split.
    + cbn [scan_items]. cbn [app]. rewrite IH; [|apply blank_follow; (assumption || reflexivity || discriminate)|lia].
      rewrite skip_ws_app by (assumption || reflexivity). cbn [N.eqb Pos.eqb].
      destruct (IHl f r ltac:(lia)) as [-> _]. reflexivity.
    + destruct (text_starts _ _ T) as (c & t' & -> & S). eexists c, _. split; [reflexivity|apply S].
  - intros k v m M IH f r L. destruct f as [|f]; [lia|].
    destruct (IH (125 :: r)) as (r' & E & r0 & r1 & t & d & E1 & E2 & E3 & T & D & Lt & V). rewrite E. split; [|now exists r'].
    cbn [scan_members]. cbn [N.eqb Pos.eqb]. rewrite E1, E2. cbn [N.eqb Pos.eqb]. rewrite E3.
    rewrite V; [|apply blank_follow; (assumption || reflexivity || discriminate)|lia].
    rewrite skip_ws_app by (assumption || reflexivity). reflexivity.
  - intros k v m l t2 M IH I IHl f r L. rewrite !app_length in L. cbn [List.length] in L. destruct f as [|f]; [lia|].
    rewrite <- !app_assoc.
    destruct (IH ([44] ++ t2 ++ 125 :: r)) as (r' & E & r0 & r1 & t & d & E1 & E2 & E3 & T & D & Lt & V). rewrite E. split; [|now exists r'].
    cbn [scan_members]. cbn [N.eqb Pos.eqb]. rewrite E1, E2. cbn [N.eqb Pos.eqb]. rewrite E3. cbn [app].
    rewrite V; [|apply blank_follow; (assumption || reflexivity || discriminate)|lia].
    rewrite skip_ws_app by (assumption || reflexivity). cbn [N.eqb Pos.eqb].
    destruct (IHl f r ltac:(lia)) as [-> _]. reflexivity.
  - intros k v a q b c t d A Q B C T IH D r. apply quoted_start in Q. destruct Q as (q' & -> & Q).
    exists (q' ++ b ++ [58] ++ c ++ t ++ d ++ r). split.
    { rewrite <- !app_assoc. cbn [app]. rewrite skip_ws_app by (assumption || reflexivity). now rewrite <- ?app_assoc. }
    exists (b ++ [58] ++ c ++ t ++ d ++ r), (c ++ t ++ d ++ r), t, d. split; [apply Q|].
    split; [now rewrite skip_ws_app|]. split; [apply skip_ws_app; [exact C|now apply (text_solid v)]|].
    split; [exact T|]. split; [exact D|]. split; [rewrite !app_length; cbn [List.length]; lia|exact IH].
Qed.

Lemma items_blank l t a : blank a -> items l t -> items l (a ++ t).
Proof.
  intros A H. destruct H as [v b t c B T C|v b t c l r B T C I].
  - rewrite app_assoc. apply items_one; [now apply blank_app|exact T|exact C].
  - replace (a ++ (b ++ t ++ c) ++ [44] ++ r) with (((a ++ b) ++ t ++ c) ++ [44] ++ r) by now rewrite <- !app_assoc.
    apply items_more; [now apply blank_app|assumption..].
Qed.
Lemma member_blank k v t a : blank a -> member_text k v t -> member_text k v (a ++ t).
Proof.
  intros A H. destruct H as [k v b q c d t e B Q C D T E]. rewrite app_assoc. apply member_of; try assumption. now apply blank_app.
Qed.
Lemma members_blank l t a : blank a -> members l t -> members l (a ++ t).
Proof.
  intros A H. destruct H as [k v m M|k v m l r M I].
  - apply members_one. now apply member_blank.
  - rewrite app_assoc. apply members_more; [now apply member_blank|exact I].
Qed.

Theorem scan_sound f :
  (forall s v r, scan_value f s = Some (v, r) -> exists t, s = t ++ r /\ text v t)
  /\ (forall s l r, scan_items f s = Some (l, r) -> exists t, s = t ++ 93 :: r /\ items l t)
  /\ (forall s l r, scan_members f s = Some (l, r) -> exists t, s = t ++ 125 :: r /\ members l t).
Proof.
  induction f as [|f (IHv & IHi & IHm)]; [repeat split; discriminate|]. split; [|split].
  - intros s v r. cbn [scan_value]. destruct s as [|c s]; [discriminate|]. destruct (c =? 34) eqn:C1.
    { apply N.eqb_eq in C1. subst c. destruct (scan_string s) as [[t r']|] eqn:S; [|discriminate]. intros H. injection H as <- <-.
      apply scan_string_sound in S. destruct S as (b & -> & C). exists ([34] ++ b ++ [34]). split; [cbn [app]; now rewrite <- app_assoc|].
      apply text_string. now exists b. }
    destruct (c =? 123) eqn:C2.
    { apply N.eqb_eq in C2. subst c. destruct (skip_ws_sound s) as (a & E & A). destruct (skip_ws s) as [|d r'] eqn:W; [discriminate|].
      destruct (d =? 125) eqn:D.
      - apply N.eqb_eq in D. subst d. intros H. injection H as <- <-. exists ([123] ++ a ++ [125]). rewrite E.
        split; [cbn [app]; now rewrite <- app_assoc|]. now apply text_dict_nil.
      - destruct (scan_members f (d :: r')) as [[m r2]|] eqn:M; [|discriminate]. intros H. injection H as <- <-.
        apply IHm in M. destruct M as (t & Et & M). exists ([123] ++ (a ++ t) ++ [125]). rewrite E, Et.
        split; [cbn [app]; now rewrite <- !app_assoc|]. apply text_dict. now apply members_blank. }
    destruct (c =? 91) eqn:C3.
    { apply N.eqb_eq in C3. subst c. destruct (skip_ws_sound s) as (a & E & A). destruct (skip_ws s) as [|d r'] eqn:W; [discriminate|].
      destruct (d =? 93) eqn:D.
      - apply N.eqb_eq in D. subst d. intros H. injection H as <- <-. exists ([91] ++ a ++ [93]). rewrite E.
        split; [cbn [app]; now rewrite <- app_assoc|]. now apply text_list_nil.
      - destruct (scan_items f (d :: r')) as [[m r2]|] eqn:M; [|discriminate]. intros H. injection H as <- <-.
        apply IHi in M. destruct M as (t & Et & M). exists ([91] ++ (a ++ t) ++ [93]). rewrite E, Et.
        split; [cbn [app]; now rewrite <- !app_assoc|]. apply text_list. now apply items_blank. }
    intros H. apply scan_literal_sound in H. destruct H as [(t & I & E)|H].
    + exists t. split; [exact E|now apply literal_text].
    + now apply scan_number_sound.
  - intros s l r. cbn [scan_items]. destruct (scan_value f s) as [[v r0]|] eqn:V; [|discriminate].
    apply IHv in V. destruct V as (t & -> & T). destruct (skip_ws_sound r0) as (b & E & B). destruct (skip_ws r0) as [|c r1]; [discriminate|].
    destruct (c =? 93) eqn:C1.
    { apply N.eqb_eq in C1. subst c. intros H. injection H as <- <-. exists ([] ++ t ++ b). rewrite E.
      split; [cbn [app]; now rewrite <- app_assoc|]. apply items_one; [constructor|assumption..]. }
    destruct (c =? 44) eqn:C2; [|discriminate]. apply N.eqb_eq in C2. subst c.
    destruct (scan_items f (skip_ws r1)) as [[l' r2]|] eqn:I; [|discriminate]. intros H. injection H as <- <-.
    apply IHi in I. destruct I as (t' & E' & I). destruct (skip_ws_sound r1) as (a & E1 & A). rewrite E' in E1.
    exists (([] ++ t ++ b) ++ [44] ++ (a ++ t')). rewrite E, E1. split; [cbn [app]; rewrite <- !app_assoc; cbn [app]; now rewrite <- ?app_assoc|].
    apply items_more; [constructor|exact T|exact B|]. now apply items_blank.
  - intros s l r. cbn [scan_members]. destruct s as [|q s]; [discriminate|]. destruct (q =? 34) eqn:Q; [|discriminate].
    apply N.eqb_eq in Q. subst q. destruct (scan_string s) as [[k r0]|] eqn:S; [|discriminate].
    apply scan_string_sound in S. destruct S as (kb & -> & K). destruct (skip_ws_sound r0) as (b & E0 & B).
    destruct (skip_ws r0) as [|c0 r1]; [discriminate|]. destruct (c0 =? 58) eqn:C0; [|discriminate]. apply N.eqb_eq in C0. subst c0.
    destruct (skip_ws_sound r1) as (c & E1 & C). destruct (scan_value f (skip_ws r1)) as [[v r2]|] eqn:V; [|discriminate].
    apply IHv in V. destruct V as (t & Et & T). destruct (skip_ws_sound r2) as (d & E2 & D).
    destruct (skip_ws r2) as [|x r3]; [discriminate|].
    assert (M : member_text k v ([] ++ ([34] ++ kb ++ [34]) ++ b ++ [58] ++ c ++ t ++ d)).
    { apply member_of; [constructor|now exists kb|assumption..]. }
    assert (E : 34 :: kb ++ 34 :: r0 = ([] ++ ([34] ++ kb ++ [34]) ++ b ++ [58] ++ c ++ t ++ d) ++ x :: r3).
    { rewrite E0, E1, Et, E2. cbn [app]. rewrite <- !app_assoc. cbn [app]. now rewrite <- ?app_assoc. }
    rewrite E. destruct (x =? 125) eqn:C1.
    { apply N.eqb_eq in C1. subst x. intros H. injection H as <- <-. eexists. split; [reflexivity|]. now apply members_one. }
    destruct (x =? 44) eqn:C2; [|discriminate]. apply N.eqb_eq in C2. subst x.
    destruct (scan_members f (skip_ws r3)) as [[l' r4]|] eqn:I; [|discriminate]. intros H. injection H as <- <-.
    apply IHm in I. destruct I as (t' & E' & I). destruct (skip_ws_sound r3) as (a & E3 & A). rewrite E' in E3.
    exists (([] ++ ([34] ++ kb ++ [34]) ++ b ++ [58] ++ c ++ t ++ d) ++ [44] ++ (a ++ t')). rewrite E3.
    split; [rewrite <- !app_assoc; reflexivity|]. apply members_more; [exact M|]. now apply members_blank.
Qed.

Theorem loads_iff v t : loads t = Some v <-> document v t.
Proof.
  unfold loads, document. split.
  - destruct (scan_value _ (skip_ws t)) as [[v' r]|] eqn:V; [|discriminate]. destruct (skip_ws r) eqn:W; [|discriminate].
    intros H. apply Some_inj in H. subst v'. apply (proj1 (scan_sound _)) in V. destruct V as (b & E & T).
    destruct (skip_ws_sound t) as (a & Ea & A). destruct (skip_ws_sound r) as (c & Ec & C). rewrite W, app_nil_r in Ec. subst r.
    exists a, b, c. rewrite <- E. now repeat split.
  - intros (a & b & c & -> & A & T & C). rewrite skip_ws_app by (assumption || now apply (text_solid v)).
    rewrite (proj1 scan_complete _ _ T).
    + rewrite <- (app_nil_r c), skip_ws_app; [reflexivity|exact C|exact I].
    + now apply blank_follow_nil.
    + rewrite !app_length. lia.
Qed.
