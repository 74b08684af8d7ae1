(** Integers as texts: [int(s, base)], ['%x' % n]. *)
From Coq Require Import Lia ZifyClasses ZifyN ZifyNat ZifyBool.
From Verif Require Import PyBase World Codec ListFacts CodecFacts SpecKeys.
Open Scope N_scope.

Lemma digit_val_spec base c v : base <= 16 -> (digit_val base c = Some v <-> numeral_digit base c v).
Proof.
  intros B. unfold digit_val, hex_digit, numeral_digit, is_09. split.
  - destruct ((48 <=? c) && (c <=? 57)) eqn:E1.
    { destruct (c - 48 <? base) eqn:E; [|discriminate]. intros H. apply Some_inj in H. subst. lia. }
    destruct ((97 <=? c) && (c <=? 102)) eqn:E2.
    { destruct (c - 87 <? base) eqn:E; [|discriminate]. intros H. apply Some_inj in H. subst. lia. }
    destruct ((65 <=? c) && (c <=? 70)) eqn:E3; [|discriminate].
    destruct (c - 55 <? base) eqn:E; [|discriminate]. intros H. apply Some_inj in H. subst. lia.
  - intros [[(A & ->)|[(A & ->)|(A & ->)]] L].
    + replace ((48 <=? v + 48) && (v + 48 <=? 57)) with true by lia.
      replace (v + 48 - 48) with v by lia. now replace (v <? base) with true by lia.
    + replace ((48 <=? v + 87) && (v + 87 <=? 57)) with false by lia.
      replace ((97 <=? v + 87) && (v + 87 <=? 102)) with true by lia.
      replace (v + 87 - 87) with v by lia. now replace (v <? base) with true by lia.
    + replace ((48 <=? v + 55) && (v + 55 <=? 57)) with false by lia.
      replace ((97 <=? v + 55) && (v + 55 <=? 102)) with false by lia.
      replace ((65 <=? v + 55) && (v + 55 <=? 70)) with true by lia.
      replace (v + 55 - 55) with v by lia. now replace (v <? base) with true by lia.
Qed.

(** ** Reading plain numerals *)

Lemma int_digits_numeral base s n : base <= 16 -> numeral base s n -> forall prev rest,
  int_digits base 0 prev (s ++ rest) = int_digits base n true rest.
Proof.
  intros B H. induction H as [c v D|s n c v H IH D]; intros prev rest.
  - cbn [app int_digits]. apply (digit_val_spec _ _ _ B) in D. now rewrite D.
  - rewrite <- app_assoc. cbn [app]. rewrite IH. cbn [int_digits]. apply (digit_val_spec _ _ _ B) in D. now rewrite D.
Qed.

Lemma numeral_digits base s n : numeral base s n -> Forall (fun c => exists v, numeral_digit base c v) s.
Proof.
  induction 1; [constructor; eauto|]. apply Forall_app. split; [assumption|]. constructor; eauto.
Qed.

Lemma numeral_nonempty base s n : numeral base s n -> s <> [].
Proof. intros [|]; [discriminate|]. now destruct s0. Qed.

Lemma numeral_ascii base s n : numeral base s n -> is_ascii s = true.
Proof.
  intros H. apply numeral_digits in H. unfold is_ascii. apply forallb_forall. rewrite Forall_forall in H.
  intros x Hx. apply H in Hx as (v & [[(A & _)|[(A & _)|(A & _)]] _]); lia.
Qed.

Lemma numeral_start base s n : numeral base s n -> forall w,
  int_sign (lstrip ascii_space (int_transform w s)) = (false, s)
  /\ int_sign (lstrip ascii_space (int_transform w (c_dash :: s))) = (true, s)
  /\ int_prefix base s = s.
Proof.
  intros H w. pose proof (numeral_ascii _ _ _ H) as A. pose proof (numeral_nonempty _ _ _ H) as E.
  pose proof (numeral_digits _ _ _ H) as D.
  assert (is_ascii (c_dash :: s) = true) as A' by (cbn [is_ascii forallb]; exact A).
  unfold int_transform. rewrite A, A'. destruct s as [|c s]; [contradiction|]. apply Forall_cons_iff in D as [(v & D & _) Ds].
  split; [|split].
  - cbn [lstrip]. unfold ascii_space. replace (((9 <=? c) && (c <=? 13)) || (c =? 32)) with false by lia.
    unfold int_sign, c_plus, c_dash. replace (c =? 43) with false by lia. now replace (c =? 45) with false by lia.
  - reflexivity.
  - unfold int_prefix. destruct (base =? 16); [|reflexivity]. destruct s as [|x s]; [reflexivity|].
    apply Forall_cons_iff in Ds as [(v' & D' & _) _].
    replace ((x =? 120) || (x =? 88)) with false by lia. now rewrite andb_false_r.
Qed.

Theorem py_int_numeral w base s n : base <= 16 -> numeral base s n -> py_int w base s = Some (Z.of_N n).
Proof.
  intros B H. destruct (numeral_start _ _ _ H w) as (E1 & _ & E2). unfold py_int. rewrite E1, E2.
  rewrite <- (app_nil_r s), (int_digits_numeral _ _ _ B H). reflexivity.
Qed.

Lemma py_int_negative w base s n : base <= 16 -> numeral base s n -> py_int w base (c_dash :: s) = Some (- Z.of_N n)%Z.
Proof.
  intros B H. destruct (numeral_start _ _ _ H w) as (_ & E1 & E2). unfold py_int. rewrite E1, E2.
  rewrite <- (app_nil_r s), (int_digits_numeral _ _ _ B H). reflexivity.
Qed.

(** ** Printing numbers *)

Lemma hex_char_digit base d : base <= 16 -> d < base -> numeral_digit base (hex_char d) d.
Proof. intros B L. unfold numeral_digit, hex_char. destruct (d <? 10) eqn:E; lia. Qed.

Lemma numeral_digit_fun base c v v' : numeral_digit base c v -> numeral_digit base c v' -> v = v'.
Proof. unfold numeral_digit. lia. Qed.

(** A digit in front of [k] digits. *)
Lemma digits_fuel_spec base : 2 <= base <= 16 -> forall fuel n acc,
  n < base ^ N.of_nat fuel -> n <> 0 \/ fuel <> O ->
  exists ds, digits_fuel fuel base n acc = ds ++ acc /\ numeral base ds n.
Proof.
  intros B. induction fuel as [|fuel IH]; intros n acc L P.
  { cbn in L. lia. }
  cbn [digits_fuel].
  assert (n mod base < base) as M by (apply N.mod_lt; lia).
  pose proof (N.div_mod n base ltac:(lia)) as DM.
  destruct (n / base =? 0) eqn:E.
  - apply N.eqb_eq in E. rewrite E in DM. exists [hex_char (n mod base)]. split; [reflexivity|].
    rewrite DM at 2. rewrite N.mul_0_r, N.add_0_l. constructor. apply hex_char_digit; lia.
  - apply N.eqb_neq in E.
    destruct (IH (n / base) (hex_char (n mod base) :: acc)) as (ds & H1 & H2).
    + rewrite Nat2N.inj_succ, N.pow_succ_r' in L. apply N.div_lt_upper_bound; lia.
    + now left.
    + exists (ds ++ [hex_char (n mod base)]). split; [rewrite H1, <- app_assoc; reflexivity|].
      rewrite DM at 2. rewrite (N.mul_comm base). constructor; [exact H2|]. apply hex_char_digit; lia.
Qed.

Theorem digits_numeral base n : 2 <= base <= 16 -> numeral base (digits base n) n.
Proof.
  intros B. unfold digits. destruct (digits_fuel_spec base B (S (N.to_nat (N.size n))) n []) as (ds & -> & H).
  - rewrite Nat2N.inj_succ, N2Nat.id. pose proof (N.size_gt n) as G.
    assert (2 ^ N.size n <= base ^ N.size n) as P by (apply N.pow_le_mono_l; lia).
    rewrite N.pow_succ_r'. assert (base ^ N.size n <= base * base ^ N.size n) by nia. lia.
  - now right.
  - now rewrite app_nil_r.
Qed.

Theorem py_int_fmt w base z : 2 <= base <= 16 -> py_int w base (fmt_base base z) = Some z.
Proof.
  intros B. unfold fmt_base. destruct (z <? 0)%Z eqn:E.
  - rewrite (py_int_negative _ _ _ (Z.abs_N z)); [f_equal; lia|lia|now apply digits_numeral].
  - rewrite (py_int_numeral _ _ _ (Z.abs_N z)); [f_equal; lia|lia|now apply digits_numeral].
Qed.

Lemma fmt_x_inj a b : fmt_x a = fmt_x b -> a = b.
Proof.
  intros H. pose (w := {| u_decimal := fun _ => None; u_isdigit := fun _ => false; u_isalnum := fun _ => false;
    u_isspace := fun _ => false; u_upper := fun s => s; u_lower := fun s => s; w_sha256 := fun b => b; w_aes := fun _ b => b;
    w_es256_verify := fun _ _ _ => false; w_es256_sign := fun _ b => b; w_load_cert := fun _ => None;
    w_load_pubkey := fun _ => None; w_serial := fun _ => 0%Z; w_cert_pubkey := fun c => c;
    w_cert_signed_by := fun _ _ => false; w_cert_pem := fun c => c; w_pubkey_pem := fun k => k |}).
  apply Some_inj. rewrite <- (py_int_fmt w 16 a), <- (py_int_fmt w 16 b) by lia. unfold fmt_x in H. now rewrite H.
Qed.

(** ** Everything that is read as a number is an integer literal *)

Lemma int_digits_sound base : base <= 16 -> forall s acc prev v rest p,
  int_digits base acc prev s = Some (v, rest) ->
  (if prev then grouped base p acc else (p = [] /\ acc = 0) \/ exists p', p = p' ++ [95] /\ grouped base p' acc) ->
  exists ds, p ++ s = ds ++ rest /\ grouped base ds v.
Proof.
  intros B. induction s as [|c s IH]; intros acc prev v rest p H I.
  - cbn [int_digits] in H. destruct prev; [|discriminate]. apply Some_inj in H. injection H as -> <-.
    exists p. now rewrite !app_nil_r.
  - cbn [int_digits] in H. destruct (digit_val base c) as [d|] eqn:D.
    + apply (digit_val_spec _ _ _ B) in D. apply (IH _ _ _ _ (p ++ [c])) in H.
      * destruct H as (ds & E & G). exists ds. split; [|exact G]. now rewrite <- E, <- app_assoc.
      * destruct prev; [now constructor|]. destruct I as [[-> ->]|(p' & -> & G)].
        -- rewrite N.mul_0_l, N.add_0_l. now constructor.
        -- rewrite <- app_assoc. now constructor.
    + destruct (c =? c_us) eqn:U.
      * destruct prev; [|discriminate]. apply N.eqb_eq in U. subst c. apply (IH _ _ _ _ (p ++ [c_us])) in H.
        -- destruct H as (ds & E & G). exists ds. split; [|exact G]. now rewrite <- E, <- app_assoc.
        -- right. now exists p.
      * destruct prev; [|discriminate]. apply Some_inj in H. injection H as -> <-. now exists p.
Qed.

Lemma lstrip_blank s : exists b, s = b ++ lstrip ascii_space s /\ blank_text b.
Proof.
  induction s as [|c s (b & E & B)]; [exists []; split; [reflexivity|constructor]|]. cbn [lstrip].
  destruct (ascii_space c) eqn:A.
  - exists (c :: b). split; [cbn [app]; now f_equal|]. constructor; [|exact B]. unfold ascii_space in A. lia.
  - exists []. split; [reflexivity|constructor].
Qed.

Lemma hex_digit_63 base : digit_val base 63 = None.
Proof. reflexivity. Qed.

(** The translation replaces what is neither digit nor blank by a question mark,
    which no literal contains. *)
Definition ascii_or (w : world) (c d : N) : Prop := ascii_for w c d \/ d = 63.

Lemma transform_spec w s : Forall2 (ascii_or w) s (int_transform w s).
Proof.
  unfold int_transform. destruct (is_ascii s) eqn:A.
  - unfold is_ascii in A. rewrite forallb_forall in A. induction s as [|c s IH]; constructor.
    + left. left. specialize (A c (or_introl eq_refl)). lia.
    + apply IH. intros x Hx. apply A. now right.
  - clear A. induction s as [|c s IH]; cbn [map]; constructor; [|exact IH]. clear IH.
    destruct (c <? 127) eqn:L; [left; left; lia|].
    destruct (c <? 128) eqn:L'.
    { assert (c = 127) as -> by lia. right. reflexivity. }
    destruct (char_isspace w c) eqn:Sp; [left; right; left; repeat split; [lia|assumption]|].
    destruct (decimal w c) as [v|] eqn:D; [|now right].
    left. right. right. split; [lia|]. split; [exact Sp|]. now exists v.
Qed.

Lemma grouped_no_mark base ds n : grouped base ds n -> ~ In 63 ds.
Proof.
  induction 1 as [c v D|s n c v G IH D|s n c v G IH D]; unfold numeral_digit in D; intros I.
  - destruct I as [I|[]]. lia.
  - apply in_app_or in I as [I|[I|[]]]; [now apply IH|lia].
  - apply in_app_or in I as [I|[I|[I|[]]]]; [now apply IH|lia|lia].
Qed.

Theorem py_int_sound w base s z : base <= 16 -> py_int w base s = Some z -> int_literal w base s z.
Proof.
  intros B. unfold py_int. intros H.
  destruct (lstrip_blank (int_transform w s)) as (b1 & E1 & B1).
  set (t := lstrip ascii_space (int_transform w s)) in *.
  destruct (int_sign t) as [neg u] eqn:Sg.
  assert (exists sign, t = sign ++ u /\ In sign [[]; [43]; [45]] /\ neg = str_eqb sign [45]) as (sign & E2 & In2 & ->).
  { unfold int_sign in Sg. destruct t as [|c t]; [injection Sg as <- <-; exists []; cbn; tauto|].
    unfold c_plus, c_dash in Sg. destruct (c =? 43) eqn:P.
    - apply N.eqb_eq in P. subst c. injection Sg as <- <-. exists [43]. cbn; tauto.
    - destruct (c =? 45) eqn:M.
      + apply N.eqb_eq in M. subst c. injection Sg as <- <-. exists [45]. cbn; tauto.
      + injection Sg as <- <-. exists []. cbn; tauto. }
  assert (exists mark, u = mark ++ int_prefix base u /\ hex_mark base mark) as (mark & E3 & H3).
  { unfold int_prefix, hex_mark. destruct (base =? 16) eqn:X; [|exists []; split; [reflexivity|now left]].
    apply N.eqb_eq in X. destruct u as [|c [|x u]]; try (exists []; split; [reflexivity|now left]).
    destruct ((c =? 48) && ((x =? 120) || (x =? 88))) eqn:Y; [|exists []; split; [reflexivity|now left]].
    assert (c = 48) as -> by lia. assert (x = 120 \/ x = 88) as Hx by lia.
    destruct u as [|y u].
    - exists [48; x]. split; [reflexivity|]. right. split; [exact X|]. destruct Hx as [-> | ->]; cbn; tauto.
    - destruct (y =? c_us) eqn:U.
      + apply N.eqb_eq in U. subst y. exists [48; x; c_us]. split; [reflexivity|]. right. split; [exact X|].
        destruct Hx as [-> | ->]; cbn; tauto.
      + exists [48; x]. split; [reflexivity|]. right. split; [exact X|]. destruct Hx as [-> | ->]; cbn; tauto. }
  destruct (int_digits base 0 false (int_prefix base u)) as [[v rest]|] eqn:D; [|discriminate].
  destruct (forallb ascii_space rest) eqn:F; [|discriminate]. apply Some_inj in H.
  apply (int_digits_sound _ B _ _ _ _ _ []) in D; [|now left]. destruct D as (ds & E4 & G). cbn [app] in E4.
  assert (blank_text rest) as B2.
  { apply Forall_forall. rewrite forallb_forall in F. intros x Hx. apply F in Hx. unfold ascii_space in Hx. lia. }
  exists (int_transform w s), b1, sign, mark, ds, rest, v.
  assert (int_transform w s = b1 ++ sign ++ mark ++ ds ++ rest) as E.
  { rewrite E1, E2. f_equal. f_equal. rewrite E3 at 1. now rewrite E4. }
  split; [|split; [exact E|]; split; [exact B1|]; split; [exact B2|]; split; [exact H3|]; split; [exact G|];
           destruct In2 as [<-|[<-|[<-|[]]]]; cbn in H; [left|left|right]; (split; [cbn; tauto|now symmetry])].
  assert (~ In 63 (int_transform w s)) as N63.
  { rewrite E. rewrite !in_app_iff. intros [I|[I|[I|[I|I]]]].
    - unfold blank_text in B1. rewrite Forall_forall in B1. apply B1 in I. lia.
    - destruct In2 as [<-|[<-|[<-|[]]]]; cbn [In] in I; lia.
    - destruct H3 as [->|[_ H3]]; [contradiction|]. cbn [In] in H3.
      destruct H3 as [<-|[<-|[<-|[<-|[]]]]]; cbn [In] in I; lia.
    - now apply grouped_no_mark in G.
    - unfold blank_text in B2. rewrite Forall_forall in B2. apply B2 in I. lia. }
  pose proof (transform_spec w s) as T. revert N63 T. generalize (int_transform w s). clear.
  intros l N T. induction T as [|c d s l [R|R] T IH]; constructor.
  - exact R.
  - apply IH. intros I. apply N. now right.
  - exfalso. apply N. now left.
  - exfalso. apply N. now left.
Qed.

(** ** All integer literals are read *)

Lemma transform_literal w s t : Forall2 (ascii_for w) s t -> ~ In 127 t -> int_transform w s = t.
Proof.
  intros H N. unfold int_transform. destruct (is_ascii s) eqn:A.
  - unfold is_ascii in A. rewrite forallb_forall in A. induction H as [|c d s t R _ IH]; [reflexivity|]. f_equal.
    + specialize (A c (or_introl eq_refl)). destruct R as [[_ R]|[[R _]|[R _]]]; lia.
    + apply IH; [intros I; apply N; now right|]. intros x I. apply A. now right.
  - clear A. induction H as [|c d s t R _ IH]; [reflexivity|]. cbn [map]. rewrite IH by (intros I; apply N; now right). f_equal.
    assert (d <> 127) as Nd by (intros ->; apply N; now left). destruct R as [[L R]|[(L & Sp & R)|(L & Sp & v & D & R)]].
    + subst d. now replace (c <? 127) with true by lia.
    + replace (c <? 127) with false by lia. now rewrite Sp.
    + replace (c <? 127) with false by lia. now rewrite Sp, D.
Qed.

Lemma grouped_head base ds n : grouped base ds n -> exists c r, ds = c :: r /\ exists v, numeral_digit base c v.
Proof.
  induction 1 as [c v D|s n c v G (d & r & -> & V) D|s n c v G (d & r & -> & V) D]; cbn [app]; eauto 6.
Qed.
Lemma grouped_second base ds n c x r : grouped base ds n -> ds = c :: x :: r -> x = 95 \/ exists v, numeral_digit base x v.
Proof.
  intros G. revert c x r. induction G as [d v D|s n d v G IH D|s n d v G IH D]; intros c x r E; [discriminate| |].
  - destruct (grouped_head _ _ _ G) as (a & l & -> & _). cbn [app] in E. destruct l as [|b l]; cbn [app] in E; injection E as _ <- _; [eauto|].
    exact (IH _ _ _ eq_refl).
  - destruct (grouped_head _ _ _ G) as (a & l & -> & _). cbn [app] in E. destruct l as [|b l]; cbn [app] in E; injection E as _ <- _; [now left|].
    exact (IH _ _ _ eq_refl).
Qed.

Lemma int_digits_grouped base ds n : base <= 16 -> grouped base ds n -> forall rest,
  int_digits base 0 false (ds ++ rest) = int_digits base n true rest.
Proof.
  intros B H. induction H as [c v D|s n c v G IH D|s n c v G IH D]; intros rest; apply (digit_val_spec _ _ _ B) in D.
  - cbn [app int_digits]. now rewrite D.
  - rewrite <- app_assoc, IH. cbn [app int_digits]. now rewrite D.
  - rewrite <- app_assoc, IH. cbn [app int_digits]. change (digit_val base 95) with (@None N). change (95 =? c_us) with true. cbn iota. now rewrite D.
Qed.

Lemma int_digits_blank base n b : blank_text b -> int_digits base n true b = Some (n, b).
Proof.
  intros H. destruct H as [|c b Hc _]; [reflexivity|]. cbn [int_digits].
  assert (digit_val base c = None) as ->.
  { unfold digit_val, hex_digit, is_09. replace ((48 <=? c) && (c <=? 57)) with false by lia. replace ((97 <=? c) && (c <=? 102)) with false by lia.
    now replace ((65 <=? c) && (c <=? 70)) with false by lia. }
  unfold c_us. now replace (c =? 95) with false by lia.
Qed.

Lemma lstrip_blanks b s : blank_text b -> (forall c, hd_error s = Some c -> ascii_space c = false) -> lstrip ascii_space (b ++ s) = s.
Proof.
  intros B H. induction B as [|c b Hc _ IH]; cbn [app].
  - destruct s as [|c s]; [reflexivity|]. cbn [lstrip]. now rewrite (H c eq_refl).
  - cbn [lstrip]. unfold ascii_space at 1. now replace (((9 <=? c) && (c <=? 13)) || (c =? 32)) with true by lia.
Qed.

Theorem py_int_complete w base s z : base <= 16 -> int_literal w base s z -> py_int w base s = Some z.
Proof.
  intros B (t & b1 & sign & mark & ds & b2 & n & F & E & B1 & B2 & M & G & Sg).
  destruct (grouped_head _ _ _ G) as (c & r & Ec & v & D).
  assert (In sign [[]; [43]; [45]]) as Is by (destruct Sg as [[[H|[H|[]]] _]|[H _]]; subst; cbn; tauto).
  assert (exists y u, mark ++ ds = y :: u /\ 48 <= y <= 102 /\ y <> 95) as (y & u & Em & Hy & Hy').
  { destruct M as [->|[_ M]]; [exists c, r; rewrite Ec; unfold numeral_digit in D; split; [reflexivity|lia]|].
    cbn [In] in M. destruct M as [<-|[<-|[<-|[<-|[]]]]]; (eexists _, _; split; [reflexivity|lia]). }
  assert (int_transform w s = t) as T.
  { apply transform_literal; [exact F|]. rewrite E. rewrite !in_app_iff. intros [I|[I|[I|[I|I]]]].
    - unfold blank_text in B1. rewrite Forall_forall in B1. apply B1 in I. lia.
    - destruct Is as [<-|[<-|[<-|[]]]]; cbn [In] in I; lia.
    - destruct M as [->|[_ M]]; [contradiction|]. cbn [In] in M. destruct M as [<-|[<-|[<-|[<-|[]]]]]; cbn [In] in I; lia.
    - clear -G I. induction G as [c v D|s n c v G IH D|s n c v G IH D]; unfold numeral_digit in D.
      + destruct I as [I|[]]. lia.
      + apply in_app_or in I as [I|[I|[]]]; [now apply IH|lia].
      + apply in_app_or in I as [I|[I|[I|[]]]]; [now apply IH|lia|lia].
    - unfold blank_text in B2. rewrite Forall_forall in B2. apply B2 in I. lia. }
  unfold py_int. rewrite T, E.
  assert (forall l, int_sign (lstrip ascii_space (b1 ++ sign ++ y :: l)) = (str_eqb sign [45], y :: l)) as Es.
  { intros l. rewrite lstrip_blanks; [|exact B1|].
    - destruct Is as [<-|[<-|[<-|[]]]]; cbn [app int_sign]; [|reflexivity|reflexivity]. unfold c_plus, c_dash.
      replace (y =? 43) with false by lia. replace (y =? 45) with false by lia. reflexivity.
    - intros x X. destruct Is as [<-|[<-|[<-|[]]]]; cbn [app hd_error] in X; apply Some_inj in X; subst x; [|reflexivity|reflexivity].
      unfold ascii_space. lia. }
  replace (b1 ++ sign ++ mark ++ ds ++ b2) with (b1 ++ sign ++ y :: (u ++ b2)) by (rewrite (app_assoc mark), Em; reflexivity).
  rewrite Es. cbn iota.
  assert (int_prefix base (y :: u ++ b2) = ds ++ b2) as ->.
  { replace (y :: u ++ b2) with (mark ++ ds ++ b2) by (rewrite app_assoc, Em; reflexivity). unfold int_prefix.
    destruct M as [->|[-> M]].
    - cbn [app]. destruct (base =? 16); [|reflexivity]. rewrite Ec. cbn [app]. destruct (r ++ b2) as [|x l] eqn:X; [reflexivity|].
      assert (x <> 120 /\ x <> 88) as [X1 X2].
      { destruct r as [|x' r].
        - cbn [app] in X. subst b2. apply Forall_inv in B2. lia.
        - cbn [app] in X. injection X as -> _. destruct (grouped_second _ _ _ _ _ _ G Ec) as [->|(v' & D')]; [lia|]. unfold numeral_digit in D'. lia. }
      replace ((x =? 120) || (x =? 88)) with false by lia. now rewrite andb_false_r.
    - change (16 =? 16) with true. cbn iota. rewrite Ec in *. unfold numeral_digit in D. cbn [In] in M.
      destruct M as [<-|[<-|[<-|[<-|[]]]]]; cbn [app]; (change ((48 =? 48) && ((120 =? 120) || (120 =? 88))) with true || change ((48 =? 48) && ((88 =? 120) || (88 =? 88))) with true); cbn iota;
        unfold c_us; try reflexivity; now replace (c =? 95) with false by lia. }
  rewrite (int_digits_grouped _ _ _ B G), int_digits_blank by exact B2.
  replace (forallb ascii_space b2) with true.
  - f_equal. destruct Sg as [[[<-|[<-|[]]] ->]|[-> ->]]; reflexivity.
  - symmetry. apply forallb_forall. intros x I. unfold blank_text in B2. rewrite Forall_forall in B2. apply B2 in I. unfold ascii_space. lia.
Qed.

Theorem py_int_spec w base s z : base <= 16 -> (py_int w base s = Some z <-> int_literal w base s z).
Proof. intros B. split; [now apply py_int_sound|now apply py_int_complete]. Qed.

(** What is a decimal number is a hexadecimal number. *)
Lemma literal_hex w s z : int_literal w 10 s z -> exists z', int_literal w 16 s z'.
Proof.
  intros (t & b1 & sign & mark & ds & b2 & n & F & E & B1 & B2 & M & G & Sg).
  assert (exists n', grouped 16 ds n') as (n' & G').
  { clear -G. induction G as [c v D|s n c v G (n' & IH) D|s n c v G (n' & IH) D].
    - exists v. constructor. unfold numeral_digit in *. lia.
    - exists (n' * 16 + v). constructor; [exact IH|]. unfold numeral_digit in *. lia.
    - exists (n' * 16 + v). constructor; [exact IH|]. unfold numeral_digit in *. lia. }
  assert (mark = []) as -> by (destruct M as [M|[M _]]; [exact M|discriminate]).
  destruct Sg as [[I _]|[I _]]; eexists; exists t, b1, sign, [], ds, b2, n'.
  - split; [exact F|]. split; [exact E|]. split; [exact B1|]. split; [exact B2|]. split; [now left|]. split; [exact G'|]. left. split; [exact I|reflexivity].
  - split; [exact F|]. split; [exact E|]. split; [exact B1|]. split; [exact B2|]. split; [now left|]. split; [exact G'|]. right. split; [exact I|reflexivity].
Qed.
