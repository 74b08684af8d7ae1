(** The view of a receipt. *)
From Coq Require Import Lia ZifyClasses ZifyN ZifyNat ZifyBool Floats.SpecFloat.
From Verif Require Import PyBase World Regex Codec PyFloat PyTime Algo Receipt Json KeyStore VerifyReceipt CashReg JsonText SpecReceiptCli ReceiptCli ReceiptCliFacts Gui View ListFacts CodecFacts2 FieldFacts AlgoFacts SpecReceipt ReceiptFacts
  SpecDep SpecCluster SpecAmount SpecCounter SpecGui SpecJsonText SpecView VerifyFacts AmountFacts CounterFacts CashRegText GuiFacts FloatFacts ViewFloat SpecKeys.
Open Scope N_scope.

(** No counter of a receipt is too large for a floating point number. *)
Definition short_counter (r : receipt) : Prop :=
  forall ct, b64decode (r_encTC r) = Ok ct -> (List.length ct <= 128)%nat.

Section view.
Context (w : world) (fr : float -> str) (r : receipt) (text : str).
Hypothesis Hh : hash_ok w.
Hypothesis Ha : aes_ok w.
Hypothesis Pr : prints fr.
Hypothesis R : reads w text r.

Lemma read_fields : exists f sg, wf_fields w f /\ is_receipt w f (Some (es256_header, sg)) r.
Proof using R.
  destruct R as (f & sg & (h & p & hb & pb & gb & _ & _ & _ & _ & _ & _ & W) & I). exists f, sg. split; [exact (proj1 W)|exact I].
Qed.

Lemma read_short : short_counter r.
Proof using R.
  destruct read_fields as (f & sg & W & (F & _)). destruct W as (_ & _ & _ & _ & _ & _ & _ & _ & _ & _ & _ & (b & H & L) & _).
  rewrite <- F in H. intros ct D. change (b64decode (r_encTC r) = Ok b) in H. rewrite D in H. apply Ok_inj in H. subst ct.
  destruct L as [L|[L|[->| ->]]]; [lia|lia|cbn; lia..].
Qed.

Lemma sum_shown s x z : amount_cents w s z -> getReceiptFloat w s = Some x -> moderate z -> shown_cents (fr x) z.
Proof using Pr.
  intros A G M. apply float_of_amount in A as (neg & n & G' & ->). rewrite G in G'. apply Some_inj in G'. subst x.
  pose proof (moderate_signed _ _ M) as L. pose proof (denotes_cents neg n L) as D.
  destruct (denotes_finite _ _ D) as [F V]. apply (printed_cents (float_of_cents neg n)); [|exact D|now apply Pr].
  unfold moderate in M. lia.
Qed.

Lemma sums_shown zs : printed_amounts w r zs ->
  Forall2 (fun s z => moderate z -> shown_cents s z) [fr (r_sumA r); fr (r_sumB r); fr (r_sumC r); fr (r_sumD r); fr (r_sumE r)] zs.
Proof using Pr R.
  destruct read_fields as (f & sg & _ & (F & _ & _ & A & B & C & D & E)).
  intros (a & b & c & d & e & -> & PA & PB & PC & PD & PE)%printed_five. rewrite F in *.
  repeat constructor; intros M; eapply sum_shown; eassumption.
Qed.

Lemma time_shown : shown_time w (strftime (r_dateTime r)) (r_dateTime r).
Proof using R.
  intros Y. apply strftime_text; [|exact Y]. destruct read_fields as (f & sg & _ & (_ & _ & T & _)).
  apply strptime_spec in T as (ty & tm & td & th & ti & ts & t & _ & _ & _ & _ & _ & _ & _ & _ & V). exact V.
Qed.

Lemma sig_shown : exists broken sg, isSignedBroken r = Ok broken /\ r_sig r = Some (es256_header, sg)
  /\ shown_signature r (if broken then lit "Signature system broken" else sg) /\ (broken = true <-> unsigned r).
Proof using R.
  destruct (reads_sig _ _ _ R) as (sg & sb & S & _). exists (unsignedb r), sg. split; [now apply (reads_isSignedBroken w text)|].
  split; [exact S|]. split; [|apply unsignedb_iff]. unfold shown_signature. destruct (unsignedb r) eqn:U.
  - left. split; [now apply unsignedb_iff|reflexivity].
  - right. split; [intros H; apply unsignedb_iff in H; congruence|]. unfold r_signature. now rewrite S.
Qed.

Lemma counter_none : exists s, counter_text w fr r (lit "R1") None = Ok s /\ shown_counter w r None s.
Proof using R.
  unfold counter_text. rewrite (reads_isDummy _ _ _ R), (reads_isReversal _ _ _ R). cbn [bind].
  destruct (trainb r) eqn:T; [|destruct (cancelb r) eqn:C]; eexists; (split; [reflexivity|]).
  - apply trainb_iff in T. split; [reflexivity|]. split; [intros H; now apply not_both in H|]. split; [intros [H _]; contradiction|discriminate].
  - apply cancelb_iff in C. split; [intros H; now apply not_both in C|]. split; [reflexivity|]. split; [intros [_ H]; contradiction|discriminate].
  - assert (standard r) as [S1 S2] by (apply standardb_iff; now rewrite T, C).
    split; [contradiction|]. split; [contradiction|]. split; [reflexivity|discriminate].
Qed.

Lemma from_bytes_bound b : is_bytes b -> (List.length b <= 128)%nat -> (Z.abs (from_bytes b) <= 2 ^ 1023)%Z.
Proof using.
  clear. intros B L. destruct b as [|x b]; [cbv; discriminate|].
  assert (stands_for (x :: b) (from_bytes (x :: b))) as S by now apply stands_for_iff. set (z := from_bytes (x :: b)) in *. clearbody z.
  assert (256 ^ Z.of_nat (List.length (x :: b)) <= 2 ^ 1024)%Z as P.
  { change 256%Z with (2 ^ 8)%Z. rewrite <- Z.pow_mul_r by lia. apply Z.pow_le_mono_r; lia. }
  assert (2 ^ 1024 = 2 * 2 ^ 1023)%Z as E by (rewrite <- (Z.pow_succ_r 2 1023) by lia; reflexivity). rewrite E in P.
  unfold stands_for in S. cbv zeta in S. set (m := (256 ^ Z.of_nat (List.length (x :: b)))%Z) in *. set (h := (2 ^ 1023)%Z) in *.
  assert (Z.of_N (octets_value (x :: b)) < m)%Z as V.
  { unfold m. clear -B. revert B. generalize (x :: b). intros l. induction l as [|y l IH]; intros B; [reflexivity|].
    cbn [octets_value List.length]. inversion B as [|? ? By B']; subst. specialize (IH B').
    rewrite Nat2Z.inj_succ, Z.pow_succ_r by lia.
    rewrite N2Z.inj_add, N2Z.inj_mul, N2Z.inj_pow. rewrite nat_N_Z. change (Z.of_N 256) with 256%Z.
    set (q := (256 ^ Z.of_nat (List.length l))%Z) in *. assert (Z.of_N y <= 255)%Z by lia. nia. }
  clearbody m h. lia.
Qed.

Lemma counter_key k : List.length k = 32%nat -> short_counter r ->
  exists s, counter_text w fr r (lit "R1") (Some k) = Ok s /\ shown_counter w r (Some k) s.
Proof using Hh Ha Pr R.
  intros L Sc. unfold counter_text. rewrite (reads_isDummy _ _ _ R), (reads_isReversal _ _ _ R). cbn [bind].
  destruct (trainb r) eqn:T; [|destruct (cancelb r) eqn:C].
  - eexists. split; [reflexivity|]. apply trainb_iff in T. split; [reflexivity|]. split; [intros H; now apply not_both in H|].
    split; [discriminate|]. intros k' z _ ((H & _) & _). contradiction.
  - eexists. split; [reflexivity|]. apply cancelb_iff in C. split; [intros H; now apply not_both in C|]. split; [reflexivity|].
    split; [discriminate|]. intros k' z _ ((_ & H) & _). contradiction.
  - assert (standard r) as S by (apply standardb_iff; now rewrite T, C).
    destruct k as [|k0 k']; [discriminate L|]. cbn [nonempty]. change (known_alg (lit "R1")) with true. cbn [andb].
    set (k := k0 :: k') in *. destruct (decryptTC_total w text r k Hh Ha R) as (X & Y & _ & _).
    destruct (X S L) as [z Z]. apply Y in Z as Z'. rewrite Z'. cbn [bind].
    assert (Z.abs z <= 2 ^ 1023)%Z as Bz.
    { destruct Z as (_ & _ & ct & iv & plain & D & _ & (Lp & _) & St). pose proof (Sc ct D) as Lc.
      destruct (decryptTC_eq w text r k R) as (_ & _ & E3). destruct (E3 S L) as (ct' & D' & E). rewrite E in Z'.
      unfold r1_decrypt in Z'. apply bind_Ok in Z' as (iv' & _ & Z'). apply Ok_inj in Z'. rewrite D in D'. apply Ok_inj in D'. subst ct' z.
      apply from_bytes_bound; [apply aes256ctr_bytes; [exact Ha|exact (b64decode_bytes _ _ D)]|].
      rewrite aes256ctr_length by exact Ha. exact Lc. }
    destruct (int_finite z Bz) as [x Hx]. rewrite Hx. cbn [bind]. eexists. split; [reflexivity|].
    destruct S as [S1 S2]. split; [contradiction|]. split; [contradiction|]. split; [discriminate|].
    intros k2 z2 K H M. injection K as <-. apply Y in H. rewrite Z' in H. apply Ok_inj in H. subst z2.
    assert (Z.abs z <= 10 ^ 14)%Z as Lz by (unfold moderate in M; lia).
    destruct (divided_cents z Lz) as (x' & Hx' & D). rewrite Hx in Hx'. apply Ok_inj in Hx'. subst x'.
    destruct (denotes_finite _ _ D) as [F V]. apply (printed_cents _ _ _ Lz D). now apply Pr.
Qed.

Lemma rows_of key : (forall k, key = Some k -> List.length k = 32%nat /\ short_counter r) ->
  exists rows, view_rows w fr r (lit "R1") key = Ok rows /\ rows_show w r key rows.
Proof using Hh Ha Pr R.
  intros K. assert (exists s, counter_text w fr r (lit "R1") key = Ok s /\ shown_counter w r key s) as (s & Hs & Sh).
  { destruct key as [k|]; [destruct (K k eq_refl) as [L S]; now apply counter_key|apply counter_none]. }
  destruct sig_shown as (broken & sg & Hb & Sg & Ss & _). unfold view_rows. rewrite Hs, Hb. cbn [bind]. rewrite Sg.
  eexists. split; [reflexivity|]. unfold rows_show. do 8 eexists. split; [reflexivity|].
  split; [apply time_shown|]. split; [apply sums_shown|]. split; [exact Sh|exact Ss].
Qed.

Theorem opened valid : exists st err, open_view w fr r (lit "R1") valid = Ok (st, err)
  /\ faithful w r st /\ v_key st = None
  /\ (v_button st = B_valid <-> ~ unsigned r /\ valid = true)
  /\ (err = Some (UnsignedNullReceipt (r_receiptId r)) \/ err = None)
  /\ (err <> None <-> unsigned r /\ standard r /\ zero r).
Proof using Hh Ha Pr R.
  destruct (rows_of None ltac:(discriminate)) as (rows & Hr & Sh). destruct sig_shown as (broken & sg & Hb & _ & _ & U).
  unfold open_view. rewrite (reads_isDummy _ _ _ R). cbn [bind]. rewrite (reads_isReversal _ _ _ R). cbn [bind]. rewrite Hb. cbn [bind]. match goal with |- context [view_rows w fr r ?a ?b] => replace (view_rows w fr r a b) with (Ok rows) by (symmetry; exact Hr) end. cbn [bind].
  eexists _, _. split; [reflexivity|]. split; [|split; [reflexivity|split; [|split]]].
  - unfold faithful. cbn [v_rows v_key v_decrypt v_button]. split; [exact Sh|]. split; [discriminate|].
    split; [rewrite negb_true_iff, standardb_iff; tauto|]. rewrite <- U. destruct broken, valid; split; congruence.
  - cbn [v_button]. rewrite <- U. destruct broken, valid; split; try discriminate; try tauto; try (intros [H _]; congruence); intros _; split; congruence.
  - destruct (_ && _); auto.
  - rewrite <- U, <- standardb_iff, <- isNull_iff. destruct broken, (trainb r), (cancelb r), (isNull r); cbn [andb negb orb]; split; intros H; try (now elim H); try discriminate H; try discriminate; try (destruct H as (H1 & H2 & H3); discriminate); repeat split.
Qed.

Lemma checked_key t k : (do b <- utf8_encode t; do k <- b64decode b;
    check known_alg (lit "R1") else UnknownAlgorithm (r_receiptId r); do _x <- raiseForKey k; Ok k) = Ok k <-> key_text t k.
Proof using.
  clear. change (known_alg (lit "R1")) with true. cbv iota. unfold key_text, typed_key. split.
  - intros H. apply bind_Ok in H as (b & B & H). apply bind_Ok in H as (k' & K & H). apply bind_Ok in H as (u & U & H). apply Ok_inj in H. subst k'.
    assert (List.length k = 32%nat) as L.
    { unfold raiseForKey, r1_verifyKey in U. destruct (Nat.eqb (List.length k) 32) eqn:E; [now apply Nat.eqb_eq|discriminate U]. }
    split; [|exact L]. right. split; [intros ->|eauto]. cbn [utf8_encode] in B. apply Ok_inj in B. subst b. apply Ok_inj in K. subst k. discriminate L.
  - intros [[[_ H]|(_ & b & k' & B & K & H)] L]; [discriminate H|]. injection H as <-. rewrite B. cbn [bind]. rewrite K. cbn [bind].
    unfold raiseForKey, r1_verifyKey. rewrite L. reflexivity.
Qed.

Lemma set_key_good st t k : faithful w r st -> key_text t k -> short_counter r ->
  exists st', set_key w fr r (lit "R1") st (Some t) = (st', Done tt) /\ faithful w r st' /\ v_key st' = Some k /\ v_button st' = v_button st.
Proof using Hh Ha Pr R.
  intros (_ & _ & _ & B) K S. pose proof (proj2 K) as L. apply checked_key in K. unfold set_key. rewrite K.
  destruct (rows_of (Some k)) as (rows & Hr & Sh). { intros k' H. injection H as <-. now split. }
  rewrite Hr. eexists. split; [reflexivity|]. cbn [v_key v_button]. split; [|split; reflexivity].
  unfold faithful. cbn [v_rows v_key v_decrypt v_button]. split; [exact Sh|]. split; [intros k' H; injection H as <-; exact L|].
  split; [split; [discriminate|intros [_ H]; discriminate H]|exact B].
Qed.

Lemma set_key_bad st t : (forall k, ~ key_text t k) ->
  exists e, set_key w fr r (lit "R1") st (Some t) = (View (v_rows st) None [] (v_decrypt st) (v_button st), Displayed e).
Proof using.
  intros K. unfold set_key. destruct (bind _ _) as [k|e] eqn:E; [apply checked_key, K in E as []|]. now exists e.
Qed.

Lemma key_text_dec t : (exists k, key_text t k) \/ forall k, ~ key_text t k.
Proof using r.
  clear R. destruct (do b <- utf8_encode t; do k <- b64decode b;
    check known_alg (lit "R1") else UnknownAlgorithm (r_receiptId r); do _x <- raiseForKey k; Ok k) as [k|e] eqn:E.
  - left. exists k. now apply checked_key in E.
  - right. intros k K. apply checked_key in K. congruence.
Qed.

Lemma faithful_nokey st i : faithful w r st -> v_decrypt st = true -> faithful w r (View (v_rows st) None i (v_decrypt st) (v_button st)).
Proof using.
  intros (Sh & _ & D & B) Dt. pose proof (proj1 D Dt) as [S N]. rewrite N in Sh. unfold faithful. cbn [v_rows v_key v_decrypt v_button].
  split; [exact Sh|]. split; [discriminate|]. split; [tauto|exact B].
Qed.

(** A key that is typed *)
Theorem typed st t : faithful w r st -> v_decrypt st = true -> t <> [] ->
  (forall k, key_text t k -> exists st', view_act w fr r (lit "R1") st (V_type t) = (st', Done tt)
     /\ faithful w r st' /\ v_key st' = Some k /\ v_button st' = v_button st)
  /\ ((forall k, ~ key_text t k) -> exists st' e, view_act w fr r (lit "R1") st (V_type t) = (st', Displayed e)
     /\ faithful w r st' /\ v_rows st' = v_rows st /\ v_key st' = None /\ v_button st' = v_button st).
Proof using Hh Ha Pr R.
  intros F D N. destruct t as [|c t]; [congruence|]. cbn [view_act]. rewrite D. split.
  - intros k K. apply set_key_good; [exact F|exact K|exact read_short].
  - intros K. destruct (set_key_bad st (c :: t) K) as [e E]. rewrite E. eexists _, e. split; [reflexivity|]. cbn [v_rows v_key v_button].
    split; [now apply faithful_nokey|]. now repeat split.
Qed.

(** Verification *)
Theorem verified st ks : v_button st = B_verify -> ~ unsigned r ->
  (signed_in w ks r -> view_act w fr r (lit "R1") st (V_verify ks) = (View (v_rows st) (v_key st) (v_input st) (v_decrypt st) B_valid, Done tt))
  /\ (~ signed_in w ks r -> exists e, view_act w fr r (lit "R1") st (V_verify ks) = (st, Displayed e)).
Proof using R.
  intros B Nu. cbn [view_act]. rewrite B. unfold verify_receipt_task. cbn [fst snd].
  assert (proper (fromKeyStore ks)) as Pp by (right; eauto). unfold signed_in.
  destruct (verify_spec w _ r text Pp R) as [(C & V)|[(C & Un & V)|[(C & Un & (k & K & S) & V)|(C & Un & K & e & V & H)]]]; rewrite V; cbn [bind show].
  - exfalso; apply C; intros c Hc; discriminate Hc.
  - contradiction.
  - split; [reflexivity|]. intros H. exfalso. apply H. eauto.
  - split; [intros (_ & k & K1 & K2); exfalso; apply K; eauto|]. intros _. destruct H as [->| ->]; eexists; reflexivity.
Qed.

Lemma loaded st f : faithful w r st -> v_decrypt st = true -> short_counter r -> object_file (V_load f) ->
  exists st' v, load_aes w fr r (lit "R1") st f = (st', v) /\ ends v /\ faithful w r st' /\ v_button st' = v_button st
    /\ (forall k, v_key st' = Some k <-> gives_key (V_load f) k)
    /\ (v = Done tt <-> (exists k, gives_key (V_load f) k) \/ gives_none f).
Proof using Hh Ha Pr R.
  intros F D Sc O.
  assert (forall i v, ends v -> (forall k, ~ gives_key (V_load f) k) -> (v = Done tt <-> gives_none f) -> exists st' (v' : shown unit), (View (v_rows st) None i (v_decrypt st) (v_button st), v) = (st', v')
     /\ ends v' /\ faithful w r st' /\ v_button st' = v_button st /\ (forall k, v_key st' = Some k <-> gives_key (V_load f) k)
     /\ (v' = Done tt <-> (exists k, gives_key (V_load f) k) \/ gives_none f)) as Keep.
  { intros i v E G V. eexists _, _. split; [reflexivity|]. cbn [v_button v_key]. split; [exact E|]. split; [now apply faithful_nokey|]. split; [reflexivity|].
    split; [intros k; split; [discriminate|]; intros H; now apply G in H|]. rewrite V. split; [auto|]. intros [[k H]|H]; [now apply G in H|exact H]. }
  assert (forall t, (forall k, gives_key (V_load f) k <-> key_text t k) -> ~ gives_none f -> exists st' v, set_key w fr r (lit "R1") st (Some t) = (st', v) /\ ends v /\ faithful w r st'
     /\ v_button st' = v_button st /\ (forall k, v_key st' = Some k <-> gives_key (V_load f) k)
     /\ (v = Done tt <-> (exists k, gives_key (V_load f) k) \/ gives_none f)) as Set_.
  { intros t G Nn. destruct (key_text_dec t) as [[k K]|K].
    - destruct (set_key_good st t k F K Sc) as (st' & E & F' & K' & B). exists st', (Done tt). split; [exact E|]. split; [intros e H; discriminate H|].
      split; [exact F'|]. split; [exact B|]. split.
      + intros k2. rewrite K', G. split; [intros H; injection H as <-; exact K|].
        intros K2. apply checked_key in K, K2. rewrite K in K2. apply Ok_inj in K2. now subst.
      + split; [|reflexivity]. intros _. left. exists k. now apply G.
    - destruct (set_key_bad st t K) as [e E]. rewrite E. apply Keep; [intros e' H; discriminate H| |split; [discriminate|intros H; now apply Nn in H]]. intros k H. apply G in H. now apply (K k). }
  destruct f as [|s|s]; cbn [load_aes].
  - cbn [set_key fst]. apply Keep; [intros e H; discriminate H|intros k []|split; [discriminate|intros []]].
  - apply Set_; [intros k; reflexivity|intros []].
  - cbn [object_file] in O. destruct (readJsonStream s) as [v|] eqn:J.
    2: { cbn [set_key fst]. apply Keep; [intros e H; discriminate H| |].
         - intros k (d & t & H & _). rewrite J in H. discriminate H.
         - split; [discriminate|]. intros (d & H & _). rewrite J in H. discriminate H. }
    destruct (O v eq_refl) as [d ->]. destruct (dict_get d (lit "base64AESKey")) as [x|] eqn:G.
    2: { cbn [set_key fst]. apply Keep; [intros e H; discriminate H| |].
         - intros k (d' & t & H & H' & _). rewrite J in H. injection H as <-. rewrite G in H'. discriminate H'.
         - split; [discriminate|]. intros (d' & H & H'). rewrite J in H. injection H as <-. rewrite G in H'. discriminate H'. }
    assert (forall k, gives_key (V_load (K_json s)) k <-> exists t, x = JStr t /\ key_text t k) as GK.
    { intros k. cbn [gives_key]. rewrite J. split.
      - intros (d' & t & H & H' & K). injection H as <-. rewrite G in H'. injection H' as ->. eauto.
      - intros (t & -> & K). eauto. }
    assert (gives_none (K_json s) <-> x = JNull) as GN.
    { cbn [gives_none]. rewrite J. split; [intros (d' & H & H'); injection H as <-; rewrite G in H'; now injection H'|intros ->; eauto]. }
    destruct x; try (apply Keep; [intros e H; discriminate H|intros k H; apply GK in H as (t & H & _); discriminate H|rewrite GN; split; discriminate]).
    + apply Keep; [intros e H; discriminate H|intros k H; apply GK in H as (t & H & _); discriminate H|rewrite GN; split; reflexivity].
    + apply Set_; [|rewrite GN; discriminate]. intros k. rewrite GK. split; [intros (t & H & K); now injection H as <-|eauto].
Qed.

Theorem loaded_view st f : faithful w r st -> v_decrypt st = true -> object_file (V_load f) ->
  exists st' v, view_act w fr r (lit "R1") st (V_load f) = (st', v) /\ ends v /\ faithful w r st' /\ v_button st' = v_button st
    /\ (forall k, v_key st' = Some k <-> gives_key (V_load f) k)
    /\ (v = Done tt <-> (exists k, gives_key (V_load f) k) \/ gives_none f).
Proof using Hh Ha Pr R. intros F D O. cbn [view_act]. rewrite D. exact (loaded st f F D read_short O). Qed.

(** Any sequence of actions *)
Theorem acted : forall l st, faithful w r st -> Forall object_file l ->
  exists st', view_acts w fr r (lit "R1") st l = (st', Done tt) /\ faithful w r st'
    /\ (forall k, v_key st' = Some k -> v_key st = Some k \/ exists a, In a l /\ gives_key a k)
    /\ (v_button st' = B_valid -> v_button st = B_valid \/ exists ks, In (V_verify ks) l /\ signed_in w ks r).
Proof using Hh Ha Pr R.
  pose proof read_short as Sc. induction l as [|a l IH]; intros st F O.
  { exists st. split; [reflexivity|]. auto. }
  assert (exists st' v, view_act w fr r (lit "R1") st a = (st', v) /\ ends v /\ faithful w r st'
    /\ (forall k, v_key st' = Some k -> v_key st = Some k \/ gives_key a k)
    /\ (v_button st' = B_valid -> v_button st = B_valid \/ exists ks, a = V_verify ks /\ signed_in w ks r)) as (st1 & v & E & Ev & F1 & K1 & B1).
  { assert (exists st' v, (st, Done tt) = (st', v) /\ ends v /\ faithful w r st' /\ (forall k, v_key st' = Some k -> v_key st = Some k \/ gives_key a k)
      /\ (v_button st' = B_valid -> v_button st = B_valid \/ exists ks, a = V_verify ks /\ signed_in w ks r)) as Same.
    { exists st, (Done tt). split; [reflexivity|]. split; [intros e H; discriminate H|]. auto. }
    apply Forall_inv in O. destruct a as [t|f|ks]; cbn [view_act].
    - destruct t as [|c t]; [exact Same|]. destruct (v_decrypt st) eqn:D; [|exact Same].
      destruct (key_text_dec (c :: t)) as [[k K]|K].
      + destruct (set_key_good st _ k F K Sc) as (st' & E & F' & K' & B). exists st', (Done tt). split; [exact E|]. split; [intros e H; discriminate H|].
        split; [exact F'|]. split; [|rewrite B; auto]. intros k2 H. right. rewrite K' in H. injection H as <-. exact K.
      + destruct (set_key_bad st _ K) as [e E]. rewrite E. eexists _, _. split; [reflexivity|]. split; [intros e' H; discriminate H|].
        split; [now apply faithful_nokey|]. cbn [v_key v_button]. split; [discriminate|auto].
    - destruct (v_decrypt st) eqn:D; [|exact Same]. destruct (loaded st f F D Sc O) as (st' & v & E & Ev & F' & B & K & _).
      exists st', v. split; [exact E|]. split; [exact Ev|]. split; [exact F'|]. split; [intros k H; right; now apply K|rewrite B; auto].
    - destruct (v_button st) eqn:B; try exact Same.
      assert (~ unsigned r) as Nu by (intros U; apply F in U; congruence).
      destruct (verified st ks B Nu) as [G1 G2]. cbn [view_act] in G1, G2. rewrite B in G1, G2.
      assert (signed_in w ks r \/ ~ signed_in w ks r) as [S|S].
      { unfold signed_in. assert (proper (fromKeyStore ks)) as Pp by (right; eauto).
        destruct (verify_spec w _ r text Pp R) as [(C & V)|[(C & Un & V)|[(C & Un & (k & K & S) & V)|(C & Un & K & e & V & H)]]].
        - exfalso; apply C; intros c Hc; discriminate Hc.
        - contradiction.
        - left. eauto.
        - right. intros (_ & k & K1 & K2). apply K. eauto. }
      + rewrite (G1 S). eexists _, _. split; [reflexivity|]. split; [intros e H; discriminate H|]. cbn [v_key v_button].
        split; [|split; [auto|eauto]]. destruct F as (F1 & F2 & F3 & F4). unfold faithful. cbn [v_rows v_key v_decrypt v_button].
        split; [exact F1|]. split; [exact F2|]. split; [exact F3|]. split; [discriminate|]. intros U. contradiction.
      + destruct (G2 S) as [e E]. rewrite E. eexists _, _. split; [reflexivity|]. split; [intros e' H; discriminate H|].
        split; [exact F|]. rewrite B. split; [auto|auto]. }
  destruct (IH st1 F1 (Forall_inv_tail O)) as (st' & E' & F' & K' & B').
  exists st'. split.
  { cbn [view_acts]. rewrite E. destruct v as [u|e|e]; [exact E'|exact E'|]. now elim (Ev e). }
  split; [exact F'|]. split.
  - intros k H. destruct (K' k H) as [H1|(b & Hb & H1)]; [|right; exists b; split; [now right|exact H1]].
    destruct (K1 k H1) as [H2|H2]; [now left|right; exists a; split; [now left|exact H2]].
  - intros H. destruct (B' H) as [H1|(ks & Hk & H1)]; [|right; exists ks; split; [now right|exact H1]].
    destruct (B1 H1) as [H2|(ks & -> & H2)]; [now left|right; exists ks; split; [now left|exact H2]].
Qed.

(** The key of the DEP, when the view opens *)
Theorem first_key st key : faithful w r st -> v_key st = None ->
  exists st' v, first_display w fr r (lit "R1") st key = (st', v) /\ ends v /\ faithful w r st' /\ v_button st' = v_button st
    /\ (forall k, v_key st' = Some k <-> key_text key k)
    /\ (v = Done tt <-> key = [] \/ exists k, key_text key k).
Proof using Hh Ha Pr R.
  intros F N. assert (forall i, faithful w r (View (v_rows st) None i (v_decrypt st) (v_button st))) as Keep.
  { intros i. destruct F as (Sh & _ & D & B). rewrite N in Sh, D. unfold faithful. cbn [v_rows v_key v_decrypt v_button].
    split; [exact Sh|]. split; [discriminate|]. split; assumption. }
  assert (key = [] -> forall k, ~ key_text key k) as Ke.
  { intros -> k [[[_ H]|[H _]] _]; [discriminate H|congruence]. }
  unfold first_display. destruct key as [|c key].
  - cbn [set_key]. eexists _, _. split; [reflexivity|]. split; [intros e H; discriminate H|]. split; [apply Keep|]. split; [reflexivity|].
    cbn [v_key]. split; [|split; auto]. intros k. split; [discriminate|]. intros H. now apply Ke in H.
  - destruct (key_text_dec (c :: key)) as [[k K]|K].
    + destruct (set_key_good st _ k F K read_short) as (st' & E & F' & K' & B). exists st', (Done tt). split; [exact E|].
      split; [intros e H; discriminate H|]. split; [exact F'|]. split; [exact B|]. split; [|split; eauto]. intros k2. rewrite K'. split; [intros H; injection H as <-; exact K|].
      intros K2. apply checked_key in K, K2. rewrite K in K2. apply Ok_inj in K2. now subst.
    + destruct (set_key_bad st _ K) as [e E]. rewrite E. eexists _, _. split; [reflexivity|]. split; [intros e' H; discriminate H|].
      split; [apply Keep|]. split; [reflexivity|]. cbn [v_key].
      split; [intros k; split; [discriminate|]; intros H; now apply K in H|]. split; [discriminate|]. intros [H|[k H]]; [discriminate H|now apply K in H].
Qed.
End view.

(** Receipts that were entered *)
Theorem viewed w fr py fetch f s r alg : hash_ok w -> aes_ok w -> prints fr -> SpecReceiptCli.plain_format f -> encodable s ->
  view_receipt w py fetch f s = Some (Done (r, alg)) ->
  alg = lit "R1" /\ exists t st err, reads w t r /\ open_view w fr r alg false = Ok (st, err) /\ faithful w r st.
Proof.
  intros Hh Ha Pr P E V. assert (ReceiptCli.read_receipt w py fetch f s = Ok (r, alg)) as H.
  { destruct f; cbn [SpecReceiptCli.plain_format] in P; try contradiction; cbn [view_receipt ReceiptCli.read_receipt] in *; try discriminate V;
      injection V as V; now apply show_Done in V. }
  destruct (ReceiptCliFacts.read_kind w py fetch f s r alg P E H) as (-> & t & R). split; [reflexivity|].
  destruct (opened w fr r t Hh Ha Pr R false) as (st & err & O & F & _). exists t, st, err. now repeat split; try apply F.
Qed.
