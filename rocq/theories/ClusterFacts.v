(** Registers of clusters, trust in certificates. *)
From Verif Require Import PyBase World Codec PyFloat PyTime Algo Receipt ListFacts CodecFacts SpecReceipt ReceiptFacts
  DepBase Json Pem KeyStore VerifyReceipt State DepParser Verify SpecDep SpecCluster VerifyFacts StepFacts.
From Coq Require Import Lia.
Open Scope N_scope.
Open Scope py_scope.

(** ** Registers *)

Lemma nth_error_split_at {A} (l1 : list A) x l2 : nth_error (l1 ++ x :: l2) (List.length l1) = Some x.
Proof. rewrite nth_error_app2, Nat.sub_diag; [reflexivity|lia]. Qed.

Lemma set_nth_split {A} (l1 : list A) x y l2 : set_nth (List.length l1) y (l1 ++ x :: l2) = l1 ++ y :: l2.
Proof. induction l1 as [|a l1 IH]; [reflexivity|]. cbn [List.length set_nth app]. now rewrite IH. Qed.

Lemma add_ok c :
  c_regs c = [] \/ truthy (start_of_last (c_regs c)) <> None ->
  addNewCashRegister c = Ok (Cluster (c_regs c ++ [new_register]) (c_used c)).
Proof.
  unfold addNewCashRegister, start_of_last. destruct (rev (c_regs c)) as [|r l] eqn:E.
  - intros _. assert (c_regs c = []) as -> by (rewrite <- (rev_involutive (c_regs c)), E; reflexivity). reflexivity.
  - intros [H|H]; [rewrite H in E; discriminate|]. destruct (truthy (s_start r)); [reflexivity|congruence].
Qed.

Lemma add_inv c c' :
  addNewCashRegister c = Ok c' ->
  (c_regs c = [] \/ truthy (start_of_last (c_regs c)) <> None)
  /\ c' = Cluster (c_regs c ++ [new_register]) (c_used c).
Proof.
  unfold addNewCashRegister, start_of_last. destruct (rev (c_regs c)) as [|r l] eqn:E.
  - assert (c_regs c = []) as -> by (rewrite <- (rev_involutive (c_regs c)), E; reflexivity).
    intros H. apply Ok_inj in H. subst. auto.
  - destruct (truthy (s_start r)) eqn:T; [|discriminate]. intros H. apply Ok_inj in H. subst. split; [|reflexivity].
    right. congruence.
Qed.

Lemma prev_start (l1 : list regstate) r l2 :
  (if (0 <? Z.of_nat (List.length l1))%Z
   then match nth_error (l1 ++ r :: l2) (Z.to_nat (Z.of_nat (List.length l1) - 1)) with
        | Some p => s_start p | None => None end
   else None) = start_of_last l1.
Proof.
  unfold start_of_last. destruct (rev l1) as [|x l] eqn:E.
  - assert (l1 = []) as -> by (rewrite <- (rev_involutive l1), E; reflexivity). reflexivity.
  - assert (l1 = rev l ++ [x]) as -> by (rewrite <- (rev_involutive l1), E; reflexivity).
    rewrite app_length. cbn [List.length].
    assert ((0 <? Z.of_nat (List.length (rev l) + 1))%Z = true) as -> by (apply Z.ltb_lt; lia).
    replace (Z.to_nat (Z.of_nat (List.length (rev l) + 1) - 1)) with (List.length (rev l)) by lia.
    rewrite <- app_assoc. cbn [app]. now rewrite nth_error_split_at.
Qed.

Lemma get_selects c idx before reg after :
  selects c idx before reg after ->
  getCashRegisterInfo c idx
  = (Cluster (before ++ reg :: after) (c_used c), Ok (start_of_last before, reg, c_used c)).
Proof.
  intros S. destruct S as [before reg after E|idx D T].
  - unfold getCashRegisterInfo. rewrite E. rewrite app_length. cbn [List.length].
    assert ((Z.of_nat (List.length before) =? Z.of_nat (List.length before + S (List.length after)))%Z = false) as ->
      by (apply Z.eqb_neq; lia).
    cbn beta iota zeta. rewrite E, app_length. cbn [List.length].
    assert (((Z.of_nat (List.length before) <? 0) ||
             (Z.of_nat (List.length before + S (List.length after)) <? Z.of_nat (List.length before)))%Z = false) as ->.
    { apply orb_false_iff. rewrite !Z.ltb_ge. lia. }
    rewrite Nat2Z.id, nth_error_split_at. rewrite prev_start. destruct c as [rs u]. cbn [c_regs c_used] in *.
    now rewrite E.
  - unfold getCashRegisterInfo. rewrite (add_ok c T).
    assert (match idx with None => true | Some i => (i =? Z.of_nat (List.length (c_regs c)))%Z end = true) as N.
    { destruct D as [-> | ->]; [reflexivity|apply Z.eqb_refl]. }
    rewrite N. cbn [c_regs c_used]. rewrite app_length. cbn [List.length].
    assert (((Z.of_nat (List.length (c_regs c)) <? 0) ||
             (Z.of_nat (List.length (c_regs c) + 1) <? Z.of_nat (List.length (c_regs c))))%Z = false) as ->.
    { apply orb_false_iff. rewrite !Z.ltb_ge. lia. }
    rewrite Nat2Z.id, nth_error_split_at, prev_start. reflexivity.
Qed.

Lemma get_inv c idx c1 info :
  getCashRegisterInfo c idx = (c1, Ok info) ->
  exists before reg after, selects c idx before reg after /\ info = (start_of_last before, reg, c_used c)
    /\ c1 = Cluster (before ++ reg :: after) (c_used c).
Proof.
  intros H.
  assert (exists before reg after, selects c idx before reg after) as (b & r & a & S).
  { unfold getCashRegisterInfo in H.
    destruct (match idx with None => true | Some i => (i =? Z.of_nat (List.length (c_regs c)))%Z end) eqn:N.
    - destruct (addNewCashRegister c) as [c2|] eqn:A; [|discriminate]. apply add_inv in A as [A ->].
      exists (c_regs c), new_register, []. constructor; [|exact A].
      destruct idx as [i|]; [|auto]. apply Z.eqb_eq in N. subst. auto.
    - destruct idx as [i|]; [|discriminate].
      destruct ((i <? 0) || (Z.of_nat (List.length (c_regs c)) <? i))%Z eqn:R; [discriminate|].
      destruct (nth_error (c_regs c) (Z.to_nat i)) as [r|] eqn:E; [|discriminate].
      apply nth_error_split in E as (l1 & l2 & E & L). exists l1, r, l2.
      apply orb_false_iff in R as [R _]. apply Z.ltb_ge in R.
      replace i with (Z.of_nat (List.length l1)) by lia. now constructor. }
  exists b, r, a. split; [exact S|]. rewrite (get_selects _ _ _ _ _ S) in H.
  injection H as <- <-. auto.
Qed.

Lemma update_selects c idx before reg after reg' u u' :
  selects c idx before reg after ->
  updateCashRegisterInfo (Cluster (before ++ reg :: after) u) idx reg' u' = Ok (Cluster (before ++ reg' :: after) u').
Proof.
  intros Sl. unfold updateCashRegisterInfo. cbn [c_regs]. rewrite app_length. cbn [List.length].
  assert (match idx with
          | None => after = []
          | Some i => i = Z.of_nat (List.length before)
          end) as H.
  { destruct Sl as [| idx [-> | ->] _]; reflexivity. }
  destruct idx as [i|].
  - subst i. assert (((0 <=? Z.of_nat (List.length before)) &&
      (Z.of_nat (List.length before) <? Z.of_nat (List.length before + S (List.length after))))%Z = true) as ->.
    { apply andb_true_iff. rewrite Z.leb_le, Z.ltb_lt. lia. }
    assert ((0 <=? Z.of_nat (List.length before))%Z = true) as -> by (apply Z.leb_le; lia).
    rewrite Nat2Z.id, set_nth_split. reflexivity.
  - subst after. cbn [List.length].
    assert ((0 <=? Z.of_nat (List.length before + 1) - 1)%Z = true) as -> by (apply Z.leb_le; lia).
    replace (Z.to_nat (Z.of_nat (List.length before + 1) - 1)) with (List.length before) by lia.
    rewrite set_nth_split. reflexivity.
Qed.

Theorem with_register_Ok c idx body c' :
  with_register c idx body = (c', None) <->
  exists before reg after reg' u',
    selects c idx before reg after
    /\ body (start_of_last before, reg, c_used c) = Ok (reg', u')
    /\ c' = Cluster (before ++ reg' :: after) u'.
Proof.
  unfold with_register. split.
  - destruct (getCashRegisterInfo c idx) as [c1 info] eqn:G. destruct info as [info|]; cbn [bind]; [|discriminate].
    apply get_inv in G as (b & r & a & S & -> & ->). intros H.
    destruct (body (start_of_last b, r, c_used c)) as [[reg' u']|] eqn:B; cbn [bind] in H; [|discriminate].
    cbn [fst snd] in H. rewrite (update_selects _ _ _ _ _ _ _ _ S) in H. injection H as <-.
    exists b, r, a, reg', u'. auto.
  - intros (b & r & a & reg' & u' & S & B & ->). rewrite (get_selects _ _ _ _ _ S). cbn [bind]. rewrite B.
    cbn [bind fst snd]. now rewrite (update_selects _ _ _ _ _ _ _ _ S).
Qed.

(** After an exception the cluster is as before, but for an added empty register. *)
Theorem with_register_Err c idx body c' e :
  with_register c idx body = (c', Some e) ->
  c' = c \/ ((idx = None \/ idx = Some (Z.of_nat (List.length (c_regs c))))
             /\ (c_regs c = [] \/ truthy (start_of_last (c_regs c)) <> None)
             /\ c' = Cluster (c_regs c ++ [new_register]) (c_used c)).
Proof.
  unfold with_register. destruct (getCashRegisterInfo c idx) as [c1 info] eqn:G. intros H.
  assert (c' = c1) as ->.
  { destruct info as [info|]; cbn [bind] in H; [|congruence].
    destruct (body info) as [ru|]; cbn [bind] in H; [|congruence].
    destruct (updateCashRegisterInfo c1 idx (fst ru) (snd ru)); congruence. }
  clear H. destruct info as [info|].
  - apply get_inv in G as (b & r & a & S & _ & ->). destruct S as [b r a E|idx D T].
    + left. destruct c as [rs u]. cbn [c_regs c_used] in *. now rewrite E.
    + right. auto.
  - unfold getCashRegisterInfo in G.
    destruct (match idx with None => true | Some i => (i =? Z.of_nat (List.length (c_regs c)))%Z end) eqn:N.
    + destruct (addNewCashRegister c) as [c2|] eqn:A.
      * apply add_inv in A as [A ->]. right. split.
        -- destruct idx as [i|]; [|auto]. apply Z.eqb_eq in N. subst. auto.
        -- split; [exact A|]. repeat match type of G with
           | (if ?b then _ else _) = _ => destruct b
           | match ?m with _ => _ end = _ => destruct m
           end; congruence.
      * left. congruence.
    + left. repeat match type of G with
           | (if ?b then _ else _) = _ => destruct b
           | match ?m with _ => _ end = _ => destruct m
           end; congruence.
Qed.

(** ** Certificates *)

Lemma hex2_inj a b : a < 256 -> b < 256 -> hex2 a = hex2 b -> a = b.
Proof.
  intros Ha Hb E. unfold hex2 in E.
  assert (forall x, x < 16 -> forall y, y < 16 ->
          (if x <? 10 then 48 + x else 87 + x) = (if y <? 10 then 48 + y else 87 + y) -> x = y) as D.
  { intros x Hx y Hy. destruct (N.ltb_spec x 10), (N.ltb_spec y 10); lia. }
  assert (E1 := f_equal (fun l => nth 0 l 0) E). assert (E2 := f_equal (fun l => nth 1 l 0) E). cbn [nth] in E1, E2.
  apply D in E1; [|apply N.div_lt_upper_bound; lia|apply N.div_lt_upper_bound; lia].
  apply D in E2; [|apply N.mod_lt; lia|apply N.mod_lt; lia].
  rewrite (N.div_mod a 16), (N.div_mod b 16) by lia. congruence.
Qed.

Lemma join_hex_inj l : forall l', Forall (fun x => x < 256) l -> Forall (fun x => x < 256) l' ->
  join [58] (map hex2 l) = join [58] (map hex2 l') -> l = l'.
Proof.
  assert (forall a r, join [58] (map hex2 (a :: r))
          = nth 0 (hex2 a) 0 :: nth 1 (hex2 a) 0 :: match r with [] => [] | _ => 58 :: join [58] (map hex2 r) end) as J.
  { intros a [|b r]; reflexivity. }
  induction l as [|a l IH]; intros [|b l'] F F' E.
  - reflexivity.
  - rewrite J in E. discriminate.
  - rewrite J in E. discriminate.
  - rewrite !J in E. apply Forall_cons_iff in F as [Fa F], F' as [Fb F'].
    assert (E1 := f_equal (fun l => nth 0 l 0) E). assert (E2 := f_equal (fun l => nth 1 l 0) E).
    assert (E3 := f_equal (@tl N) (f_equal (@tl N) E)). cbn [nth tl] in E1, E2, E3. clear E. f_equal.
    + apply hex2_inj; [assumption|assumption|].
      assert (forall x, hex2 x = [nth 0 (hex2 x) 0; nth 1 (hex2 x) 0]) as H by reflexivity.
      rewrite (H a), (H b). congruence.
    + apply IH; [assumption|assumption|]. destruct l as [|x l], l' as [|y l']; try reflexivity; try discriminate E3.
      now injection E3.
Qed.

Lemma fingerprint_iff w a b :
  hash_ok w -> str_eqb (certFingerprint w a) (certFingerprint w b) = true <-> same_fingerprint w a b.
Proof.
  intros H. rewrite str_eqb_eq. unfold certFingerprint, same_fingerprint. split.
  - intros E. apply join_hex_inj in E; [assumption|apply H|apply H].
  - now intros ->.
Qed.

Lemma signed_in_turn_cons w a b l :
  signed_in_turn w (a :: b :: l) <-> w_cert_signed_by w a b = true /\ signed_in_turn w (b :: l).
Proof.
  unfold signed_in_turn. split.
  - intros H. split; [now apply (H [] a b l)|]. intros l1 x y l2 E. apply (H (a :: l1) x y l2). now rewrite E.
  - intros [H1 H2] l1 x y l2 E. destruct l1 as [|z l1]; cbn [app] in E.
    + now injection E as -> -> _.
    + injection E as _ E. now apply (H2 l1 x y l2).
Qed.

Lemma signed_in_turn_one w a : signed_in_turn w [a].
Proof. intros l1 x y l2 E. destruct l1 as [|z [|? ?]]; discriminate. Qed.

Theorem verifyCert_from_spec w ks first chain : hash_ok w -> forall c,
  verifyCert_from w ks first c chain = Ok tt <-> trusted w ks c chain.
Proof.
  intros HO. induction chain as [|d chain IH]; intros c; cbn [verifyCert_from];
    unfold numSerialToKeyId;
    destruct (getCert ks (fmt_x (Z.abs (w_serial w c)))) as [k|] eqn:G.
  1,3: destruct (str_eqb (certFingerprint w k) (certFingerprint w c)) eqn:F.
  1,3: split; [intros _|reflexivity]; apply (fingerprint_iff _ _ _ HO) in F; exists [], c;
       eexists; split; [reflexivity|]; split; [exists k; split; assumption|];
       split; [apply signed_in_turn_one|intros y k' []].
  1,2: split; [discriminate|]; intros (before & x & after & E & (k' & S & SF) & _ & O);
       assert (stored w ks c k) as Sc by exact G;
       assert (same_fingerprint w k c) as SFc;
       [destruct before as [|y before]; cbn [app] in E;
        [injection E as <- _; unfold stored in *; congruence
        |injection E as <- _; apply (O c k (or_introl eq_refl) Sc)]
       |apply (fingerprint_iff _ _ _ HO) in SFc; congruence].
  - split; [discriminate|]. intros (before & x & after & E & (k' & S & SF) & _ & _).
    destruct before as [|y before]; cbn [app] in E; [injection E as <- _; unfold stored in S; congruence|].
    injection E as _ E. now destruct before.
  - destruct (w_cert_signed_by w c d) eqn:SB.
    + rewrite IH. split.
      * intros (before & x & after & E & K & S & O). exists (c :: before), x, after.
        split; [cbn [app]; now rewrite E|]. split; [exact K|]. split.
        -- destruct before as [|y before]; cbn [app] in *; injection E as <- E;
             (apply signed_in_turn_cons; split; assumption).
        -- intros y k' [<-|I] St; [unfold stored in St; congruence|now apply (O y k')].
      * intros (before & x & after & E & K & S & O). destruct before as [|y before]; cbn [app] in E.
        { injection E as <- _. destruct K as (k' & St & _). unfold stored in St. congruence. }
        injection E as <- E. exists before, x, after. split; [exact E|]. split; [exact K|]. split.
        -- destruct before as [|z before]; cbn [app] in *; [apply signed_in_turn_one|].
           now apply signed_in_turn_cons in S as [_ S].
        -- intros z k' I St. apply (O z k'); [now right|assumption].
    + split; [discriminate|]. intros (before & x & after & E & K & S & O). destruct before as [|y before]; cbn [app] in E.
      { injection E as <- _. destruct K as (k' & St & _). unfold stored in St. congruence. }
      injection E as <- E.
      assert (w_cert_signed_by w c d = true); [|congruence].
      destruct before as [|z before]; cbn [app] in *; injection E as <- E; now apply signed_in_turn_cons in S as [S _].
Qed.

Theorem verifyCert_spec w ks c chain :
  hash_ok w -> verifyCert w c chain ks = Ok tt <-> trusted w ks c chain.
Proof. intros H. now apply verifyCert_from_spec. Qed.
