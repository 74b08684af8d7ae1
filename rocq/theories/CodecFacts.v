(** Laws of the encodings in [Codec.v]. *)
From Coq Require Import Lia ZifyClasses ZifyN ZifyNat ZifyBool.
From Verif Require Import PyBase World Regex Codec ListFacts RegexFacts.
Open Scope N_scope.
Open Scope py_scope.
Ltac Zify.zify_post_hook ::= Z.div_mod_to_equations.

(** Equality of lists of numbers, element by element. *)
Ltac list_lia :=
  repeat match goal with
         | |- Ok _ = Ok _ => f_equal
         | |- Some _ = Some _ => f_equal
         | |- _ :: _ = _ :: _ => f_equal
         end; try reflexivity; try lia.

(** ** UTF-8 *)

Lemma utf8_decode_char c b r :
  utf8_char c = Some b -> utf8_decode (b ++ r) = do s <- utf8_decode r; Ok (c :: s).
Proof.
  unfold utf8_char. intros H.
  destruct (c <? 128) eqn:C1.
  { apply Some_inj in H; subst b. simpl. now rewrite C1. }
  destruct (c <? 2048) eqn:C2.
  { apply Some_inj in H; subst b. cbn [app utf8_decode].
    replace (192 + c / 64 <? 128) with false by lia.
    replace (192 + c / 64 <? 194) with false by lia.
    replace (is_cont (128 + c mod 64)) with true by (unfold is_cont; lia).
    cbn [negb]. replace (192 + c / 64 <? 224) with true by lia.
    replace ((192 + c / 64 - 192) * 64 + (128 + c mod 64 - 128)) with c by lia. reflexivity. }
  destruct (c <? 65536) eqn:C3.
  { destruct ((55296 <=? c) && (c <? 57344)) eqn:S; [discriminate|].
    apply Some_inj in H; subst b. cbn [app utf8_decode].
    replace (224 + c / 4096 <? 128) with false by lia.
    replace (224 + c / 4096 <? 194) with false by lia.
    replace (is_cont (128 + (c / 64) mod 64)) with true by (unfold is_cont; lia).
    replace (is_cont (128 + c mod 64)) with true by (unfold is_cont; lia).
    cbn [negb].
    replace (224 + c / 4096 <? 224) with false by lia.
    replace (224 + c / 4096 <? 240) with true by lia.
    replace ((224 + c / 4096 - 224) * 4096 + (128 + (c / 64) mod 64 - 128) * 64
             + (128 + c mod 64 - 128)) with c by lia.
    rewrite C2, S. reflexivity. }
  destruct (c <? 1114112) eqn:C4; [|discriminate].
  apply Some_inj in H; subst b. cbn [app utf8_decode].
  replace (240 + c / 262144 <? 128) with false by lia.
  replace (240 + c / 262144 <? 194) with false by lia.
  replace (is_cont (128 + (c / 4096) mod 64)) with true by (unfold is_cont; lia).
  replace (is_cont (128 + (c / 64) mod 64)) with true by (unfold is_cont; lia).
  replace (is_cont (128 + c mod 64)) with true by (unfold is_cont; lia).
  replace (240 + c / 262144 <? 245) with true by lia.
  cbn [negb orb].
  replace (240 + c / 262144 <? 224) with false by lia.
  replace (240 + c / 262144 <? 240) with false by lia.
  replace ((240 + c / 262144 - 240) * 262144 + (128 + (c / 4096) mod 64 - 128) * 4096
           + (128 + (c / 64) mod 64 - 128) * 64 + (128 + c mod 64 - 128)) with c by lia.
  rewrite C3, C4. reflexivity.
Qed.

Theorem utf8_decode_encode s b : utf8_encode s = Ok b -> utf8_decode b = Ok s.
Proof.
  revert b. induction s as [|c s IH]; simpl; intros b H.
  - now injection H as <-.
  - destruct (utf8_char c) as [x|] eqn:C; [|discriminate].
    destruct (utf8_encode s) as [y|] eqn:E; [|discriminate].
    injection H as <-. rewrite (utf8_decode_char c x y C). now rewrite (IH y).
Qed.

Lemma utf8_encode_app s t b c :
  utf8_encode s = Ok b -> utf8_encode t = Ok c -> utf8_encode (s ++ t) = Ok (b ++ c).
Proof.
  revert b. induction s as [|x s IH]; simpl; intros b Hb Hc.
  - now injection Hb as <-.
  - destruct (utf8_char x) as [bx|]; [|discriminate].
    destruct (utf8_encode s) as [y|]; [|discriminate]. injection Hb as <-.
    rewrite (IH y eq_refl Hc). now rewrite app_assoc.
Qed.

Lemma utf8_encode_app_inv s t b :
  utf8_encode (s ++ t) = Ok b ->
  exists x y, utf8_encode s = Ok x /\ utf8_encode t = Ok y /\ b = x ++ y.
Proof.
  revert b. induction s as [|c s IH]; simpl; intros b H.
  - exists [], b. auto.
  - destruct (utf8_char c) as [bc|]; [|discriminate].
    destruct (utf8_encode (s ++ t)) as [z|]; [|discriminate]. injection H as <-.
    destruct (IH z eq_refl) as (x & y & -> & -> & ->). exists (bc ++ x), y.
    now rewrite app_assoc.
Qed.

Lemma utf8_char_bytes c b : utf8_char c = Some b -> is_bytes b.
Proof.
  unfold utf8_char, is_bytes. intros H.
  destruct (c <? 128) eqn:C1; [apply Some_inj in H; subst b; repeat constructor; lia|].
  destruct (c <? 2048) eqn:C2; [apply Some_inj in H; subst b; repeat constructor; lia|].
  destruct (c <? 65536) eqn:C3.
  { destruct ((55296 <=? c) && (c <? 57344)); [discriminate|].
    apply Some_inj in H; subst b; repeat constructor; lia. }
  destruct (c <? 1114112) eqn:C4; [|discriminate].
  apply Some_inj in H; subst b; repeat constructor; lia.
Qed.

Lemma utf8_encode_bytes s b : utf8_encode s = Ok b -> is_bytes b.
Proof.
  revert b. induction s as [|c s IH]; simpl; intros b H.
  - injection H as <-. constructor.
  - destruct (utf8_char c) as [x|] eqn:C; [|discriminate].
    destruct (utf8_encode s) as [y|]; [|discriminate]. injection H as <-.
    apply Forall_app. split; [now apply (utf8_char_bytes c)|now apply IH].
Qed.

Theorem utf8_encode_decode b s : utf8_decode b = Ok s -> utf8_encode s = Ok b.
Proof.
  assert (forall n b, (List.length b <= n)%nat -> forall s, utf8_decode b = Ok s -> utf8_encode s = Ok b) as G.
  2: intros H; now apply (G (List.length b) b).
  clear b s. induction n as [|n IH]; intros b Hn s H.
  { destruct b; simpl in Hn; [|lia]. simpl in H. now injection H as <-. }
  destruct b as [|b0 r0]; [simpl in H; now injection H as <-|].
  cbn [utf8_decode] in H. cbn [List.length] in Hn.
  destruct (b0 <? 128) eqn:C1.
  { apply bind_Ok in H as (t & Ht & H). apply Ok_inj in H; subst s.
    apply IH in Ht; [|lia]. cbn [utf8_encode]; unfold utf8_char. rewrite C1, Ht. reflexivity. }
  destruct (b0 <? 194) eqn:C2; [discriminate|].
  destruct r0 as [|b1 r1]; [discriminate|]. cbn [List.length] in Hn.
  destruct (is_cont b1) eqn:K1; cbn [negb] in H; [|discriminate]. unfold is_cont in K1.
  destruct (b0 <? 224) eqn:C3.
  { apply bind_Ok in H as (t & Ht & H). apply Ok_inj in H; subst s. apply IH in Ht; [|lia].
    cbn [utf8_encode]; unfold utf8_char.
    replace ((b0 - 192) * 64 + (b1 - 128) <? 128) with false by lia.
    replace ((b0 - 192) * 64 + (b1 - 128) <? 2048) with true by lia.
    rewrite Ht. cbn [app]. list_lia. }
  destruct r1 as [|b2 r2]; [discriminate|]. cbn [List.length] in Hn.
  destruct (is_cont b2) eqn:K2; cbn [negb] in H; [|discriminate]. unfold is_cont in K2.
  destruct (b0 <? 240) eqn:C4.
  { remember ((b0 - 224) * 4096 + (b1 - 128) * 64 + (b2 - 128)) as c eqn:Ec. cbv zeta in H.
    destruct ((c <? 2048) || ((55296 <=? c) && (c <? 57344))) eqn:S; [discriminate|].
    apply bind_Ok in H as (t & Ht & H). apply Ok_inj in H; subst s. apply IH in Ht; [|lia].
    apply orb_false_iff in S as [S1 S2].
    cbn [utf8_encode]; unfold utf8_char. rewrite S1, S2, Ht.
    replace (c <? 128) with false by lia. replace (c <? 65536) with true by lia.
    cbn [app]. list_lia. }
  destruct r2 as [|b3 r3]; [discriminate|]. cbn [List.length] in Hn.
  destruct (is_cont b3) eqn:K3; cbn [negb orb] in H; [|discriminate]. unfold is_cont in K3.
  destruct (b0 <? 245) eqn:C5; cbn [negb] in H; [|discriminate].
  remember ((b0 - 240) * 262144 + (b1 - 128) * 4096 + (b2 - 128) * 64 + (b3 - 128)) as c eqn:Ec.
  cbv zeta in H.
  destruct ((c <? 65536) || negb (c <? 1114112)) eqn:S; [discriminate|].
  apply bind_Ok in H as (t & Ht & H). apply Ok_inj in H; subst s. apply IH in Ht; [|lia].
  apply orb_false_iff in S as [S1 S2]. apply negb_false_iff in S2.
  cbn [utf8_encode]; unfold utf8_char. rewrite S1, S2, Ht.
  replace (c <? 128) with false by lia. replace (c <? 2048) with false by lia.
  cbn [app]. list_lia.
Qed.

Lemma utf8_encode_inj s t b : utf8_encode s = Ok b -> utf8_encode t = Ok b -> s = t.
Proof.
  intros H1 H2. apply utf8_decode_encode in H1, H2. congruence.
Qed.

Lemma utf8_encode_ascii s : Forall (fun c => c < 128) s -> utf8_encode s = Ok s.
Proof.
  induction 1 as [|c s Hc Hs IH]; simpl; [reflexivity|].
  unfold utf8_char. replace (c <? 128) with true by lia. now rewrite IH.
Qed.

Lemma utf8_decode_ascii s : Forall (fun c => c < 128) s -> utf8_decode s = Ok s.
Proof. intros H. apply utf8_decode_encode. now apply utf8_encode_ascii. Qed.

(** An ASCII character occurs in an encoded text exactly if it occurs in the
    text itself. *)
Lemma utf8_char_ascii_In c b x : utf8_char c = Some b -> x < 128 -> In x b -> x = c.
Proof.
  unfold utf8_char. intros H Hx Hin.
  destruct (c <? 128) eqn:C1.
  { injection H as <-. destruct Hin as [->|[]]. reflexivity. }
  destruct (c <? 2048) eqn:C2.
  { apply Some_inj in H; subst b. cbn [In] in Hin. lia. }
  destruct (c <? 65536) eqn:C3.
  { destruct ((55296 <=? c) && (c <? 57344)); [discriminate|].
    apply Some_inj in H; subst b. cbn [In] in Hin. lia. }
  destruct (c <? 1114112) eqn:C4; [|discriminate].
  apply Some_inj in H; subst b. cbn [In] in Hin. lia.
Qed.

Lemma utf8_encode_ascii_In s b x : utf8_encode s = Ok b -> x < 128 -> In x b -> In x s.
Proof.
  revert b. induction s as [|c s IH]; simpl; intros b H Hx Hin.
  - injection H as <-. easy.
  - destruct (utf8_char c) as [y|] eqn:C; [|discriminate].
    destruct (utf8_encode s) as [z|]; [|discriminate]. injection H as <-.
    apply in_app_or in Hin as [Hin|Hin].
    + left. symmetry. now apply (utf8_char_ascii_In c y).
    + right. now apply (IH z).
Qed.

(** ** Base 64 *)

Lemma list3_ind {A} (P : list A -> Prop) :
  P [] -> (forall a, P [a]) -> (forall a b, P [a; b]) ->
  (forall a b c r, P r -> P (a :: b :: c :: r)) -> forall l, P l.
Proof.
  intros H0 H1 H2 H3 l.
  assert (forall n l, (List.length l <= n)%nat -> P l) as G; [|now apply (G (List.length l))].
  clear l. induction n as [|n IH]; intros l Hl.
  - destruct l; [assumption|simpl in Hl; lia].
  - destruct l as [|a [|b [|c r]]]; auto. apply H3. apply IH. simpl in Hl. lia.
Qed.

Lemma b64_val_char v : v < 64 -> b64_val (b64_char v) = Some v.
Proof.
  intros H. pose proof (upto_spec 64 (fun v => match b64_val (b64_char v) with
    Some u => u =? v | None => false end)) as U.
  assert (forallb (fun v => match b64_val (b64_char v) with
    Some u => u =? v | None => false end) (upto 64) = true) as E by (vm_compute; reflexivity).
  specialize (U E v H). cbv beta in U. destruct (b64_val (b64_char v)) as [u|]; [|discriminate].
  f_equal. now apply N.eqb_eq.
Qed.

Lemma b64_char_is v : is_b64_char (b64_char v) = true.
Proof.
  unfold b64_char, is_b64_char, is_az, is_AZ, is_09, c_plus, c_slash.
  destruct (v <? 26) eqn:E1; [lia|]. destruct (v <? 52) eqn:E2; [lia|].
  destruct (v <? 62) eqn:E3; [lia|]. now destruct (v =? 62).
Qed.

Lemma is_b64_char_val c : is_b64_char c = true <-> exists v, b64_val c = Some v.
Proof.
  unfold is_b64_char, b64_val.
  destruct (is_AZ c), (is_az c), (is_09 c), (c =? c_plus), (c =? c_slash); simpl;
    split; intros H; try reflexivity; try discriminate; try (eexists; reflexivity);
    destruct H; discriminate.
Qed.

Lemma is_b64_char_ascii c : is_b64_char c = true -> c < 128 /\ c <> c_eq /\ c <> c_nl /\ c <> c_us.
Proof. unfold is_b64_char, is_az, is_AZ, is_09, c_plus, c_slash, c_eq, c_nl, c_us. lia. Qed.

Lemma b64_char_neq_eq v : (b64_char v =? c_eq) = false.
Proof. pose proof (is_b64_char_ascii _ (b64_char_is v)) as H. apply N.eqb_neq. tauto. Qed.

Lemma b64_val_range c v : b64_val c = Some v -> v < 64.
Proof.
  unfold b64_val, is_AZ, is_az, is_09. intros H.
  destruct ((65 <=? c) && (c <=? 90)) eqn:E1; [injection H as <-; lia|].
  destruct ((97 <=? c) && (c <=? 122)) eqn:E2; [injection H as <-; lia|].
  destruct ((48 <=? c) && (c <=? 57)) eqn:E3; [injection H as <-; lia|].
  destruct (c =? c_plus); [injection H as <-; lia|].
  destruct (c =? c_slash); [injection H as <-; lia|discriminate].
Qed.

Lemma b64_char_val c v : b64_val c = Some v -> b64_char v = c.
Proof.
  unfold b64_val, b64_char, is_AZ, is_az, is_09, c_plus, c_slash. intros H.
  destruct ((65 <=? c) && (c <=? 90)) eqn:E1.
  { injection H as <-. replace (c - 65 <? 26) with true by lia. lia. }
  destruct ((97 <=? c) && (c <=? 122)) eqn:E2.
  { injection H as <-. replace (c - 71 <? 26) with false by lia.
    replace (c - 71 <? 52) with true by lia. lia. }
  destruct ((48 <=? c) && (c <=? 57)) eqn:E3.
  { injection H as <-. replace (c + 4 <? 26) with false by lia.
    replace (c + 4 <? 52) with false by lia. replace (c + 4 <? 62) with true by lia. lia. }
  destruct (c =? 43) eqn:E4; [injection H as <-; cbn; lia|].
  destruct (c =? 47) eqn:E5; [injection H as <-; cbn; lia|discriminate].
Qed.

Lemma a2b_data qp left pads v r :
  v < 64 ->
  a2b qp left pads (b64_char v :: r) =
  match qp with
  | O => a2b 1 v 0 r
  | S O => do t <- a2b 2 (v mod 16) 0 r; Ok ((left * 4) mod 256 + v / 16 :: t)
  | S (S O) => do t <- a2b 3 (v mod 4) 0 r; Ok ((left * 16) mod 256 + v / 4 :: t)
  | _ => do t <- a2b 0 0 0 r; Ok ((left * 64) mod 256 + v :: t)
  end.
Proof.
  intros H. cbn [a2b]. rewrite b64_char_neq_eq, (b64_val_char v H). reflexivity.
Qed.

Lemma a2b_pad2 left : a2b 2 left 0 [c_eq; c_eq] = Ok [].
Proof. reflexivity. Qed.
Lemma a2b_pad1 left : a2b 3 left 0 [c_eq] = Ok [].
Proof. reflexivity. Qed.

Theorem a2b_b64encode b : is_bytes b -> a2b_base64 (b64encode b) = Ok b.
Proof.
  unfold is_bytes, a2b_base64. induction b as [|a|a b|a b c r IH] using list3_ind; intros H.
  - reflexivity.
  - inversion H; subst. cbn [b64encode]. rewrite a2b_data by lia. rewrite a2b_data by lia.
    rewrite a2b_pad2. cbn [bind]. list_lia.
  - inversion H as [|? ? Ha H']; subst. inversion H'; subst. cbn [b64encode].
    rewrite a2b_data by lia. rewrite a2b_data by lia. rewrite a2b_data by lia.
    rewrite a2b_pad1. cbn [bind]. list_lia.
  - inversion H as [|? ? Ha H1]; subst. inversion H1 as [|? ? Hb H2]; subst.
    inversion H2 as [|? ? Hc H3]; subst. cbn [b64encode].
    rewrite a2b_data by lia. rewrite a2b_data by lia. rewrite a2b_data by lia.
    rewrite a2b_data by lia. rewrite (IH H3). cbn [bind].
    list_lia.
Qed.

(** Shape of encoder output: alphabet characters, then at most two pads. *)
Lemma b64encode_shape b :
  exists d k, b64encode b = d ++ repeat c_eq k /\ forallb is_b64_char d = true
    /\ (k <= 2)%nat /\ ((List.length d + k) mod 4 = 0)%nat
    /\ k = ((3 - List.length b mod 3) mod 3)%nat.
Proof.
  induction b as [|a|a b|a b c r IH] using list3_ind.
  - exists [], 0%nat. repeat split; lia.
  - exists [b64_char (a / 4); b64_char ((a mod 4) * 16)], 2%nat. cbn [b64encode app repeat].
    repeat split; cbn [forallb]; rewrite ?b64_char_is; reflexivity || (cbn; lia).
  - exists [b64_char (a / 4); b64_char ((a mod 4) * 16 + b / 16); b64_char ((b mod 16) * 4)], 1%nat.
    cbn [b64encode app repeat].
    repeat split; cbn [forallb]; rewrite ?b64_char_is; reflexivity || (cbn; lia).
  - destruct IH as (d & k & E & Hd & Hk & Hm & Ek).
    exists (b64_char (a / 4) :: b64_char ((a mod 4) * 16 + b / 16)
      :: b64_char ((b mod 16) * 4 + c / 64) :: b64_char (c mod 64) :: d), k.
    cbn [b64encode]. rewrite E. repeat split; try assumption.
    + cbn [forallb]. now rewrite !b64_char_is.
    + cbn [List.length]. replace (S (S (S (S (List.length d)))) + k)%nat with (List.length d + k + 1 * 4)%nat by lia.
      now rewrite Nat.mod_add by lia.
    + cbn [List.length]. replace (S (S (S (List.length r)))) with (List.length r + 1 * 3)%nat by lia.
      now rewrite Nat.mod_add by lia.
Qed.

Lemma b64encode_ascii b : Forall (fun c => c < 128) (b64encode b).
Proof.
  destruct (b64encode_shape b) as (d & k & -> & Hd & _). apply Forall_app. split.
  - apply Forall_forall. intros x Hx. rewrite forallb_forall in Hd.
    apply (is_b64_char_ascii x (Hd x Hx)).
  - apply Forall_forall. intros x Hx. apply repeat_spec in Hx. subst. reflexivity.
Qed.

Lemma b64encode_regex b : re_match b64Regex (b64encode b) = true.
Proof.
  destruct (b64encode_shape b) as (d & k & -> & Hd & Hk & _).
  apply b64Regex_spec. exists d, k, []. rewrite app_nil_r. repeat split; try assumption; try lia.
  now left.
Qed.

(** librksv's b64decode inverts the encoder. *)
Theorem b64decode_encode b : is_bytes b -> b64decode (b64encode b) = Ok b.
Proof.
  intros H. unfold b64decode. rewrite utf8_decode_ascii by apply b64encode_ascii.
  cbn [bind]. rewrite b64encode_regex. now apply a2b_b64encode.
Qed.

(** The url safe alphabet. *)
Lemma from_to_urlsafe c : is_b64_char c = true \/ c = c_eq -> from_urlsafe (to_urlsafe c) = c.
Proof.
  unfold from_urlsafe, to_urlsafe, is_b64_char, is_az, is_AZ, is_09, c_plus, c_slash, c_dash, c_us, c_eq.
  intros H. destruct (c =? 43) eqn:E1; [cbn; lia|]. destruct (c =? 47) eqn:E2; [cbn; lia|].
  replace (c =? 45) with false by lia. replace (c =? 95) with false by lia. reflexivity.
Qed.

Lemma to_urlsafe_char c : is_b64_char c = true -> is_b64url_char (to_urlsafe c) = true.
Proof.
  unfold to_urlsafe, is_b64_char, is_b64url_char, is_az, is_AZ, is_09, c_plus, c_slash, c_dash, c_us.
  intros H. destruct (c =? 43) eqn:E1; [reflexivity|]. destruct (c =? 47) eqn:E2; [reflexivity|]. lia.
Qed.

Lemma is_b64url_char_ascii c :
  is_b64url_char c = true -> c < 128 /\ c <> c_eq /\ c <> c_nl /\ c <> c_dot.
Proof. unfold is_b64url_char, is_az, is_AZ, is_09, c_us, c_dash, c_eq, c_nl, c_dot. lia. Qed.

Lemma map_repeat {A B} (f : A -> B) x n : map f (repeat x n) = repeat (f x) n.
Proof. induction n; simpl; congruence. Qed.

Lemma urlsafe_shape b :
  exists d k, urlsafe_b64encode b = d ++ repeat c_eq k /\ forallb is_b64url_char d = true
    /\ (k <= 2)%nat /\ ((List.length d + k) mod 4 = 0)%nat
    /\ k = ((3 - List.length b mod 3) mod 3)%nat
    /\ b64url_nopad b = d.
Proof.
  destruct (b64encode_shape b) as (d & k & E & Hd & Hk & Hm & Ek).
  assert (forallb is_b64url_char (map to_urlsafe d) = true) as Hd'.
  { apply forallb_forall. intros x Hx. apply in_map_iff in Hx as (y & <- & Hy).
    rewrite forallb_forall in Hd. now apply to_urlsafe_char, Hd. }
  assert (urlsafe_b64encode b = map to_urlsafe d ++ repeat c_eq k) as E'.
  { unfold urlsafe_b64encode. rewrite E, map_app, map_repeat. reflexivity. }
  exists (map to_urlsafe d), k. rewrite map_length. repeat split; try assumption.
  unfold b64url_nopad. rewrite E', remove_char_app, remove_char_notin.
  - replace (remove_char c_eq (repeat c_eq k)) with (@nil N); [apply app_nil_r|].
    symmetry. clear. unfold remove_char. induction k; simpl; [reflexivity|assumption].
  - intros Hin. rewrite forallb_forall in Hd'. apply Hd' in Hin.
    apply is_b64url_char_ascii in Hin. tauto.
Qed.

Lemma b64url_nopad_chars b : forallb is_b64url_char (b64url_nopad b) = true.
Proof. destruct (urlsafe_shape b) as (d & k & _ & Hd & _ & _ & _ & ->). exact Hd. Qed.

Lemma b64url_nopad_ascii b : Forall (fun c => c < 128) (b64url_nopad b).
Proof.
  apply Forall_forall. intros x Hx. pose proof (b64url_nopad_chars b) as H.
  rewrite forallb_forall in H. apply H in Hx. now apply is_b64url_char_ascii in Hx.
Qed.

Lemma b64url_nopad_noeq b : ends_with_char c_eq (b64url_nopad b) = false.
Proof.
  destruct (ends_with_char c_eq (b64url_nopad b)) eqn:E; [|reflexivity].
  apply ends_with_char_In in E. unfold b64url_nopad in E.
  now apply remove_char_not_In in E.
Qed.

Lemma b64url_nopad_nodot b : ~ In c_dot (b64url_nopad b).
Proof.
  intros H. pose proof (b64url_nopad_chars b) as F. rewrite forallb_forall in F.
  apply F in H. apply is_b64url_char_ascii in H. tauto.
Qed.

Lemma restore_padding b : restoreb64padding (b64url_nopad b) = urlsafe_b64encode b.
Proof.
  destruct (urlsafe_shape b) as (d & k & E & _ & Hk & Hm & _ & En). rewrite En, E.
  unfold restoreb64padding.
  assert (List.length d mod 4 = (4 - k) mod 4)%nat as L by lia.
  rewrite L. destruct k as [|[|[|k]]]; [| | |lia]; cbn; [|reflexivity|reflexivity].
  now rewrite app_nil_r.
Qed.

Lemma urlsafe_ascii b : Forall (fun c => c < 128) (urlsafe_b64encode b).
Proof.
  destruct (urlsafe_shape b) as (d & k & -> & Hd & _). apply Forall_app. split.
  - apply Forall_forall. intros x Hx. rewrite forallb_forall in Hd.
    apply (is_b64url_char_ascii x (Hd x Hx)).
  - apply Forall_forall. intros x Hx. apply repeat_spec in Hx. subst. reflexivity.
Qed.

Lemma urlsafe_regex b : re_match urlsafe_b64Regex (urlsafe_b64encode b) = true.
Proof.
  destruct (urlsafe_shape b) as (d & k & -> & Hd & Hk & _).
  apply urlsafe_b64Regex_spec. exists d, k, []. rewrite app_nil_r.
  repeat split; try assumption; try lia. now left.
Qed.

Theorem urlsafe_decode_encode b : is_bytes b -> urlsafe_b64decode (urlsafe_b64encode b) = Ok b.
Proof.
  intros H. unfold urlsafe_b64decode. rewrite utf8_decode_ascii by apply urlsafe_ascii.
  cbn [bind]. rewrite urlsafe_regex. unfold urlsafe_b64encode. rewrite map_map.
  replace (map (fun x => from_urlsafe (to_urlsafe x)) (b64encode b)) with (b64encode b).
  { now apply a2b_b64encode. }
  symmetry. rewrite <- (map_id (b64encode b)) at 2. apply map_ext_in.
  intros x Hx. apply from_to_urlsafe. destruct (b64encode_shape b) as (d & k & E & Hd & _).
  rewrite E in Hx. apply in_app_or in Hx as [Hx|Hx].
  - left. rewrite forallb_forall in Hd. now apply Hd.
  - right. now apply repeat_spec in Hx.
Qed.

(** Texts with the padding removed are restored and decoded. *)
Theorem urlsafe_decode_nopad b :
  is_bytes b ->
  exists t, utf8_encode (restoreb64padding (b64url_nopad b)) = Ok t /\ urlsafe_b64decode t = Ok b.
Proof.
  intros H. rewrite restore_padding. exists (urlsafe_b64encode b).
  split; [apply utf8_encode_ascii, urlsafe_ascii|now apply urlsafe_decode_encode].
Qed.

(** ** Which texts decode *)

(** Decoding of alphabet characters only, with the trailing text not
    interpreted further. *)
Definition b64_good (n k : nat) : Prop :=
  (n mod 4 = 0 \/ (n mod 4 = 2 /\ 2 <= k) \/ (n mod 4 = 3 /\ 1 <= k))%nat.

Lemma a2b_pads qp left k nl :
  (qp < 4)%nat -> opt_nl nl ->
  (exists r, a2b qp left 0 (repeat c_eq k ++ nl) = Ok r) <->
  (qp = 0 \/ (qp = 2 /\ 2 <= k) \/ (qp = 3 /\ 1 <= k))%nat.
Proof.
  intros Hq Hn.
  assert (forall l p, exists r, a2b 0 l p (repeat c_eq k ++ nl) = Ok r) as A0.
  { intros l p. induction k as [|k IH]; simpl; [|exact IH].
    destruct Hn as [->| ->]; cbn; eauto. }
  assert (forall l p q, (0 < q)%nat -> a2b q l p nl = Err PyBinasciiError) as AN.
  { intros l p q Hq0. destruct q; [lia|]. destruct Hn as [->| ->]; reflexivity. }
  destruct qp as [|[|[|[|qp]]]]; [| | | |lia].
  - split; [lia|]. intros _. apply A0.
  - split; [|lia]. intros [r H]. exfalso.
    assert (a2b 1 left 0 (repeat c_eq k ++ nl) = Err PyBinasciiError) as E; [|congruence].
    clear H A0. induction k; [apply AN; lia|exact IHk].
  - destruct k as [|[|k]].
    + split; [intros [r H]; simpl in H; rewrite AN in H by lia; discriminate|lia].
    + split; [intros [r H]; simpl in H; rewrite AN in H by lia; discriminate|lia].
    + split; [lia|]. intros _. exists []. reflexivity.
  - destruct k as [|k].
    + split; [intros [r H]; simpl in H; rewrite AN in H by lia; discriminate|lia].
    + split; [lia|]. intros _. exists []. reflexivity.
Qed.

Lemma a2b_all d : forallb is_b64_char d = true -> forall qp left tail,
  (qp < 4)%nat ->
  (exists r, a2b qp left 0 (d ++ tail) = Ok r) <->
  exists left', exists r, a2b ((qp + List.length d) mod 4) left' 0 tail = Ok r.
Proof.
  assert (forall l l' q t, (exists r, a2b q l 0 t = Ok r) -> exists r, a2b q l' 0 t = Ok r) as IND.
  { intros l l' q t. generalize 0 as p. intros p. revert q l l' p.
    induction t as [|c t IH]; intros q l l' p [r H].
    - destruct q; [eauto|discriminate].
    - cbn [a2b] in *. destruct (c =? c_eq).
      + destruct q as [|[|q]];
          [exact (IH _ l l' _ (ex_intro _ r H))|exact (IH _ l l' _ (ex_intro _ r H))|].
        destruct (4 <=? N.of_nat (S (S q)) + (p + 1)); [eauto|].
        exact (IH _ l l' _ (ex_intro _ r H)).
      + destruct (b64_val c) as [v|]; [|exact (IH _ l l' _ (ex_intro _ r H))].
        destruct q as [|[|[|q]]]; [now exists r| | |];
          apply bind_Ok in H as (t' & Ht & _); rewrite Ht; eexists; reflexivity. }
  induction d as [|c d IH]; intros Hd qp left tail Hq.
  - cbn [app List.length]. rewrite Nat.add_0_r, Nat.mod_small by lia. split.
    + intros H. now exists left.
    + intros [l' H]. now apply (IND l').
  - cbn [forallb] in Hd. apply andb_true_iff in Hd as [Hc Hd].
    apply is_b64_char_val in Hc as Hv. destruct Hv as [v Hv].
    assert ((c =? c_eq) = false) as Ne.
    { apply N.eqb_neq. apply (is_b64_char_ascii c Hc). }
    cbn [app a2b List.length]. rewrite Ne, Hv. specialize (IH Hd).
    destruct qp as [|[|[|qp]]].
    + rewrite (IH 1%nat v tail) by lia. reflexivity.
    + replace ((1 + S (List.length d)) mod 4)%nat with ((2 + List.length d) mod 4)%nat by (f_equal; lia).
      rewrite <- (IH 2%nat (v mod 16) tail) by lia. split.
      * intros [r H]. apply bind_Ok in H as (t & -> & _). eauto.
      * intros [r ->]. cbn. eauto.
    + replace ((2 + S (List.length d)) mod 4)%nat with ((3 + List.length d) mod 4)%nat by (f_equal; lia).
      rewrite <- (IH 3%nat (v mod 4) tail) by lia. split.
      * intros [r H]. apply bind_Ok in H as (t & -> & _). eauto.
      * intros [r ->]. cbn. eauto.
    + replace (S (S (S qp)) + S (List.length d))%nat with (0 + List.length d + 1 * 4)%nat by lia.
      rewrite Nat.mod_add by lia.
      rewrite <- (IH 0%nat 0 tail) by lia. split.
      * intros [r H]. apply bind_Ok in H as (t & -> & _). eauto.
      * intros [r ->]. cbn. eauto.
Qed.

(** A text is accepted by b64decode exactly if it consists of characters of the
    alphabet, at most three pad characters which complete the last group (any
    number of them if there is nothing to complete), and maybe a newline. *)
Definition b64_text (s : str) : Prop :=
  exists d k nl, s = d ++ repeat c_eq k ++ nl /\ forallb is_b64_char d = true /\ (k <= 3)%nat
    /\ opt_nl nl /\ b64_good (List.length d) k.

Lemma b64_text_ascii_parts d k nl :
  forallb is_b64_char d = true -> opt_nl nl -> Forall (fun c => c < 128) (d ++ repeat c_eq k ++ nl).
Proof.
  intros Hd Hn. apply Forall_app; split.
  - apply Forall_forall. intros x Hx. rewrite forallb_forall in Hd. apply (is_b64_char_ascii x (Hd x Hx)).
  - apply Forall_app. split.
    + apply Forall_forall. intros x Hx. apply repeat_spec in Hx. subst. reflexivity.
    + destruct Hn as [->| ->]; repeat constructor.
Qed.

Theorem b64decode_accepts s :
  (exists b, b64decode s = Ok b) <-> b64_text s.
Proof.
  unfold b64decode. split.
  - intros [b H]. apply bind_Ok in H as (t & Ht & H).
    destruct (re_match b64Regex t) eqn:R; [|discriminate].
    apply b64Regex_spec in R as (d & k & nl & -> & Hd & Hk & Hn).
    apply utf8_encode_decode in Ht.
    rewrite utf8_encode_ascii in Ht by now apply b64_text_ascii_parts.
    injection Ht as <-. exists d, k, nl. repeat split; try assumption.
    assert (exists r, a2b 0 0 0 (d ++ repeat c_eq k ++ nl) = Ok r) as G by eauto.
    apply a2b_all in G as [l G]; [|assumption|lia]. rewrite Nat.add_0_l in G.
    pose proof (Nat.mod_upper_bound (List.length d) 4). apply a2b_pads in G; [|lia|assumption].
    exact G.
  - intros (d & k & nl & -> & Hd & Hk & Hn & G).
    rewrite utf8_decode_ascii by now apply b64_text_ascii_parts. cbn [bind].
    replace (re_match b64Regex (d ++ repeat c_eq k ++ nl)) with true.
    2: { symmetry. apply b64Regex_spec. eauto 10. }
    apply a2b_all; [assumption|lia|]. rewrite Nat.add_0_l. exists 0.
    apply a2b_pads; [|assumption|exact G]. apply Nat.mod_upper_bound. lia.
Qed.

(** ** Base 32 *)

Lemma list5_ind {A} (P : list A -> Prop) :
  P [] -> (forall a, P [a]) -> (forall a b, P [a; b]) -> (forall a b c, P [a; b; c]) ->
  (forall a b c d, P [a; b; c; d]) ->
  (forall a b c d e r, P r -> P (a :: b :: c :: d :: e :: r)) -> forall l, P l.
Proof.
  intros H0 H1 H2 H3 H4 H5 l.
  assert (forall n l, (List.length l <= n)%nat -> P l) as G; [|now apply (G (List.length l))].
  clear l. induction n as [|n IH]; intros l Hl.
  - destruct l; [assumption|simpl in Hl; lia].
  - destruct l as [|a [|b [|c [|d [|e r]]]]]; auto. apply H5. apply IH. simpl in Hl. lia.
Qed.

Lemma b32_val_char v : v < 32 -> b32_val (b32_char v) = Some v.
Proof.
  intros H. pose proof (upto_spec 32 (fun v => match b32_val (b32_char v) with
    Some u => u =? v | None => false end)) as U.
  assert (forallb (fun v => match b32_val (b32_char v) with
    Some u => u =? v | None => false end) (upto 32) = true) as E by (vm_compute; reflexivity).
  specialize (U E v H). cbv beta in U. destruct (b32_val (b32_char v)) as [u|]; [|discriminate].
  f_equal. now apply N.eqb_eq.
Qed.

Definition is_b32_char (c : N) : bool := is_AZ c || ((50 <=? c) && (c <=? 55)).

Lemma b32_char_is v : v < 32 -> is_b32_char (b32_char v) = true.
Proof.
  intros H. unfold b32_char, is_b32_char, is_AZ. destruct (v <? 26) eqn:E; lia.
Qed.

Lemma is_b32_char_ascii c : is_b32_char c = true -> c < 128 /\ c <> c_eq /\ c <> c_us /\ is_b32_re_char c = true.
Proof.
  unfold is_b32_char, is_b32_re_char, is_AZ, c_eq, c_us. intros H.
  repeat split; try lia.
Qed.

Lemma bytes5_spec a b c d e :
  a < 256 -> b < 256 -> c < 256 -> d < 256 -> e < 256 ->
  bytes5 (a * 4294967296 + b * 16777216 + c * 65536 + d * 256 + e) = [a; b; c; d; e].
Proof.
  intros Ha Hb Hc Hd He. unfold bytes5.
  remember (a * 4294967296 + b * 16777216 + c * 65536 + d * 256 + e) as V eqn:EV.
  assert (V / 4294967296 = a) as ->.
  { symmetry. apply N.div_unique with (r := b * 16777216 + c * 65536 + d * 256 + e); lia. }
  assert (V / 16777216 = a * 256 + b) as ->.
  { symmetry. apply N.div_unique with (r := c * 65536 + d * 256 + e); lia. }
  assert (V / 65536 = a * 65536 + b * 256 + c) as ->.
  { symmetry. apply N.div_unique with (r := d * 256 + e); lia. }
  assert (V / 256 = a * 16777216 + b * 65536 + c * 256 + d) as ->.
  { symmetry. apply N.div_unique with (r := e); lia. }
  assert ((a * 256 + b) mod 256 = b) as ->.
  { symmetry. apply N.mod_unique with (q := a); lia. }
  assert ((a * 65536 + b * 256 + c) mod 256 = c) as ->.
  { symmetry. apply N.mod_unique with (q := a * 256 + b); lia. }
  assert ((a * 16777216 + b * 65536 + c * 256 + d) mod 256 = d) as ->.
  { symmetry. apply N.mod_unique with (q := a * 65536 + b * 256 + c); lia. }
  assert (V mod 256 = e) as ->.
  { symmetry. apply N.mod_unique with (q := a * 16777216 + b * 65536 + c * 256 + d); lia. }
  reflexivity.
Qed.

(** The pieces of five bytes that form base 32 digits. *)
Lemma b32_cut_a a : a < 256 -> exists a1 a2,
  a / 8 = a1 /\ a mod 8 = a2 /\ a = 8 * a1 + a2 /\ a1 < 32 /\ a2 < 8.
Proof. intros H. exists (a / 8), (a mod 8). lia. Qed.
Lemma b32_cut_b b : b < 256 -> exists b1 b2 b3,
  b / 64 = b1 /\ (b / 2) mod 32 = b2 /\ b mod 2 = b3 /\ b = 64 * b1 + 2 * b2 + b3
  /\ b1 < 4 /\ b2 < 32 /\ b3 < 2.
Proof. intros H. exists (b / 64), ((b / 2) mod 32), (b mod 2). lia. Qed.
Lemma b32_cut_c c : c < 256 -> exists c1 c2,
  c / 16 = c1 /\ c mod 16 = c2 /\ c = 16 * c1 + c2 /\ c1 < 16 /\ c2 < 16.
Proof. intros H. exists (c / 16), (c mod 16). lia. Qed.
Lemma b32_cut_d d : d < 256 -> exists d1 d2 d3,
  d / 128 = d1 /\ (d / 4) mod 32 = d2 /\ d mod 4 = d3 /\ d = 128 * d1 + 4 * d2 + d3
  /\ d1 < 2 /\ d2 < 32 /\ d3 < 4.
Proof. intros H. exists (d / 128), ((d / 4) mod 32), (d mod 4). lia. Qed.
Lemma b32_cut_e e : e < 256 -> exists e1 e2,
  e / 32 = e1 /\ e mod 32 = e2 /\ e = 32 * e1 + e2 /\ e1 < 8 /\ e2 < 32.
Proof. intros H. exists (e / 32), (e mod 32). lia. Qed.

(** Body and padding of encoder output. *)
Lemma b32encode_shape b : is_bytes b ->
  exists d k, b32encode b = d ++ repeat c_eq k /\ forallb is_b32_char d = true
    /\ In k [0; 1; 3; 4; 6]%nat /\ ((List.length d + k) mod 8 = 0)%nat /\ b32_quanta k d = Ok b.
Proof.
  unfold is_bytes. induction b as [|a|a b|a b c|a b c d|a b c d e r IH] using list5_ind; intros H.
  - exists [], 0%nat. repeat split; simpl; auto.
  - inversion H as [|? ? Ha _]; subst. clear H.
    destruct (b32_cut_a a Ha) as (a1 & a2 & Ea1 & Ea2 & Ea & La1 & La2).
    exists [b32_char a1; b32_char (a2 * 4)], 6%nat.
    split; [cbn [b32encode]; now rewrite Ea1, Ea2|].
    clear Ea1 Ea2.
    split; [cbn [forallb]; now rewrite !b32_char_is by lia|].
    split; [simpl; tauto|]. split; [reflexivity|].
    cbn [b32_quanta b32_acc]. rewrite !b32_val_char by lia. cbn [b32_acc].
    change (32 ^ N.of_nat 6) with 1073741824. change ((43 - 5 * 6) / 8)%nat with 1%nat.
    replace (((0 * 32 + a1) * 32 + a2 * 4) * 1073741824)
      with (a * 4294967296 + 0 * 16777216 + 0 * 65536 + 0 * 256 + 0) by lia.
    now rewrite bytes5_spec by lia.
  - inversion H as [|? ? Ha H']; subst. inversion H' as [|? ? Hb _]; subst. clear H H'.
    destruct (b32_cut_a a Ha) as (a1 & a2 & Ea1 & Ea2 & Ea & La1 & La2).
    destruct (b32_cut_b b Hb) as (b1 & b2 & b3 & Eb1 & Eb2 & Eb3 & Eb & Lb1 & Lb2 & Lb3).
    exists [b32_char a1; b32_char (a2 * 4 + b1); b32_char b2; b32_char (b3 * 16)], 4%nat.
    split; [cbn [b32encode]; now rewrite Ea1, Ea2, Eb1, Eb2, Eb3|].
    clear Ea1 Ea2 Eb1 Eb2 Eb3.
    split; [cbn [forallb]; now rewrite !b32_char_is by lia|].
    split; [simpl; tauto|]. split; [reflexivity|].
    cbn [b32_quanta b32_acc]. rewrite !b32_val_char by lia. cbn [b32_acc].
    change (32 ^ N.of_nat 4) with 1048576. change ((43 - 5 * 4) / 8)%nat with 2%nat.
    replace (((((0 * 32 + a1) * 32 + (a2 * 4 + b1)) * 32 + b2) * 32 + b3 * 16) * 1048576)
      with (a * 4294967296 + b * 16777216 + 0 * 65536 + 0 * 256 + 0) by lia.
    now rewrite bytes5_spec by lia.
  - inversion H as [|? ? Ha H1]; subst. inversion H1 as [|? ? Hb H2]; subst.
    inversion H2 as [|? ? Hc _]; subst. clear H H1 H2.
    destruct (b32_cut_a a Ha) as (a1 & a2 & Ea1 & Ea2 & Ea & La1 & La2).
    destruct (b32_cut_b b Hb) as (b1 & b2 & b3 & Eb1 & Eb2 & Eb3 & Eb & Lb1 & Lb2 & Lb3).
    destruct (b32_cut_c c Hc) as (c1 & c2 & Ec1 & Ec2 & Ec & Lc1 & Lc2).
    exists [b32_char a1; b32_char (a2 * 4 + b1); b32_char b2; b32_char (b3 * 16 + c1);
            b32_char (c2 * 2)], 3%nat.
    split; [cbn [b32encode]; now rewrite Ea1, Ea2, Eb1, Eb2, Eb3, Ec1, Ec2|].
    clear Ea1 Ea2 Eb1 Eb2 Eb3 Ec1 Ec2.
    split; [cbn [forallb]; now rewrite !b32_char_is by lia|].
    split; [simpl; tauto|]. split; [reflexivity|].
    cbn [b32_quanta b32_acc]. rewrite !b32_val_char by lia. cbn [b32_acc].
    change (32 ^ N.of_nat 3) with 32768. change ((43 - 5 * 3) / 8)%nat with 3%nat.
    replace ((((((0 * 32 + a1) * 32 + (a2 * 4 + b1)) * 32 + b2) * 32 + (b3 * 16 + c1)) * 32
              + c2 * 2) * 32768)
      with (a * 4294967296 + b * 16777216 + c * 65536 + 0 * 256 + 0) by lia.
    now rewrite bytes5_spec by lia.
  - inversion H as [|? ? Ha H1]; subst. inversion H1 as [|? ? Hb H2]; subst.
    inversion H2 as [|? ? Hc H3]; subst. inversion H3 as [|? ? Hd _]; subst. clear H H1 H2 H3.
    destruct (b32_cut_a a Ha) as (a1 & a2 & Ea1 & Ea2 & Ea & La1 & La2).
    destruct (b32_cut_b b Hb) as (b1 & b2 & b3 & Eb1 & Eb2 & Eb3 & Eb & Lb1 & Lb2 & Lb3).
    destruct (b32_cut_c c Hc) as (c1 & c2 & Ec1 & Ec2 & Ec & Lc1 & Lc2).
    destruct (b32_cut_d d Hd) as (d1 & d2 & d3 & Ed1 & Ed2 & Ed3 & Ed & Ld1 & Ld2 & Ld3).
    exists [b32_char a1; b32_char (a2 * 4 + b1); b32_char b2; b32_char (b3 * 16 + c1);
            b32_char (c2 * 2 + d1); b32_char d2; b32_char (d3 * 8)], 1%nat.
    split; [cbn [b32encode]; now rewrite Ea1, Ea2, Eb1, Eb2, Eb3, Ec1, Ec2, Ed1, Ed2, Ed3|].
    clear Ea1 Ea2 Eb1 Eb2 Eb3 Ec1 Ec2 Ed1 Ed2 Ed3.
    split; [cbn [forallb]; now rewrite !b32_char_is by lia|].
    split; [simpl; tauto|]. split; [reflexivity|].
    cbn [b32_quanta b32_acc]. rewrite !b32_val_char by lia. cbn [b32_acc].
    change (32 ^ N.of_nat 1) with 32. change ((43 - 5 * 1) / 8)%nat with 4%nat.
    replace ((((((((0 * 32 + a1) * 32 + (a2 * 4 + b1)) * 32 + b2) * 32 + (b3 * 16 + c1)) * 32
              + (c2 * 2 + d1)) * 32 + d2) * 32 + d3 * 8) * 32)
      with (a * 4294967296 + b * 16777216 + c * 65536 + d * 256 + 0) by lia.
    now rewrite bytes5_spec by lia.
  - inversion H as [|? ? Ha H1]; subst. inversion H1 as [|? ? Hb H2]; subst.
    inversion H2 as [|? ? Hc H3]; subst. inversion H3 as [|? ? Hd H4]; subst.
    inversion H4 as [|? ? He H5]; subst. clear H H1 H2 H3 H4.
    destruct (IH H5) as (q & k & E & Hq & Hk & Hm & Hqu). clear IH H5.
    destruct (b32_cut_a a Ha) as (a1 & a2 & Ea1 & Ea2 & Ea & La1 & La2).
    destruct (b32_cut_b b Hb) as (b1 & b2 & b3 & Eb1 & Eb2 & Eb3 & Eb & Lb1 & Lb2 & Lb3).
    destruct (b32_cut_c c Hc) as (c1 & c2 & Ec1 & Ec2 & Ec & Lc1 & Lc2).
    destruct (b32_cut_d d Hd) as (d1 & d2 & d3 & Ed1 & Ed2 & Ed3 & Ed & Ld1 & Ld2 & Ld3).
    destruct (b32_cut_e e He) as (e1 & e2 & Ee1 & Ee2 & Ee & Le1 & Le2).
    exists (b32_char a1 :: b32_char (a2 * 4 + b1) :: b32_char b2 :: b32_char (b3 * 16 + c1)
            :: b32_char (c2 * 2 + d1) :: b32_char d2 :: b32_char (d3 * 8 + e1) :: b32_char e2 :: q), k.
    split; [cbn [b32encode]; rewrite E; now rewrite Ea1, Ea2, Eb1, Eb2, Eb3, Ec1, Ec2, Ed1, Ed2, Ed3, Ee1, Ee2|].
    clear Ea1 Ea2 Eb1 Eb2 Eb3 Ec1 Ec2 Ed1 Ed2 Ed3 Ee1 Ee2.
    split; [cbn [forallb]; now rewrite !b32_char_is by (clear Hm; lia)|].
    split; [assumption|]. split.
    + cbn [List.length].
      replace (S (S (S (S (S (S (S (S (List.length q)))))))) + k)%nat with (List.length q + k + 1 * 8)%nat by (clear; lia).
      now rewrite Nat.mod_add by (clear; lia).
    + clear Hm. cbn [b32_quanta b32_acc]. rewrite !b32_val_char by lia. cbn [b32_acc]. rewrite Hqu. cbn [bind].
      replace ((((((((0 * 32 + a1) * 32 + (a2 * 4 + b1)) * 32 + b2) * 32 + (b3 * 16 + c1)) * 32
              + (c2 * 2 + d1)) * 32 + d2) * 32 + (d3 * 8 + e1)) * 32 + e2)
        with (a * 4294967296 + b * 16777216 + c * 65536 + d * 256 + e) by lia.
      now rewrite bytes5_spec by lia.
Qed.

Lemma rstrip_eq_len_app d k :
  forallb is_b32_char d = true -> rstrip_eq_len (d ++ repeat c_eq k) = (k, d).
Proof.
  intros H. induction d as [|c d IH].
  - simpl. induction k as [|k IH]; simpl; [reflexivity|]. now rewrite IH.
  - cbn [forallb] in H. apply andb_true_iff in H as [Hc Hd]. simpl. rewrite (IH Hd).
    destruct d; [|reflexivity].
    destruct (c =? c_eq) eqn:E; [|reflexivity]. apply N.eqb_eq in E. subst. discriminate.
Qed.

Theorem py_b32decode_encode b : is_bytes b -> py_b32decode (b32encode b) = Ok b.
Proof.
  intros H. destruct (b32encode_shape b H) as (d & k & E & Hd & Hk & Hm & Hq).
  unfold py_b32decode. rewrite E, app_length, repeat_length, Hm. cbn [Nat.eqb].
  rewrite rstrip_eq_len_app by assumption. rewrite Hq. cbn [bind].
  replace (existsb (Nat.eqb k) [0; 1; 3; 4; 6]%nat) with true; [reflexivity|].
  symmetry. apply existsb_exists. exists k. split; [assumption|apply Nat.eqb_refl].
Qed.

Lemma b32encode_ascii b : is_bytes b -> Forall (fun c => c < 128) (b32encode b).
Proof.
  intros H. destruct (b32encode_shape b H) as (d & k & -> & Hd & _). apply Forall_app. split.
  - apply Forall_forall. intros x Hx. rewrite forallb_forall in Hd.
    apply (is_b32_char_ascii x (Hd x Hx)).
  - apply Forall_forall. intros x Hx. apply repeat_spec in Hx. subst. reflexivity.
Qed.

Lemma b32encode_no_us b : is_bytes b -> ~ In c_us (b32encode b).
Proof.
  intros H. destruct (b32encode_shape b H) as (d & k & -> & Hd & _). intros Hin.
  apply in_app_or in Hin as [Hin|Hin].
  - rewrite forallb_forall in Hd. apply Hd in Hin. apply is_b32_char_ascii in Hin. tauto.
  - apply repeat_spec in Hin. discriminate.
Qed.

(** librksv's b32decode inverts the encoder under Python 2, and never works
    under Python 3. *)
Theorem b32decode_encode_py2 b : is_bytes b -> b32decode Py2 (b32encode b) = Ok b.
Proof.
  intros H. unfold b32decode.
  rewrite (proj2 (is_ascii_spec _) (b32encode_ascii b H)).
  replace (re_match b32Regex (b32encode b)) with true; [now apply py_b32decode_encode|].
  destruct (b32encode_shape b H) as (d & k & -> & Hd & Hk & _).
  symmetry. apply b32Regex_spec. exists d, k, []. rewrite app_nil_r. repeat split.
  - apply forallb_forall. intros x Hx. rewrite forallb_forall in Hd.
    apply (is_b32_char_ascii x (Hd x Hx)).
  - simpl in Hk. lia.
  - now left.
Qed.

Theorem b32decode_py3 s : b32decode Py3 s = Err PyAttributeError.
Proof. reflexivity. Qed.
